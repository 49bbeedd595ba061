(** Facts about objects whose internal variables have been computed, used for the model manipulation tools. *)
From Verif Require Import Py PyFacts Base Expressions Norms Sample SampleFacts Channels ChannelFacts Params ParamsFacts Core CoreFacts CoreSpec CoreYields ModelIO ModelIOFacts ModelTools.
Local Open Scope string_scope.
Local Open Scope list_scope.

Lemma Forall2_in_right {A B} (P : A -> B -> Prop) l r b : Forall2 P l r -> In b r -> exists a, In a l /\ P a b.
Proof.
  induction 1 as [|x y l r H1 H2 IH]; [intros []|]. intros [<-|H]; [exists x; split; [now left|exact H1]|].
  destruct (IH H) as (a & Ha & Hp). exists a. split; [now right|exact Hp].
Qed.

(** a sample that set_np_data leaves unchanged *)
Definition done (names : list string) (s : Sample) : Prop :=
  (s_nominal_norm s = None -> s_norm s = NumberNorm None) /\ s_yields s <> None /\
  (forall n, In n names -> dmem n (s_impacts s) = true \/ exists v, s_norm s = NumberNorm v).
Definition all_done (names : list string) (chs : dict Channel) : Prop :=
  forall k c n s, In (k, c) chs -> In (n, s) (ch_samples c) -> done names s.

Lemma set_np_data_fix fuel fmt nps rls rv var s : done (map (fun p => fst (fst p)) nps) s -> set_np_data fuel fmt nps rls rv var s = Ok s.
Proof.
  intros (Hn & Hy & Hi). unfold set_np_data.
  assert (A : foldM (fun imps p => if dmem (fst (fst p)) imps then Ok imps
      else let! im := implicit_impact fuel fmt (s_norm s) (fst (fst p)) (snd (fst p)) (snd p) rls rv var in
           match im with None => Ok imps | Some d => Ok (dset (fst (fst p)) (JObj d) imps) end) nps (s_impacts s) = Ok (s_impacts s)).
  { clear Hn Hy. induction nps as [|p l IH]; cbn [foldM]; [reflexivity|].
    destruct (Hi (fst (fst p))) as [E|[v E]]; [left; reflexivity| |].
    - rewrite E. cbn [bind]. apply IH. intros n Hin. apply Hi. now right.
    - assert (E2 : implicit_impact fuel fmt (s_norm s) (fst (fst p)) (snd (fst p)) (snd p) rls rv var = Ok None) by (rewrite E; reflexivity).
      rewrite E2. cbn [bind]. destruct (dmem (fst (fst p)) (s_impacts s)); cbn [bind]; apply IH; intros n Hin; apply Hi; now right. }
  destruct (s_yields s) as [y|] eqn:Ey; [|contradiction]. cbn [bind]. rewrite A. cbn [bind].
  destruct s as [nm nr nn yy im]; cbn [s_name s_norm s_nominal_norm s_yields s_impacts] in *. subst yy. f_equal. f_equal.
  destruct nn as [x|]; [reflexivity|]. rewrite (Hn eq_refl). reflexivity.
Qed.

Lemma imps_grow (im : string * R * R -> res (option (dict jv))) nps : forall d d',
  foldM (fun imps p => if dmem (fst (fst p)) imps then Ok imps
      else let! r := im p in match r with None => Ok imps | Some x => Ok (dset (fst (fst p)) (JObj x) imps) end) nps d = Ok d' ->
  (forall k, dmem k d = true -> dmem k d' = true) /\
  ((forall p, exists x, im p = Ok (Some x) \/ exists e, im p = Err e) -> forall p, In p nps -> dmem (fst (fst p)) d' = true).
Proof.
  induction nps as [|p l IH]; intros d d' H; cbn [foldM] in H.
  - inversion H; subst. split; [auto|]. intros _ p [].
  - apply bind_Ok in H as (d1 & H1 & H). destruct (IH _ _ H) as (A & B).
    assert (G : forall k, dmem k d = true -> dmem k d1 = true).
    { intros k Hk. destruct (dmem (fst (fst p)) d); [inversion H1; subst; exact Hk|]. apply bind_Ok in H1 as (r & Hr & H1).
      destruct r as [x|]; inversion H1; subst; auto. unfold dmem in *. destruct (String.eqb k (fst (fst p))) eqn:Ek.
      - apply String.eqb_eq in Ek. subst. now rewrite dget_dset_eq.
      - apply String.eqb_neq in Ek. rewrite dget_dset_neq by congruence. exact Hk. }
    split; [auto|]. intros Htot q [<-|Hq]; [|apply B; auto]. apply A. destruct (dmem (fst (fst p)) d) eqn:Em; [now apply G|].
    apply bind_Ok in H1 as (r & Hr & H1). destruct (Htot p) as (x & [Hx|(e & Hx)]); rewrite Hx in Hr; inversion Hr; subst r.
    inversion H1. unfold dmem. now rewrite dget_dset_eq.
Qed.
Lemma set_np_data_done fuel fmt nps rls rv var s s' : set_np_data fuel fmt nps rls rv var s = Ok s' -> done (map (fun p => fst (fst p)) nps) s'.
Proof.
  unfold set_np_data. intros H. apply bind_Ok in H as (y & Hy & H). apply bind_Ok in H as (im & Him & H). inversion H; subst s'; clear H.
  unfold done. cbn [s_nominal_norm s_norm s_yields s_impacts]. split; [|split].
  - destruct (s_nominal_norm s); [discriminate|]. destruct (s_norm s) as [[v|]|e]; intros Hz; [|reflexivity|].
    + discriminate.
    + cbn in Hz. destruct (String.eqb e ""); [discriminate|]. match type of Hz with context [dgetE ?a ?b] => destruct (dgetE a b); discriminate end.
  - destruct (s_yields s); [inversion Hy; discriminate|]. destruct (match s_nominal_norm s with Some x => Some x | None => _ end); [|discriminate]. inversion Hy; discriminate.
  - intros n Hn. destruct (s_norm s) as [v|e] eqn:En; [right; eauto|]. left. apply in_map_iff in Hn as (p & <- & Hp).
    eapply (proj2 (imps_grow _ _ _ _ Him)); [|exact Hp]. intros q. cbn [implicit_impact].
    destruct (if Reqb (snd (fst q)) 0 then Ok 0 else _) as [rel|er]; cbn [bind]; [eexists; left; reflexivity|exists []; right; eauto].
Qed.

Lemma built_done E m I : built E m I -> all_done (keys (m_nps m)) (i_channels I).
Proof.
  intros Bt. destruct (pmodel_names _ _ (bt_pm _ _ _ Bt)) as (_ & Hn & _). destruct (bt_chs _ _ _ Bt) as (rv & _ & HF).
  intros k c n s Hk Hs. destruct (Forall2_in_right _ _ _ _ HF Hk) as ([k0 c0] & _ & _ & Hu). cbn [snd] in Hu.
  apply update_channel_same in Hu as (_ & _ & _ & HF2). destruct (Forall2_in_right _ _ _ s HF2) as (s0 & _ & H0).
  - change s with (snd (n, s)). now apply in_map.
  - rewrite <- Hn. exact (set_np_data_done _ _ _ _ _ _ _ _ H0).
Qed.

(** channels whose samples are complete are left unchanged by the computation of the internal variables *)
Lemma built_fixed E m I : built E m I -> NoDup (keys (m_channels m)) -> all_done (keys (m_nps m)) (m_channels m) -> i_channels I = m_channels m.
Proof.
  intros Bt Hd Hdone. destruct (pmodel_names _ _ (bt_pm _ _ _ Bt)) as (_ & Hn & _). destruct (bt_chs _ _ _ Bt) as (rv & _ & HF).
  rewrite (built_poisson_first E m I Hd Bt) in HF.
  assert (G : Forall2 eq (m_channels m) (i_channels I)); [|clear - G; induction G; congruence].
  eapply Forall2_impl_in; [|exact HF]. intros [k c] [k' c'] Hin (E1 & E2). cbn [fst snd] in *. subst k'. f_equal.
  unfold update_channel in E2. apply bind_Ok in E2 as (sm & Hsm & E2). inversion E2; subst c'; clear E2.
  destruct c as [cn ck cs]; cbn [ch_name ch_kind ch_samples] in *. f_equal. apply mapM_Forall2 in Hsm.
  assert (G : Forall2 eq cs sm); [|clear - G; induction G; congruence].
  eapply Forall2_impl_in; [|exact Hsm]. intros [n s] [n' s'] Hs Hx. cbn [fst snd] in Hx.
  rewrite set_np_data_fix in Hx; [inversion Hx; reflexivity|]. change (map _ _) with (np_names (i_pm I)). rewrite Hn. exact (Hdone _ _ _ _ Hin Hs).
Qed.

(** an object returned by [finish]: its channels are those of the internal variables *)
Definition object (E : Env) (m : Model) (I : Internal) : Prop := set_internal_vars E m = Ok I /\ m_channels m = i_channels I.
Lemma with_channels_same m : with_channels m (m_channels m) = m. Proof. now destruct m. Qed.
Lemma finish_object E m0 m I : finish E m0 = Ok (m, I) -> object E m I.
Proof.
  unfold finish. intros H. apply bind_Ok in H as (it & Hit & H). inversion H; subst; clear H. split; [now apply siv_idem|reflexivity].
Qed.
Lemma object_finish E m I : object E m I -> finish E m = Ok (m, I).
Proof. intros (H & Hc). unfold finish. rewrite H. cbn [bind]. rewrite <- Hc, with_channels_same. reflexivity. Qed.
Lemma object_done E m I : object E m I -> all_done (keys (m_nps m)) (m_channels m).
Proof. intros (H & Hc). rewrite Hc. apply (built_done E m I), siv_built, H. Qed.
