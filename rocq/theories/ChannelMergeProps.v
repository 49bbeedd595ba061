(** C58: merging channels preserves the predictions and the data. *)
From Coq Require Import Permutation.
From Verif Require Import CoreExample Py PyFacts Base Expressions ExprSpec ExprFacts Norms RSort Sample SampleFacts Channels ChannelFacts Params ParamsFacts Core CoreFacts CoreSpec CoreCoefs CoreYields ModelIO ModelIOFacts ModelIOProps ModelTools ModelToolsFacts ReparamFacts NPPruneFacts NPPruneProps ChannelMergeFacts.
Local Open Scope string_scope.
Local Open Scope list_scope.
Local Open Scope R_scope.

(** * sums *)
Lemma lsum_perm l l' : Permutation l l' -> lsum l = lsum l'.
Proof. induction 1; cbn; lra. Qed.
Lemma lsum_filter_zero {A} (p : A -> bool) (g : A -> R) l : (forall x, In x l -> p x = false -> g x = 0) -> lsum (map g l) = lsum (map g (filter p l)).
Proof.
  induction l as [|x l IH]; intros H; cbn [filter map lsum]; [reflexivity|]. rewrite IH by (intros y Hy; apply H; now right).
  destruct (p x) eqn:Ep; cbn [map lsum]; [reflexivity|]. rewrite (H x (or_introl eq_refl) Ep). ring.
Qed.
Lemma lsum_subset (g : string -> R) l1 l2 : NoDup l1 -> NoDup l2 -> incl l2 l1 -> (forall x, ~ In x l2 -> g x = 0) -> lsum (map g l1) = lsum (map g l2).
Proof.
  intros N1 N2 Hi Hz. rewrite (lsum_filter_zero (memb l2) g l1) by (intros x _ Hx; apply Hz; intros X; apply memb_spec in X; congruence).
  apply lsum_perm, Permutation_map, NoDup_Permutation; [now apply filter_NoDup|exact N2|]. intros x. rewrite filter_In, memb_spec. split; [tauto|]. intros Hx. split; [now apply Hi|exact Hx].
Qed.

(** * place of the merged channel *)
(** the channels in their order, with the merged one in place of the first of those in the list *)
Fixpoint layout (tm : list string) (merged : string * Channel) (added : bool) (chs : dict Channel) : dict Channel :=
  match chs with
  | [] => []
  | (k, c) :: r => if memb tm k then (if added then layout tm merged true r else merged :: layout tm merged true r) else (k, c) :: layout tm merged added r
  end.
Definition beside (tm : list string) (kc kc' : string * Channel) : Prop :=
  fst kc' = fst kc /\ ch_name (snd kc') = ch_name (snd kc) /\ (~ In (fst kc) tm -> snd kc' = snd kc).
Lemma layout_keys_notin tm mk added : forall chs x, In x (keys (layout tm mk added chs)) -> x = fst mk \/ In x (keys chs) /\ ~ In x tm.
Proof.
  intros chs. revert added. induction chs as [|[k c] r IH]; intros added x H; cbn [layout] in H; [destruct H|].
  unfold keys in *. destruct (memb tm k) eqn:Em.
  - destruct added; cbn [map] in H; [destruct (IH _ _ H) as [A|(A & B)]; [now left|right; split; [now right|exact B]]|].
    destruct H as [<-|H]; [now left|]. destruct (IH _ _ H) as [A|(A & B)]; [now left|right; split; [now right|exact B]].
  - cbn [map fst] in H. destruct H as [<-|H]; [right; split; [now left|]|destruct (IH _ _ H) as [A|(A & B)]; [now left|right; split; [now right|exact B]]].
    intros X. apply memb_spec in X. congruence.
Qed.
Lemma layout_added_in tm mk : forall chs x, In x (keys (layout tm mk true chs)) -> In x (keys chs) /\ ~ In x tm.
Proof.
  induction chs as [|[k c] r IH]; intros x H; cbn [layout] in H; [destruct H|]. unfold keys in *. destruct (memb tm k) eqn:Em.
  - destruct (IH _ H) as (A & B). split; [now right|exact B].
  - cbn [map fst] in H. destruct H as [<-|H]; [split; [now left|]; intros X; apply memb_spec in X; congruence|]. destruct (IH _ H) as (A & B). split; [now right|exact B].
Qed.
Lemma layout_nodup tm mk : forall chs added, NoDup (keys chs) -> (In (fst mk) (keys chs) -> In (fst mk) tm) -> NoDup (keys (layout tm mk added chs)).
Proof.
  induction chs as [|[k c] r IH]; intros added Hn Hf; cbn [layout]; [constructor|]. unfold keys in *. cbn [map fst] in Hn, Hf. inversion Hn; subst.
  assert (Hf' : In (fst mk) (map fst r) -> In (fst mk) tm) by (intros X; apply Hf; now right).
  destruct (memb tm k) eqn:Em.
  - destruct added; [now apply IH|]. cbn [map]. constructor; [|now apply IH]. intros X. apply (layout_added_in tm mk) in X as (A & B). auto.
  - cbn [map fst]. constructor; [|now apply IH]. intros X. destruct (layout_keys_notin tm mk added _ _ X) as [A|(A & _)]; [|contradiction].
    assert (In k tm) by (subst k; apply Hf; now left). apply memb_spec in H. congruence.
Qed.
Lemma place_layout tm mc : forall chs0 chs' added acc, Forall2 (beside tm) chs0 chs' -> (forall k c, In (k, c) chs0 -> ch_name c = k) ->
  NoDup (keys acc ++ keys (layout tm (ch_name mc, mc) added chs0)) ->
  place_merged tm mc added chs' acc = acc ++ layout tm (ch_name mc, mc) added chs0.
Proof.
  intros chs0 chs' added acc HF. revert added acc. induction HF as [|[k c] [k' c'] l r (B1 & B2 & B3) HF IH]; intros added acc Hn Hd; cbn [place_merged layout]; [now rewrite app_nil_r|].
  cbn [fst snd] in *. subst k'. assert (Ek : ch_name c = k) by (apply Hn; now left). rewrite B2, Ek. change (existsb (String.eqb k) tm) with (memb tm k).
  assert (Hn' : forall k c, In (k, c) l -> ch_name c = k) by (intros; apply Hn; now right). cbn [layout] in Hd. destruct (memb tm k) eqn:Em; cbn [negb].
  - destruct added; [now apply IH|]. unfold keys in Hd. cbn [map fst] in Hd. fold (keys acc) in Hd.
    rewrite dset_app_new by (intros X; apply (NoDup_remove_2 _ _ _ Hd), in_or_app; now left). rewrite IH; [now rewrite <- app_assoc|exact Hn'|].
    unfold keys. rewrite map_app. cbn [map fst]. rewrite <- app_assoc. exact Hd.
  - rewrite B3 by (intros X; apply memb_spec in X; congruence). unfold keys in Hd. cbn [map fst] in Hd. fold (keys acc) in Hd.
    rewrite dset_app_new by (intros X; apply (NoDup_remove_2 _ _ _ Hd), in_or_app; now left). rewrite IH; [now rewrite <- app_assoc|exact Hn'|].
    unfold keys. rewrite map_app. cbn [map fst]. rewrite <- app_assoc. exact Hd.
Qed.
Lemma layout_has_merged tm mk : forall chs, (exists k, In k tm /\ In k (keys chs)) -> exists i, nth_error (layout tm mk false chs) i = Some mk.
Proof.
  induction chs as [|[k c] r IH]; intros (x & Hx & Hk); [destruct Hk|]. cbn [layout]. destruct (memb tm k) eqn:Em; [now exists 0%nat|].
  destruct Hk as [<-|Hk]; [apply memb_spec in Hx; cbn in Hx; congruence|]. destruct IH as (i & Hi); [eauto|]. now exists (S i).
Qed.
Lemma layout_has_kept tm mk : forall chs added i k c, nth_error chs i = Some (k, c) -> ~ In k tm -> exists i2, nth_error (layout tm mk added chs) i2 = Some (k, c).
Proof.
  induction chs as [|[k0 c0] r IH]; intros added [|i] k c Hi Hk; cbn in Hi; try discriminate; cbn [layout].
  - inversion Hi; subst. destruct (memb tm k) eqn:Em; [apply memb_spec in Em; contradiction|]. now exists 0%nat.
  - destruct (memb tm k0); [destruct added|]; destruct (IH true i k c Hi Hk) as (j & Hj); try (now exists j); try (now exists (S j)).
    destruct (IH added i k c Hi Hk) as (j' & Hj'). now exists (S j').
Qed.
Lemma layout_in tm mk : forall chs added x, In x (layout tm mk added chs) -> x = mk \/ In x chs.
Proof.
  induction chs as [|[k c] r IH]; intros added x H; cbn [layout] in H; [destruct H|]. destruct (memb tm k).
  - destruct added; [destruct (IH _ _ H); [now left|right; now right]|]. destruct H as [<-|H]; [now left|]. destruct (IH _ _ H); [now left|right; now right].
  - destruct H as [<-|H]; [right; now left|]. destruct (IH _ _ H); [now left|right; now right].
Qed.

(** the channels of the original model after the call differ only in the impacts of the merged channels *)
Lemma beside_refl tm chs : Forall2 (beside tm) chs chs.
Proof. induction chs; constructor; auto. repeat split. Qed.
Lemma beside_trans tm a b c : Forall2 (beside tm) a b -> Forall2 (beside tm) b c -> Forall2 (beside tm) a c.
Proof.
  apply Forall2_trans'. intros [k1 c1] [k2 c2] [k3 c3] (A1 & A2 & A3) (B1 & B2 & B3). cbn [fst snd] in *. subst k2 k3. repeat split; cbn [fst snd]; [congruence|].
  intros H. rewrite B3, A3; auto.
Qed.
Lemma beside_dset tm chs k c c' : In k tm -> dget k chs = Some c -> ch_name c' = ch_name c -> Forall2 (beside tm) chs (dset k c' chs).
Proof.
  intros Hk. induction chs as [|[k0 c0] r IH]; intros Hg Hn; cbn [dget dset] in *; [discriminate|]. destruct (String.eqb k k0) eqn:Ek.
  - apply String.eqb_eq in Ek. subst k0. inversion Hg; subst. constructor; [|apply beside_refl]. repeat split; cbn [fst snd]; auto; contradiction.
  - constructor; [repeat split; auto|]. auto.
Qed.
Lemma beside_set tm chs k n s : In k tm -> Forall2 (beside tm) chs (set_sample chs k n s).
Proof.
  intros Hk. unfold set_sample. destruct (dget k chs) as [c|] eqn:Eg; [|apply beside_refl]. eapply beside_dset; eauto.
Qed.
Lemma beside_collected chs0 tm past st : NoDup (keys chs0) -> collected chs0 tm past st -> Forall2 (beside tm) chs0 (fst st).
Proof.
  intros Hd Hco. pose proof (co_grown _ _ _ _ Hco) as Hg. pose proof (co_kept _ _ _ _ Hco) as Hk.
  assert (Ek : keys (fst st) = keys chs0) by (eapply Forall2_keys; [|exact Hg]; cbn; intros a b X; apply X).
  apply Forall2_of_nth; [exact (Forall2_length _ _ _ Hg)|]. intros i [k c] [k' c'] Ha Hb.
  destruct (Forall2_nth _ _ _ _ _ Hg Ha) as ([k2 c2] & Hb2 & B1 & B2 & _). rewrite Hb in Hb2. inversion Hb2; subst k2 c2. cbn [fst snd] in *. subst k'.
  repeat split; cbn [fst snd]; auto. intros Hkt. specialize (Hk k Hkt).
  assert (D1 : dget k chs0 = Some c) by (apply In_dget; [exact Hd|eapply nth_error_In; eauto]).
  assert (D2 : dget k (fst st) = Some c') by (apply In_dget; [now rewrite Ek|eapply nth_error_In; eauto]). congruence.
Qed.

(** * hypotheses *)
(** the channels to merge are counting channels: single-bin channels, or channels with a list of bins when no ranges are given for the bins of the merged channel *)
Definition counting (chs : dict Channel) (tm : list string) (ob : option (list (R * R))) : Prop :=
  forall k c, In k tm -> dget k chs = Some c -> ch_kind c = KSingle \/ ob = None /\ exists bins, ch_kind c = KMulti bins.
Lemma selected_cons chs k l c : dget k chs = Some c -> total_bins (selected chs (k :: l)) = (nbins c + total_bins (selected chs l))%nat.
Proof. intros H. unfold selected. cbn [map concat]. rewrite H. reflexivity. Qed.
Lemma counting_bins chs0 chs tm ob kd obn obu P : chans P chs0 chs -> (forall k, In k tm -> exists c, dget k chs0 = Some c) -> counting chs0 tm ob ->
  match ob with None => let! b := merged_bins chs tm in Ok (Some (KMulti b)) | Some l => Ok (if (length l =? length tm)%nat then Some (KRange l obn obu) else None) end = Ok (Some kd) ->
  forall nm sm, nbins (mkChannel nm kd sm) = total_bins (selected chs0 tm).
Proof.
  intros Hg Hall Hc H nm sm. destruct ob as [l|].
  - destruct (Nat.eqb_spec (length l) (length tm)) as [El|]; [|discriminate]. inversion H; subst kd. unfold nbins. cbn [ch_kind]. rewrite El.
    assert (G : forall l, (forall k, In k l -> In k tm) -> length l = total_bins (selected chs0 l)); [|apply G; auto].
    clear -Hall Hc. intros l0 Hl. induction l0 as [|k r IH]; [reflexivity|]. assert (Hk : In k tm) by (apply Hl; now left). destruct (Hall k Hk) as (c & Ec).
    pose proof (selected_spec chs0 (k :: r)) as Sp. cbn [length]. rewrite IH by (intros; apply Hl; now right).
    rewrite (selected_cons _ _ _ _ Ec).
    destruct (Hc k c Hk Ec) as [X|(X & _)]; [|discriminate]. unfold nbins. rewrite X. reflexivity.
  - apply bind_Ok in H as (b & Hb & H). inversion H; subst kd. unfold merged_bins in Hb. apply bind_Ok in Hb as (bl & Hbl & Hb). inversion Hb; subst b. unfold nbins. cbn [ch_kind].
    apply mapM_Forall2 in Hbl. clear Hb H. assert (G : forall l bl, (forall k, In k l -> In k tm) -> Forall2 (fun a b => (let! c := dgetE a chs in Ok (match ch_kind c with KSingle => [a] | KMulti bins => bins | _ => [] end)) = Ok b) l bl -> length (concat bl) = total_bins (selected chs0 l)); [|apply G; auto].
    clear Hbl bl. intros l bl Hl HF. induction HF as [|k r l bl H1 HF IH]; [reflexivity|]. assert (Hk : In k tm) by (apply Hl; now left). destruct (Hall k Hk) as (c & Ec).
    cbn [concat]. rewrite app_length, IH by (intros; apply Hl; now right).
    rewrite (selected_cons _ _ _ _ Ec). f_equal.
    destruct (chans_dget _ _ _ _ _ Hg Ec) as (c' & Ec' & _ & Ek & _). unfold dgetE in H1. rewrite Ec' in H1. cbn [bind] in H1. rewrite Ek in H1. unfold nbins.
    destruct (Hc k c Hk Ec) as [X|(_ & bins & X)]; rewrite X in *; inversion H1; reflexivity.
Qed.

(** * what the merge gives *)
(** the model can be merged: everything is stored under its name, and the channels and their tables are as above *)
Record mergeable (m : Model) (tm : list string) (name : string) (ob : option (list (R * R))) : Prop := mkMergeable {
  mg_keyed : ModelIOProps.keyed m; mg_nodup : NoDup tm; mg_fresh : In name (keys (m_channels m)) -> In name tm;
  mg_count : counting (m_channels m) tm ob; mg_bins : binwise (m_channels m) tm; mg_tables : simple_tables (m_channels m) tm; mg_norms : same_norms (m_channels m) tm }.

Lemma nth_dget {V} (d : dict V) i k v : NoDup (keys d) -> nth_error d i = Some (k, v) -> dget k d = Some v.
Proof. intros Hn Hi. apply In_dget; [exact Hn|]. eapply nth_error_In; eauto. Qed.
Lemma effect_flags E m m' s b n x : m_asym m' = m_asym m -> m_linear m' = m_linear m -> effect E m' s b n x = effect E m s b n x.
Proof. intros A B. unfold effect. now rewrite A, B. Qed.

Lemma merge_core_kind E m I tm name ob obn obu chs' m2 I2 : signs E -> object E m I -> all_fit (m_channels m) -> mergeable m tm name ob ->
  merge_channels E m tm name ob obn obu = Ok (Some (chs', (m2, I2))) ->
  exists mc, object E m2 I2 /\ (forall k, In k tm -> exists c, dget k (m_channels m) = Some c) /\ tm <> [] /\
  m_pois m2 = m_pois m /\ m_nps m2 = m_nps m /\ m_aux m2 = m_aux m /\ m_exprs m2 = m_exprs m /\ m_asym m2 = m_asym m /\ m_linear m2 = m_linear m /\ m_cutoff m2 = 0 /\
  m_channels m2 = layout tm (name, mc) false (m_channels m) /\ NoDup (keys (m_channels m2)) /\ nbins mc = total_bins (selected (m_channels m) tm) /\
  NoDup (keys (ch_samples mc)) /\ (forall k n s, In k tm -> sample_of (m_channels m) k n = Some s -> In n (keys (ch_samples mc))) /\
  (forall n s', In (n, s') (ch_samples mc) -> merged_ok E m (m_channels m) tm n s') /\
  ch_name mc = name /\ is_gaussian mc = false /\ m_name m2 = m_name m /\ m_descr m2 = None /\ m_simple_sym m2 = m_simple_sym m /\ m_lognormal m2 = m_lognormal m.
Proof.
  intros Sg Ob Hfit [K Ht Hf Hc Hb Hs Hno] H. unfold merge_channels in H. apply bind_Ok in H as (ck & Hck & H). destruct ck as [[chs owners]|]; [|discriminate].
  destruct (cmerger_spec _ _ _ _ Hck) as (A & Hne & past & Hco & Hpast).
  assert (Hall : forall k, In k tm -> exists c, dget k (m_channels m) = Some c) by (intros k Hk; destruct (A k Hk) as (c & X & _); eauto).
  pose proof (proj1 (ky_chs _ K)) as Hd. pose proof (beside_collected _ _ _ _ Hd Hco) as HB. cbn [fst] in HB.
  assert (Hg : chans grown (m_channels m) chs) by apply (co_grown _ _ _ _ Hco). pose proof (co_nodup _ _ _ _ Hco) as Hon. cbn [snd] in Hon.
  apply bind_Ok in H as (sm & Hsm & H). set (chs2 := fold_left _ owners chs) in H. apply bind_Ok in H as (kind & Hkind & H). destruct kind as [kd|]; [|discriminate].
  apply bind_Ok in H as ([m3 I3] & Hin & H). inversion H; subst chs' m3 I3; clear H. set (mc := mkChannel name kd sm) in *.
  assert (HB2 : Forall2 (beside tm) (m_channels m) chs2).
  { assert (Ho : forall n o, In (n, o) owners -> In o tm) by (intros n o X; apply (co_owner _ _ _ _ Hco n o); cbn [snd]; now apply In_dget).
    unfold chs2. clearbody mc. clear -HB Ho. revert chs HB. induction owners as [|[n o] r IH]; intros chs HB; [exact HB|]. cbn [fold_left fst snd]. apply IH; [intros n' o' X; apply (Ho n' o'); now right|].
    eapply beside_trans; [exact HB|]. destruct (sample_of chs o n); [|apply beside_refl]. destruct (dget n sm); [|apply beside_refl]. apply beside_set. apply (Ho n o). now left. }
  pose proof (counting_bins (m_channels m) chs tm ob kd obn obu grown Hg Hall Hc Hkind name sm) as Hnb. fold mc in Hnb.
  assert (Hln : NoDup (keys (layout tm (name, mc) false (m_channels m)))) by (apply layout_nodup; [exact Hd|exact Hf]).
  assert (Hpl : place_merged tm mc false chs2 [] = layout tm (name, mc) false (m_channels m)).
  { rewrite (place_layout tm mc (m_channels m) chs2 false [] HB2); [reflexivity|intros k c X; apply (proj2 (ky_chs _ K) k c X)|exact Hln]. }
  rewrite Hpl in Hin. set (LY := layout tm (name, mc) false (m_channels m)) in *.
  (* samples *)
  apply mapM_Forall2 in Hsm.
  assert (Hsk : keys sm = keys owners /\ forall n s', In (n, s') sm -> merged_ok E m (m_channels m) tm n s').
  { assert (HF2 : Forall2 (fun no ns => fst ns = fst no /\ merged_ok E m (m_channels m) tm (fst no) (snd ns)) owners sm).
    { eapply Forall2_impl_in; [|exact Hsm]. intros [n o] ns Hno' Hns. cbn [fst]. apply In_dget in Hno'; [|exact Hon].
      eapply (merged_sample_ok E m (m_channels m) chs tm owners past n o ns); eauto. }
    split; [eapply Forall2_keys; [|exact HF2]; cbn; intros a b X; apply X|]. intros n s' X. destruct (Forall2_in_right _ _ _ _ HF2 X) as ([n0 o] & _ & E1 & E2). cbn [fst snd] in *. now subst n0. }
  destruct Hsk as (Hsk & Hmok).
  (* model *)
  unfold model_init in Hin. cbn [m_pois m_nps m_aux m_channels m_exprs m_name m_descr m_asym m_linear m_simple_sym m_lognormal] in Hin. unfold rekey in Hin.
  pose proof (rekey_id (fun p => name_of (poi_name p)) (m_pois m) [] (proj1 (ky_pois _ K)) (fun k p Hin => f_equal name_of (proj2 (ky_pois _ K) k p Hin))) as R1.
  pose proof (rekey_nps (m_aux m) (m_nps m) [] (proj1 (ky_nps _ K)) (proj2 (ky_nps _ K))) as R2.
  pose proof (rekey_id (fun p => name_of (aux_name p)) (m_aux m) [] (proj1 (ky_aux _ K)) (fun k p Hin => f_equal name_of (proj2 (ky_aux _ K) k p Hin))) as R3.
  assert (Hnm : forall k c, In (k, c) LY -> Ok (ch_name c) = Ok k).
  { intros k c X. destruct (layout_in _ _ _ _ _ X) as [Y|Y]; [inversion Y; reflexivity|]. f_equal. apply (proj2 (ky_chs _ K) k c Y). }
  pose proof (rekey_id (fun c => Ok (ch_name c)) LY [] Hln Hnm) as R4.
  pose proof (rekey_id (fun e => Ok (expr_name e)) (m_exprs m) [] (proj1 (ky_exprs _ K)) (fun k p Hin => f_equal Ok (proj2 (ky_exprs _ K) k p Hin))) as R5.
  cbn [app] in R1, R2, R3, R4, R5. cbn [bind] in *. rewrite R1 in Hin. cbn [bind] in Hin. rewrite R2 in Hin. cbn [bind] in Hin. rewrite R3 in Hin. cbn [bind] in Hin. rewrite R4 in Hin. cbn [bind] in Hin. rewrite R5 in Hin. cbn [bind] in Hin.
  assert (Ob2 := finish_object _ _ _ _ Hin). unfold finish in Hin. apply bind_Ok in Hin as (it & Hit & Hin). inversion Hin; subst it; clear Hin.
  assert (Hdone : all_done (keys (m_nps m)) LY).
  { pose proof (object_done _ _ _ Ob) as D0. intros k c n s Hk Hn. destruct (layout_in _ _ _ _ _ Hk) as [Y|Y]; [|exact (D0 _ _ _ _ Y Hn)].
    inversion Y; subst k c. cbn [ch_samples] in Hn. destruct (Hmok n s Hn) as ((k0 & s0 & B1 & B2 & B3 & B4 & B5 & B6) & (y & Hy & _) & _).
    unfold sample_of in B2. destruct (dget k0 (m_channels m)) as [c0|] eqn:E0; [|discriminate]. destruct (D0 k0 c0 n s0 (dget_In _ _ _ E0) (dget_In _ _ _ B2)) as (D1 & _ & D3).
    split; [rewrite B5, B4; exact D1|]. split; [rewrite Hy; discriminate|]. intros p Hp. destruct (D3 p Hp) as [X|X]; [left|right; rewrite B4; exact X].
    apply dmem_spec, B6, dmem_spec, X. }
  pose proof (built_fixed _ _ _ (siv_built _ _ _ Hit)) as Hfx. cbn [m_channels m_nps] in Hfx. specialize (Hfx Hln Hdone).
  exists mc. subst m2. split; [exact Ob2|]. cbn [with_channels m_pois m_nps m_aux m_channels m_exprs m_asym m_linear m_cutoff]. rewrite Hfx.
  assert (Esm : ch_samples mc = sm) by reflexivity.
  repeat (match goal with |- _ /\ _ => split end); auto.
  - rewrite Esm, Hsk. exact Hon.
  - intros k n s Hk Hsn. rewrite Esm, Hsk. destruct (co_past _ _ _ _ Hco k n (Hpast k n s Hk Hsn)) as (o & so & X & _). cbn [snd] in X. apply dmem_spec. unfold dmem. now rewrite X.
  - clear - Hkind. unfold is_gaussian. cbn [mc ch_kind]. destruct ob as [l|]; [destruct (length l =? length tm)%nat; inversion Hkind; reflexivity|apply bind_Ok in Hkind as (b & _ & Hk); inversion Hk; reflexivity].
Qed.
Lemma merge_core E m I tm name ob obn obu chs' m2 I2 : signs E -> object E m I -> all_fit (m_channels m) -> mergeable m tm name ob ->
  merge_channels E m tm name ob obn obu = Ok (Some (chs', (m2, I2))) ->
  exists mc, object E m2 I2 /\ (forall k, In k tm -> exists c, dget k (m_channels m) = Some c) /\ tm <> [] /\
  m_pois m2 = m_pois m /\ m_nps m2 = m_nps m /\ m_aux m2 = m_aux m /\ m_exprs m2 = m_exprs m /\ m_asym m2 = m_asym m /\ m_linear m2 = m_linear m /\ m_cutoff m2 = 0 /\
  m_channels m2 = layout tm (name, mc) false (m_channels m) /\ NoDup (keys (m_channels m2)) /\ nbins mc = total_bins (selected (m_channels m) tm) /\
  NoDup (keys (ch_samples mc)) /\ (forall k n s, In k tm -> sample_of (m_channels m) k n = Some s -> In n (keys (ch_samples mc))) /\
  (forall n s', In (n, s') (ch_samples mc) -> merged_ok E m (m_channels m) tm n s').
Proof.
  intros Sg Ob Hf Mg H. destruct (merge_core_kind E m I tm name ob obn obu chs' m2 I2 Sg Ob Hf Mg H) as (mc & Ob2 & Hall & Hne & Ep & En & Ea & Ee & Eas & Eli & Ecu & Ely & Hd2 & Hnb & Hsn & Hsin & Hmok & _).
  exists mc. repeat (match goal with |- _ /\ _ => split end); auto.
Qed.

(** C58: the new model has the merged channel in place of the first of the merged ones; its bins are those of the channels to merge, in the order in which they were
    listed, and the yields in each of them are the same as before, for all values of the parameters.  The channels keep their order and their yields otherwise. *)
Theorem C58_merged_yields : forall E m0 m I tm name ob obn obu chs' m2 I2 ps ns t t2, signs E -> finish E m0 = Ok (m, I) -> names_ok m -> tables_ok E m (m_channels m) ->
  mergeable m tm name ob -> m_cutoff m = 0 -> merge_channels E m tm name ob obn obu = Ok (Some (chs', (m2, I2))) -> tables_ok E m2 (m_channels m2) ->
  length ps = length (m_pois m) -> tot_bin_exp m I ps ns None = Ok t -> tot_bin_exp m2 I2 ps ns None = Ok t2 ->
  exists i2 mc, nth_error (m_channels m2) i2 = Some (name, mc) /\ nbins mc = total_bins (selected (m_channels m) tm) /\
  forall j i k c b, nth_error tm j = Some k -> nth_error (m_channels m) i = Some (k, c) -> (b < nbins c)%nat ->
  t2 (total_bins (firstn i2 (m_channels m2)) + (total_bins (selected (m_channels m) (firstn j tm)) + b))%nat = t (total_bins (firstn i (m_channels m)) + b)%nat.
Proof.
  intros E m0 m I tm name ob obn obu chs' m2 I2 ps ns t t2 Sg HF HN HT Mg Hcut H HT2 HL Ht Ht2. pose proof (finish_object _ _ _ _ HF) as Ob.
  destruct (merge_core E m I tm name ob obn obu chs' m2 I2 Sg Ob (proj1 HT) Mg H) as (mc & Ob2 & Hall & Hne & Ep & En & Ea & Ee & Eas & Eli & Ecu & Ely & Hd2 & Hnb & Hsn & Hsin & Hmok).
  assert (Hd : NoDup (keys (m_channels m))) by apply (ky_chs _ (mg_keyed _ _ _ _ Mg)).
  assert (Ob1 := Ob). destruct Ob1 as (HS & HC). assert (Ob3 := Ob2). destruct Ob3 as (HS2 & HC2). pose proof (siv_built _ _ _ HS) as Bt. pose proof (siv_built _ _ _ HS2) as Bt2.
  destruct (layout_has_merged tm (name, mc) (m_channels m)) as (i2 & Hi2).
  { destruct tm as [|k0 r]; [contradiction|]. destruct (Hall k0 (or_introl eq_refl)) as (c0 & Hc0). exists k0. split; [now left|]. apply dmem_spec. unfold dmem. now rewrite Hc0. }
  rewrite <- Ely in Hi2. exists i2, mc. split; [exact Hi2|]. split; [exact Hnb|]. intros j i k c b Hj Hi Hb.
  pose proof (nth_dget _ _ _ _ Hd Hi) as Hkc. pose proof (selected_bins (m_channels m) tm j k c b Hall Hj Hkc Hb) as HB. rewrite <- Hnb in HB.
  assert (HN2 : names_ok m2) by (unfold names_ok in *; rewrite Ep, En, Ee; exact HN).
  rewrite HC in Hi |- *. rewrite HC2 in Hi2 |- *. rewrite HC in HT. rewrite HC2 in HT2.
  rewrite (tot_bin_at E m I ps ns t i k c b Bt HN HT HL Ht Hi Hb).
  assert (HL2 : length ps = length (m_pois m2)) by (rewrite Ep; exact HL).
  rewrite <- HC. rewrite (tot_bin_at E m2 I2 ps ns t2 i2 name mc _ Bt2 HN2 HT2 HL2 Ht2 Hi2 HB).
  assert (Hkt : In k tm) by (eapply nth_error_In; eauto).
  set (B := (total_bins (selected (m_channels m) (firstn j tm)) + b)%nat) in *.
  set (g := fun n => match dget n (ch_samples c) with Some s => spec_yield m ps s b * cut (m_cutoff m) (np_factor E m s b ns) | None => 0 end).
  assert (HNk : NoDup (keys (m_nps m))) by (apply (NoDup_app_r _ _ (names_ok_base _ HN))).
  assert (G2 : map (fun sm => spec_yield m2 ps sm B * cut (m_cutoff m2) (np_factor E m2 sm B ns)) (values (ch_samples mc)) = map g (keys (ch_samples mc))).
  { unfold values, keys. rewrite !map_map. apply map_ext_in. intros [n s'] Hin. cbn [fst snd]. unfold g.
    destruct (Hmok n s' Hin) as ((k0 & s0 & B1 & B2 & B3 & B4 & B5 & B6) & (y & Hy & Ly & Hyv) & Heff). specialize (Hyv j k c b Hj Hkc Hb). fold B in Hyv.
    assert (Hn2 : exists n2, n_exp m2 I2 ps ns = Ok n2) by (unfold tot_bin_exp in Ht2; apply bind_Ok in Ht2 as (n2 & Hn2 & _); eauto). destruct Hn2 as (n2 & Hn2).
    destruct (n_exp_samples m2 I2 ps ns n2 name mc n s' (bt_ns _ _ _ Bt2) Hn2) as (rv & yv & nn & _ & _ & Enn & Znn); [eapply nth_error_In; exact Hi2|exact Hin|].
    destruct (dget n (ch_samples c)) as [s|] eqn:Es.
    - assert (Hns : s_norm s' = s_norm s).
      { rewrite B4. apply (mg_norms _ _ _ _ Mg k k0 n s s0 Hkt B1); [unfold sample_of; now rewrite Hkc|exact B2]. }
      rewrite Ecu, Hcut. f_equal.
      + unfold spec_yield. rewrite Enn, Hy, Hyv. assert (Een : model_env m2 ps = model_env m ps) by (unfold model_env, par_env; now rewrite ?Ep, ?En, ?Ee).
        rewrite Een, Hns. rewrite Enn. destruct (fit_of _ _ _ _ _ (proj1 HT) (eq_trans (f_equal (dget k) (eq_sym HC)) Hkc) Es) as ((y0 & Hy0 & _) & _). rewrite Hy0.
        assert (Hn1 : exists n1, n_exp m I ps ns = Ok n1) by (unfold tot_bin_exp in Ht; apply bind_Ok in Ht as (n1 & Hn1 & _); eauto). destruct Hn1 as (n1 & Hn1).
        destruct (n_exp_samples m I ps ns n1 k c n s (bt_ns _ _ _ Bt) Hn1) as (_ & _ & nn0 & _ & _ & E0 & Z0); [eapply nth_error_In; exact Hi|now apply dget_In|].
        rewrite E0. field. split; auto.
      + f_equal. rewrite !np_factor_by_name by (rewrite ?En; exact HNk). rewrite En, Eli. f_equal. f_equal. apply map_ext_in. intros p Hp.
        rewrite (effect_flags E m m2) by assumption. apply (Heff j k c b s p _ Hj Hkc Hb Es).
    - unfold spec_yield. rewrite Enn, Hy, Hyv. ring. }
  rewrite G2.
  assert (G1 : map (fun sm => spec_yield m ps sm b * cut (m_cutoff m) (np_factor E m sm b ns)) (values (ch_samples c)) = map g (keys (ch_samples c))).
  { unfold values, keys. rewrite !map_map. apply map_ext_in. intros [n s] Hin. cbn [fst snd]. unfold g. rewrite (In_dget n s (ch_samples c)); [reflexivity| |exact Hin].
    apply (proj2 (ky_chs _ (mg_keyed _ _ _ _ Mg)) k c). now apply dget_In. }
  rewrite G1. apply lsum_subset; [exact Hsn|apply (proj2 (ky_chs _ (mg_keyed _ _ _ _ Mg)) k c); now apply dget_In| |].
  - intros n Hn. apply dmem_spec in Hn. unfold dmem in Hn. destruct (dget n (ch_samples c)) as [s|] eqn:Es; [|discriminate]. apply (Hsin k n s Hkt). unfold sample_of. now rewrite Hkc.
  - intros n Hn. unfold g. destruct (dget n (ch_samples c)) as [s|] eqn:Es; [|reflexivity]. exfalso. apply Hn, dmem_spec. unfold dmem. now rewrite Es.
Qed.
Print Assumptions C58_merged_yields.

(** C58: the channels of the new model are the merged one and those that were not merged, whose yields are unchanged *)
Theorem C58_other_channels : forall E m0 m I tm name ob obn obu chs' m2 I2 ps ns t t2, signs E -> finish E m0 = Ok (m, I) -> names_ok m -> tables_ok E m (m_channels m) ->
  mergeable m tm name ob -> m_cutoff m = 0 -> merge_channels E m tm name ob obn obu = Ok (Some (chs', (m2, I2))) -> tables_ok E m2 (m_channels m2) ->
  length ps = length (m_pois m) -> tot_bin_exp m I ps ns None = Ok t -> tot_bin_exp m2 I2 ps ns None = Ok t2 ->
  (forall k, In k (keys (m_channels m2)) <-> k = name \/ In k (keys (m_channels m)) /\ ~ In k tm) /\ NoDup (keys (m_channels m2)) /\
  forall i k c, nth_error (m_channels m) i = Some (k, c) -> ~ In k tm ->
  exists i2, nth_error (m_channels m2) i2 = Some (k, c) /\
  forall b, (b < nbins c)%nat -> t2 (total_bins (firstn i2 (m_channels m2)) + b)%nat = t (total_bins (firstn i (m_channels m)) + b)%nat.
Proof.
  intros E m0 m I tm name ob obn obu chs' m2 I2 ps ns t t2 Sg HF HN HT Mg Hcut H HT2 HL Ht Ht2. pose proof (finish_object _ _ _ _ HF) as Ob.
  destruct (merge_core E m I tm name ob obn obu chs' m2 I2 Sg Ob (proj1 HT) Mg H) as (mc & Ob2 & Hall & Hne & Ep & En & Ea & Ee & Eas & Eli & Ecu & Ely & Hd2 & Hnb & Hsn & Hsin & Hmok).
  assert (Ob1 := Ob). destruct Ob1 as (HS & HC). assert (Ob3 := Ob2). destruct Ob3 as (HS2 & HC2). pose proof (siv_built _ _ _ HS) as Bt. pose proof (siv_built _ _ _ HS2) as Bt2.
  split; [|split; [exact Hd2|]].
  - intros k. rewrite Ely. split; [apply layout_keys_notin|]. intros [->|(A & B)].
    + destruct (layout_has_merged tm (name, mc) (m_channels m)) as (i2 & Hi2).
      { destruct tm as [|k0 r]; [contradiction|]. destruct (Hall k0 (or_introl eq_refl)) as (c0 & Hc0). exists k0. split; [now left|]. apply dmem_spec. unfold dmem. now rewrite Hc0. }
      apply nth_error_In in Hi2. change name with (fst (name, mc)). now apply in_map.
    + apply dmem_spec in A. unfold dmem in A. destruct (dget k (m_channels m)) as [c|] eqn:Ec; [|discriminate]. apply dget_In, In_nth_error in Ec as (i & Hi).
      destruct (layout_has_kept tm (name, mc) _ false _ _ _ Hi B) as (i2 & Hi2). apply nth_error_In in Hi2. change k with (fst (k, c)). now apply in_map.
  - intros i k c Hi Hk. destruct (layout_has_kept tm (name, mc) _ false _ _ _ Hi Hk) as (i2 & Hi2). rewrite <- Ely in Hi2. exists i2. split; [exact Hi2|]. intros b Hb.
    assert (HN2 : names_ok m2) by (unfold names_ok in *; rewrite Ep, En, Ee; exact HN). assert (HL2 : length ps = length (m_pois m2)) by (rewrite Ep; exact HL).
    rewrite HC in Hi, HT |- *. rewrite HC2 in Hi2, HT2 |- *.
    rewrite (tot_bin_at E m I ps ns t i k c b Bt HN HT HL Ht Hi Hb), (tot_bin_at E m2 I2 ps ns t2 i2 k c b Bt2 HN2 HT2 HL2 Ht2 Hi2 Hb).
    f_equal. apply map_ext. intros s. rewrite Ecu, Hcut. assert (Een : model_env m2 ps = model_env m ps) by (unfold model_env, par_env; now rewrite ?Ep, ?En, ?Ee).
    assert (HNk : NoDup (keys (m_nps m))) by (apply (NoDup_app_r _ _ (names_ok_base _ HN))). f_equal; [unfold spec_yield; now rewrite Een|]. f_equal.
    rewrite !np_factor_by_name by (rewrite ?En; exact HNk). rewrite En, Eli. f_equal. f_equal. apply map_ext_in. intros p Hp. now apply effect_flags.
Qed.
Print Assumptions C58_other_channels.

(** * the data *)
Definition block (m : Model) (counts : list R) (k : string) : list R :=
  match dget k (m_channels m), dget k (offsets_of (m_channels m) 0) with Some c, Some o => firstn (nbins c) (skipn o counts) | _, _ => [] end.
Lemma slice_block E m I k counts s : object E m I -> channel_slice I k counts = Ok s -> s = block m counts k.
Proof.
  intros (HS & HC) H. pose proof (siv_built _ _ _ HS) as Bt. unfold channel_slice, dgetE, block in *. rewrite (bt_off _ _ _ Bt), <- HC in H.
  destruct (dget k (offsets_of (m_channels m) 0)) as [o|]; [|discriminate]. cbn [bind] in H. destruct (dget k (m_channels m)) as [c|]; [|discriminate]. cbn [bind] in H. congruence.
Qed.
Lemma nth_firstn_in {A} (d : A) : forall n l b, (b < n)%nat -> nth b (firstn n l) d = nth b l d.
Proof. induction n as [|n IH]; intros [|x l] [|b] H; cbn; try lia; try reflexivity. apply IH. lia. Qed.
Lemma nth_skipn_add {A} (d : A) : forall o l b, nth b (skipn o l) d = nth (o + b) l d.
Proof. induction o as [|o IH]; intros [|x l] b; cbn; try reflexivity; [now destruct b|apply IH]. Qed.
Lemma block_at m counts i k c : NoDup (keys (m_channels m)) -> nth_error (m_channels m) i = Some (k, c) -> (total_bins (m_channels m) <= length counts)%nat ->
  length (block m counts k) = nbins c /\ forall b, (b < nbins c)%nat -> nth b (block m counts k) 0 = nth (total_bins (firstn i (m_channels m)) + b) counts 0.
Proof.
  intros Hd Hi HL. unfold block. rewrite (nth_dget _ _ _ _ Hd Hi), (off_at _ _ _ _ Hd Hi). pose proof (total_bins_firstn _ _ _ _ Hi) as Hle.
  split; [rewrite firstn_length, skipn_length; lia|]. intros b Hb. rewrite nth_firstn_in by exact Hb. apply nth_skipn_add.
Qed.
Fixpoint data_blocks (m : Model) (tm : list string) (counts : list R) (added : bool) (ks : list string) : list (list R) :=
  match ks with
  | [] => []
  | k :: r => if memb tm k then (if added then data_blocks m tm counts true r else concat (map (block m counts) tm) :: data_blocks m tm counts true r)
              else block m counts k :: data_blocks m tm counts added r
  end.
Lemma merge_data_fold E m I tm counts : object E m I -> forall ks acc added st,
  foldM (fun st k => if negb (existsb (String.eqb k) tm) then let! s := channel_slice I k counts in Ok (fst st ++ s, snd st)
        else if (snd st : bool) then Ok st
        else let! l := mapM (fun k' => channel_slice I k' counts) tm in Ok (fst st ++ concat l, true)) ks (acc, added) = Ok st ->
  fst st = acc ++ concat (data_blocks m tm counts added ks).
Proof.
  intros Ob. induction ks as [|k ks IH]; intros acc added st H; cbn [foldM data_blocks] in *; [inversion H; cbn; now rewrite app_nil_r|].
  apply bind_Ok in H as ([a1 ad1] & H1 & H). cbn [fst snd] in H1. fold (memb tm k) in H1. destruct (memb tm k) eqn:Em; cbn [negb] in H1.
  - destruct added; [inversion H1; subst; now apply IH|]. apply bind_Ok in H1 as (l & Hl & H1). inversion H1; subst. rewrite (IH _ _ _ H). cbn [concat]. rewrite <- app_assoc. do 3 f_equal.
    apply mapM_Forall2 in Hl. clear -Ob Hl. induction Hl as [|x s l r H1 HF IH]; [reflexivity|]. cbn [map]. f_equal; [eapply slice_block; eauto|exact IH].
  - apply bind_Ok in H1 as (s & Hs & H1). inversion H1; subst. rewrite (IH _ _ _ H). cbn [concat]. rewrite <- app_assoc. do 2 f_equal. eapply slice_block; eauto.
Qed.

(** C58: the merged data have in each bin of the merged channel, and of the other channels, the count of the same bin in the original data *)
Theorem C58_merged_data : forall E m0 m I tm name ob obn obu chs' m2 I2 d d2, signs E -> finish E m0 = Ok (m, I) -> all_fit (m_channels m) ->
  mergeable m tm name ob -> merge_channels E m tm name ob obn obu = Ok (Some (chs', (m2, I2))) -> length (d_counts d) = total_bins (m_channels m) ->
  merge_data m I tm d (m2, I2) = Ok (Some d2) ->
  (exists i2 mc, nth_error (m_channels m2) i2 = Some (name, mc) /\
    forall j i k c b, nth_error tm j = Some k -> nth_error (m_channels m) i = Some (k, c) -> (b < nbins c)%nat ->
    nth (total_bins (firstn i2 (m_channels m2)) + (total_bins (selected (m_channels m) (firstn j tm)) + b)) (d_counts d2) 0 = nth (total_bins (firstn i (m_channels m)) + b) (d_counts d) 0) /\
  forall i k c b, nth_error (m_channels m) i = Some (k, c) -> ~ In k tm -> (b < nbins c)%nat ->
  exists i2, nth_error (m_channels m2) i2 = Some (k, c) /\ nth (total_bins (firstn i2 (m_channels m2)) + b) (d_counts d2) 0 = nth (total_bins (firstn i (m_channels m)) + b) (d_counts d) 0.
Proof.
  intros E m0 m I tm name ob obn obu chs' m2 I2 d d2 Sg HF HT Mg H HL Hd. pose proof (finish_object _ _ _ _ HF) as Ob.
  destruct (merge_core E m I tm name ob obn obu chs' m2 I2 Sg Ob HT Mg H) as (mc & Ob2 & Hall & Hne & Ep & En & Ea & Ee & Eas & Eli & Ecu & Ely & Hd2 & Hnb & Hsn & Hsin & Hmok).
  assert (Hdd : NoDup (keys (m_channels m))) by apply (ky_chs _ (mg_keyed _ _ _ _ Mg)).
  unfold merge_data in Hd. apply bind_Ok in Hd as (ck & _ & Hd). destruct ck; [|discriminate]. apply bind_Ok in Hd as ([cs ad] & Hst & Hd). apply bind_Ok in Hd as (r & Hr & Hd). inversion Hd; subst r; clear Hd.
  pose proof (merge_data_fold E m I tm (d_counts d) Ob _ _ _ _ Hst) as Hcs. cbn [fst snd app] in Hcs, Hr. clear Hst. set (counts := d_counts d) in *.
  assert (Hmb : Forall2 (fun kc (r : list R) => length r = nbins (snd kc)) (selected (m_channels m) tm) (map (block m counts) tm)).
  { pose proof (selected_spec (m_channels m) tm Hall) as Sp. clear -Sp Hdd HL. induction Sp as [|k [k' c] l r (A & B) F IH]; [constructor|]. cbn [map]. constructor; [|exact IH]. cbn [fst snd] in *. subst k'.
    apply dget_In, In_nth_error in B as (i & Hi). destruct (block_at m counts i k c Hdd Hi) as (X & _); [lia|exact X]. }
  assert (Hml : length (concat (map (block m counts) tm)) = nbins mc).
  { rewrite Hnb. clear -Hmb. induction Hmb as [|x y l r X F IH]; cbn; [reflexivity|]. rewrite app_length, X, IH. reflexivity. }
  (* blocks of the new model *)
  assert (HFb : forall chs added, (forall k c, In (k, c) chs -> exists i, nth_error (m_channels m) i = Some (k, c)) ->
     Forall2 (fun kc (r : list R) => length r = nbins (snd kc) /\ (kc = (name, mc) /\ r = concat (map (block m counts) tm) \/ ~ In (fst kc) tm /\ In (fst kc) (keys (m_channels m)) /\ r = block m counts (fst kc))) (layout tm (name, mc) added chs) (data_blocks m tm counts added (keys chs))).
  { clear Hr Hcs. induction chs as [|[k c] chs IH]; intros added Hin; cbn [layout keys map fst data_blocks]; [constructor|]. fold (keys chs).
    assert (Hin' : forall k c, In (k, c) chs -> exists i, nth_error (m_channels m) i = Some (k, c)) by (intros; apply Hin; now right).
    destruct (memb tm k) eqn:Em; [destruct added; [now apply IH|constructor; [|now apply IH]]|constructor; [|now apply IH]].
    - cbn [snd]. split; [exact Hml|]. now left.
    - cbn [fst snd]. destruct (Hin k c (or_introl eq_refl)) as (i & Hi). destruct (block_at m counts i k c Hdd Hi) as (X & _); [lia|]. split; [exact X|]. right. split; [intros Y; apply memb_spec in Y; congruence|]. split; [|reflexivity]. change k with (fst (k, c)). apply in_map. eapply nth_error_In; eauto. }
  specialize (HFb (m_channels m) false (fun k c X => In_nth_error _ _ X)). rewrite <- Ely in HFb. set (bl := data_blocks m tm counts false (keys (m_channels m))) in *.
  assert (HFl : Forall2 (fun kc (r : list R) => length r = nbins (snd kc)) (m_channels m2) bl) by (eapply Forall2_impl_in; [|exact HFb]; cbn; intros a b _ X; apply X).
  assert (Hc2 : (exists b, (b < total_bins (m_channels m2))%nat) -> d_counts d2 = concat bl).
  { intros (b & Hb). rewrite <- Hcs. unfold data_init in Hr. apply bind_Ok in Hr as (c2 & Hc2 & Hr). apply bind_Ok in Hr as (a2 & _ & Hr). inversion Hr; subst d2. cbn [d_counts]. unfold set_counts in Hc2.
    destruct cs as [|x cs]; [|destruct (_ =? _)%nat; inversion Hc2; reflexivity]. exfalso.
    assert (length (concat bl) = total_bins (m_channels m2)); [|rewrite <- Hcs in *; cbn in *; lia].
    clear -HFl. induction HFl as [|a y l r X F IH]; cbn; [reflexivity|]. rewrite app_length, X, IH. reflexivity. }
  split.
  - destruct (layout_has_merged tm (name, mc) (m_channels m)) as (i2 & Hi2).
    { destruct tm as [|k0 r]; [contradiction|]. destruct (Hall k0 (or_introl eq_refl)) as (c0 & Hc0). exists k0. split; [now left|]. apply dmem_spec. unfold dmem. now rewrite Hc0. }
    rewrite <- Ely in Hi2. exists i2, mc. split; [exact Hi2|]. intros j i k c b Hj Hi Hb.
    pose proof (nth_dget _ _ _ _ Hdd Hi) as Hkc. pose proof (selected_bins (m_channels m) tm j k c b Hall Hj Hkc Hb) as HB. rewrite <- Hnb in HB.
    rewrite Hc2 by (exists (total_bins (firstn i2 (m_channels m2)) + (total_bins (selected (m_channels m) (firstn j tm)) + b))%nat; pose proof (total_bins_firstn _ _ _ _ Hi2); lia).
    destruct (Forall2_nth _ _ _ _ _ HFb Hi2) as (r & Hr2 & _ & [(_ & Er)|(Y & Y2 & _)]).
    + rewrite (nth_concat_block (m_channels m2) bl 0 i2 name mc r _ HFl Hi2 Hr2 HB). subst r. rewrite selected_firstn by exact Hall.
      destruct (Forall2_nth _ _ _ _ _ (selected_spec (m_channels m) tm Hall) Hj) as ([k' c'] & Hj' & Ek & Hc'). cbn [fst snd] in *. subst k'. rewrite Hkc in Hc'. inversion Hc'; subst c'.
      rewrite (nth_concat_block _ _ 0 j k c (block m counts k) b Hmb Hj'); [|rewrite nth_error_map, Hj; reflexivity|exact Hb]. apply (block_at m counts i k c Hdd Hi); [lia|exact Hb].
    + cbn [fst] in *. exfalso. apply Y, (mg_fresh _ _ _ _ Mg), Y2.
  - intros i k c b Hi Hk Hb. destruct (layout_has_kept tm (name, mc) _ false _ _ _ Hi Hk) as (i2 & Hi2). rewrite <- Ely in Hi2. exists i2. split; [exact Hi2|].
    rewrite Hc2 by (exists (total_bins (firstn i2 (m_channels m2)) + b)%nat; pose proof (total_bins_firstn _ _ _ _ Hi2); lia).
    destruct (Forall2_nth _ _ _ _ _ HFb Hi2) as (r & Hr2 & _ & [(Y & _)|(_ & _ & Er)]).
    + inversion Y; subst k c. exfalso. apply Hk, (mg_fresh _ _ _ _ Mg). change name with (fst (name, mc)). apply in_map. eapply nth_error_In; eauto.
    + rewrite (nth_concat_block (m_channels m2) bl 0 i2 k c r _ HFl Hi2 Hr2 Hb). subst r. cbn [fst]. apply (block_at m counts i k c Hdd Hi); [lia|exact Hb].
Qed.
Print Assumptions C58_merged_data.

(** * example *)
Definition mg_S (y : list R) (im : jv) : string * Sample := ("S", mkSample "S" (ExprNorm "mu") (Some 1) (Some y) [("a", im)]).
Definition mg_T : string * Sample := ("T", mkSample "T" (NumberNorm (Some 1)) (Some 1) (Some [5]) []).
Definition mg_A : Channel := mkChannel "A" KSingle [mg_S [10] (up_down (1/5) (-1/10)); mg_T].
Definition mg_C : Channel := mkChannel "C" KSingle [mg_S [7] (up_down (1/5) (-1/10))].
Definition mg_Bl : list jv := [up_down (1/10) (-1/10); up_down 0 (1/3)].
Definition mg_B : Channel := mkChannel "B" (KMulti ["b1"; "b2"]) [mg_S [3; 4] (JList mg_Bl)].
Definition mg_model (chs : dict Channel) : Model :=
  mkModel "mg" None [("mu", mkPOI (Some "mu") None None (Some 1) None None)] [np1 "a" 0] [] chs [] true false true false 0.
Definition mg0 : Model := mg_model [("A", mg_A); ("C", mg_C); ("B", mg_B)].
Definition mg_M : Channel := mkChannel "M" (KMulti ["b1"; "b2"; "A"]) [mg_S [3 / 1 * 1; 4 / 1 * 1; 10 / 1 * 1] (JList (mg_Bl ++ [up_down (1/5) (-1/10)]));
  ("T", mkSample "T" (NumberNorm (Some 1)) (Some 1) (Some [0; 0; 5 / 1 * 1]) [])].

Lemma mg_computed : exists I m2 I2 chs', finish ex_env mg0 = Ok (mg0, I) /\ merge_channels ex_env mg0 ["B"; "A"] "M" None None (Some "") = Ok (Some (chs', (m2, I2))) /\
  m2 = mg_model [("M", mg_M); ("C", mg_C)] /\
  (forall mu x, exists t, tot_bin_exp mg0 I [mu] [x] None = Ok t) /\ (forall mu x, exists t, tot_bin_exp m2 I2 [mu] [x] None = Ok t) /\
  merge_data mg0 I ["B"; "A"] (mkData [1; 2; 3; 4] [1/2]) (m2, I2) = Ok (Some (mkData [3; 4; 1; 2] [1/2])).
Proof.
  do 4 eexists. split; [unfold mg0, mg_model, finish; ev; reflexivity|]. split; [unfold mg0, mg_model; ev; reflexivity|].
  split; [reflexivity|]. split; [intros mu x; eexists; unfold mg0, mg_model; ev; reflexivity|]. split; [intros mu x; eexists; ev; reflexivity|]. ev. reflexivity.
Qed.
Lemma av_pm sm par : available_variations (e_float ex_env) sm par = Ok [1; -1] -> balanced ex_env sm par /\ (norders ex_env sm par <= 1)%nat.
Proof. intros HB. unfold balanced, norders. rewrite HB. split; [intros av [= <-]|]; cbn [filter]; rdec; cbn; lia. Qed.
Lemma ex_signs : signs ex_env.
Proof. constructor; cbn; rdec; reflexivity. Qed.
(** the hypotheses of C58_merged_yields, C58_other_channels and C58_merged_data hold for this model *)
Example C58_nonvacuous : exists I m2 I2 chs', signs ex_env /\ finish ex_env mg0 = Ok (mg0, I) /\ names_ok mg0 /\ tables_ok ex_env mg0 (m_channels mg0) /\ mergeable mg0 ["B"; "A"] "M" None /\
  merge_channels ex_env mg0 ["B"; "A"] "M" None None (Some "") = Ok (Some (chs', (m2, I2))) /\ tables_ok ex_env m2 (m_channels m2) /\
  (forall mu x, exists t t2, tot_bin_exp mg0 I [mu] [x] None = Ok t /\ tot_bin_exp m2 I2 [mu] [x] None = Ok t2) /\
  merge_data mg0 I ["B"; "A"] (mkData [1; 2; 3; 4] [1/2]) (m2, I2) = Ok (Some (mkData [3; 4; 1; 2] [1/2])).
Proof.
  destruct mg_computed as (I & m2 & I2 & chs' & F & M & E2 & T1 & T2 & D). exists I, m2, I2, chs'. split; [exact ex_signs|]. split; [exact F|]. split; [repeat constructor; cbn; intuition congruence|].
  assert (TO : forall chs, all_fit chs -> (forall k c ks sm, In (k, c) chs -> In (ks, sm) (ch_samples c) -> available_variations (e_float ex_env) sm "a" = Ok [1; -1]) -> tables_ok ex_env (mg_model chs) chs).
  { intros chs Hf Hv. split; [exact Hf|]. intros _. split; intros k c ks sm par Hk Hs [<-|[]]; [|left]; apply av_pm; eapply Hv; eauto. }
  split. { apply TO.
    - intros k c ks sm [X|[X|[X|[]]]] Hs; inversion X; subst; (destruct Hs as [Y|Hs]; [|destruct Hs as [Y|[]] || destruct Hs]); inversion Y; subst; split; try (eexists; split; reflexivity);
        intros par l Hl; cbn in Hl; repeat match type of Hl with context [String.eqb ?a ?b] => destruct (String.eqb a b) end; inversion Hl; reflexivity.
    - intros k c ks sm [X|[X|[X|[]]]] Hs; inversion X; subst; (destruct Hs as [Y|Hs]; [|destruct Hs as [Y|[]] || destruct Hs]); inversion Y; reflexivity. }
  split. { constructor.
    - constructor; cbn [m_pois m_nps m_aux m_exprs m_channels mg0 mg_model]; (split; [repeat constructor; cbn; intuition congruence|]).
      + intros k p [X|[]]; inversion X; reflexivity.
      + intros k p [X|[]]; inversion X; split; [reflexivity|discriminate].
      + intros k p [].
      + intros k p [].
      + intros k c [X|[X|[X|[]]]]; inversion X; subst; (split; [reflexivity|]); (split; [repeat constructor; cbn; intuition congruence|]);
          intros n s Hs; (destruct Hs as [Y|Hs]; [|destruct Hs as [Y|[]] || destruct Hs]); inversion Y; reflexivity.
    - repeat constructor; cbn; intuition congruence.
    - cbn. intuition congruence.
    - intros k c [<-|[<-|[]]] X; inversion X; subst; [right; split; [reflexivity|eexists; reflexivity]|now left].
    - intros k c [<-|[<-|[]]] X; inversion X; subst; [right|now left]. intros k' n s p Hk' Hs Hp.
      assert (Hn : n = "S" /\ p = "a").
      { destruct Hk' as [<-|[<-|[]]]; cbn in Hs; repeat match type of Hs with context [String.eqb n ?b] => destruct (String.eqb_spec n b) end; inversion Hs; subst s; cbn in Hp; (destruct Hp as [<-|[]] || destruct Hp); auto. }
      destruct Hn as (-> & ->). eexists _, _. split; reflexivity.
    - intros k n s p v Hk Hs Hv. assert (Si : forall x y, simple_entry (up_down x y)) by (intros x y; exists [("+1", JFlt x); ("-1", JFlt y)], (JFlt x), (JFlt y); repeat split; auto; discriminate).
      destruct Hk as [<-|[<-|[]]]; cbn in Hs; repeat match type of Hs with context [String.eqb n ?b] => destruct (String.eqb_spec n b) end; inversion Hs; subst s; cbn in Hv;
        try discriminate Hv; destruct (String.eqb p "a"); inversion Hv; subst v; cbn; try apply Si; intros e0 [<-|[<-|[]]]; apply Si.
    - intros k k' n s s' Hk Hk' Hs Hs'. destruct Hk as [<-|[<-|[]]], Hk' as [<-|[<-|[]]]; cbn in Hs, Hs'; repeat match type of Hs with context [String.eqb n ?b] => destruct (String.eqb_spec n b) end;
        inversion Hs; inversion Hs'; subst; reflexivity || (cbn in *; congruence). }
  split; [exact M|]. split. { subst m2. apply TO.
    - intros k c ks sm [X|[X|[]]] Hs; inversion X; subst; (destruct Hs as [Y|Hs]; [|destruct Hs as [Y|[]] || destruct Hs]); inversion Y; subst; split; try (eexists; split; reflexivity);
        intros par l Hl; cbn in Hl; repeat match type of Hl with context [String.eqb ?a ?b] => destruct (String.eqb a b) end; inversion Hl; reflexivity.
    - intros k c ks sm [X|[X|[]]] Hs; inversion X; subst; (destruct Hs as [Y|Hs]; [|destruct Hs as [Y|[]] || destruct Hs]); inversion Y; reflexivity. }
  split; [intros mu x; destruct (T1 mu x) as (t & Ht), (T2 mu x) as (t2 & Ht2); exists t, t2; auto|exact D].
Qed.

