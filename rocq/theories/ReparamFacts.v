(** Facts about ModelReparam.remove_pois, used for C59. *)
From Verif Require Import Py PyFacts Base Expressions ExprSpec ExprFacts ExprGrad ExprReplace Norms Sample SampleFacts Channels ChannelFacts Params ParamsFacts Core CoreFacts CoreSpec CoreCoefs CoreYields ModelIO ModelIOFacts ModelTools ModelToolsFacts.
Local Open Scope string_scope.
Local Open Scope list_scope.
Local Open Scope R_scope.

(** * replace keeps the names of the dictionary, and a missing value is not used *)
Lemma lincomb_keys sub : (forall s k s' r, sub s k = Ok (s', r) -> keys s' = keys s) -> forall cs s acc kept s' acc' kept',
  replace_lincomb sub cs s acc kept = Ok (s', acc', kept') -> keys s' = keys s.
Proof.
  intros HS. induction cs as [|[k c] cs IH]; intros s acc kept s' acc' kept' H; cbn [replace_lincomb] in H; [inversion H; reflexivity|].
  destruct (sub s k) as [[s1 [x|]]|e] eqn:E; [| |discriminate]; rewrite <- (HS _ _ _ _ E); eapply IH; eauto.
Qed.
Lemma product_keys den sub : (forall s k s' r, sub s k = Ok (s', r) -> keys s' = keys s) -> forall ks s s' b,
  replace_product den sub ks s = Ok (s', b) -> keys s' = keys s.
Proof.
  intros HS. induction ks as [|k ks IH]; intros s s' b H; cbn [replace_product] in H; [inversion H; reflexivity|].
  destruct (sub s k) as [[s1 [x|]]|e] eqn:E; [| |discriminate]; rewrite <- (HS _ _ _ _ E).
  - destruct (den && Reqb x 0)%bool; [discriminate|]. destruct (replace_product den sub ks s1) as [[s2 b2]|] eqn:E2; [|discriminate]. inversion H; subst. eapply IH; eauto.
  - eapply IH; eauto.
Qed.
Lemma replace_keys name value params : forall fuel st key st' r, replace fuel name value params st key = Ok (st', r) -> keys st' = keys st.
Proof.
  induction fuel as [|fuel IH]; intros st key st' r H; cbn [replace] in H; [discriminate|].
  destruct (dget key st) as [e|] eqn:E.
  - destruct e as [n x|n|n nom co|n pf nu de|n k|n fm].
    + inversion H; reflexivity.
    + destruct (String.eqb name n); [destruct value|]; inversion H; reflexivity.
    + destruct (replace_lincomb _ co st nom []) as [[[s nom'] kept]|] eqn:EL; [|discriminate]. pose proof (lincomb_keys _ IH _ _ _ _ _ _ _ EL) as K.
      assert (Hs : st' = dset key (ELinComb n nom' kept) s) by (destruct kept; inversion H; reflexivity). subst st'.
      rewrite keys_dset; [exact K|]. rewrite K. apply dget_In in E. unfold keys. apply in_map_iff. exists (key, ELinComb n nom co). auto.
    + destruct (replace_product false _ nu st) as [[s [|]]|] eqn:E1; try discriminate. destruct (replace_product true _ de s) as [[s2 [|]]|] eqn:E2; try discriminate.
      pose proof (product_keys _ _ IH _ _ _ _ E1) as K1. pose proof (product_keys _ _ IH _ _ _ _ E2) as K2.
      destruct (length nu + length de =? 0)%nat; inversion H; subst; congruence.
    + destruct (replace fuel name value params st k) as [[s [x|]]|] eqn:E1; inversion H; subst; eapply IH; eauto.
    + discriminate.
  - destruct (existsb (String.eqb key) params); [|discriminate]. destruct (String.eqb name key); [destruct value|]; inversion H; reflexivity.
Qed.

Lemma replace_none name v params : forall fuel st key r, replace fuel name None params st key = Ok r -> replace fuel name (Some v) params st key = Ok r.
Proof.
  induction fuel as [|fuel IH]; intros st key r H; cbn [replace] in *; [discriminate|].
  assert (HL : forall cs s acc kept r, replace_lincomb (fun s k => replace fuel name None params s k) cs s acc kept = Ok r -> replace_lincomb (fun s k => replace fuel name (Some v) params s k) cs s acc kept = Ok r).
  { induction cs as [|[k c] cs IHc]; intros s acc kept r0 H0; cbn [replace_lincomb] in *; [exact H0|].
    destruct (replace fuel name None params s k) as [[s1 [x|]]|] eqn:E; [| |discriminate]; rewrite (IH _ _ _ E); auto. }
  assert (HP : forall den ks s r, replace_product den (fun s k => replace fuel name None params s k) ks s = Ok r -> replace_product den (fun s k => replace fuel name (Some v) params s k) ks s = Ok r).
  { intros den. induction ks as [|k ks IHk]; intros s r0 H0; cbn [replace_product] in *; [exact H0|].
    destruct (replace fuel name None params s k) as [[s1 [x|]]|] eqn:E; [| |discriminate]; rewrite (IH _ _ _ E); auto.
    destruct (den && Reqb x 0)%bool; [discriminate|]. destruct (replace_product den _ ks s1) as [[s2 b2]|] eqn:E2; [|discriminate]. now rewrite (IHk _ _ E2). }
  destruct (dget key st) as [e|] eqn:E.
  - destruct e as [n x|n|n nom co|n pf nu de|n k|n fm]; auto.
    + destruct (String.eqb name n); [discriminate|exact H].
    + destruct (replace_lincomb _ co st nom []) as [[[s nom'] kept]|] eqn:EL; [|discriminate]. now rewrite (HL _ _ _ _ _ EL).
    + destruct (replace_product false _ nu st) as [[s [|]]|] eqn:E1; try discriminate. rewrite (HP _ _ _ _ E1).
      destruct (replace_product true _ de s) as [[s2 [|]]|] eqn:E2; try discriminate. now rewrite (HP _ _ _ _ E2).
    + destruct (replace fuel name None params st k) as [[s [x|]]|] eqn:E1; [| |discriminate]; rewrite (IH _ _ _ E1); exact H.
  - destruct (existsb (String.eqb key) params); [|discriminate]. destruct (String.eqb name key); [discriminate|exact H].
Qed.

(** * one POI replaced in all the expressions *)
Definition keyed (ex : dict expr) : Prop := forall k e, In (k, e) ex -> expr_name e = k.
Lemma shrinks_keyed a b : NoDup (keys b) -> NoDup (keys a) -> shrinks a b -> keyed a -> keyed b.
Proof.
  intros Nb Na HS HK k e Hin. apply In_dget in Hin; [|exact Nb]. specialize (HS k). rewrite Hin in HS. destruct (dget k a) as [e0|] eqn:E; [|contradiction].
  rewrite (shr_name _ _ HS). apply HK. now apply dget_In.
Qed.
Lemma replace_in_exprs_spec fuel m name value : 
  forall ex names vals ex' names' vals', replace_in_exprs fuel m name value (ex, names, vals) = Ok (ex', names', vals') ->
  shrinks ex ex' /\ keys ex' = keys ex /\ forall F, (forall v, value = Some v -> F name = v) -> sat F ex -> sat F ex'.
Proof.
  unfold replace_in_exprs. induction (keys (m_exprs m)) as [|k ks IH]; intros ex names vals ex' names' vals' H; cbn [foldM] in H.
  - inversion H; subst. split; [apply shrinks_refl|]. auto.
  - apply bind_Ok in H as ([[ex1 n1] v1] & H1 & H). apply bind_Ok in H1 as ([st r] & Hr & H1). cbn [fst snd] in H1.
    assert (Es : ex1 = st) by (destruct r; inversion H1; reflexivity). subst st.
    assert (Hr' : forall w, (forall v, value = Some v -> w = v) -> replace fuel name (Some w) (keys (m_pois m) ++ keys (m_nps m)) ex k = Ok (ex1, r)).
    { intros w Hw. destruct value as [v|]; [rewrite (Hw v eq_refl); exact Hr|now apply replace_none]. }
    destruct (IH _ _ _ _ _ _ H) as (A & B & C). split; [|split].
    + assert (X : exists w, forall v, value = Some v -> w = v) by (destruct value as [v|]; [exists v; congruence|exists 0; discriminate]). destruct X as (w & Hw).
      destruct (replace_spec name w _ (fun _ => O) fuel _ _ _ _ (Hr' w Hw)) as (S & _). eapply shrinks_trans; eauto.
    + rewrite B. eapply replace_keys; eauto.
    + intros F HF Hs. apply C; [exact HF|]. destruct (replace_spec name (F name) _ (fun _ => O) fuel _ _ _ _ (Hr' (F name) HF)) as (_ & Hsat & _).
      apply (Hsat F eq_refl Hs).
Qed.

(** * names selected *)
Lemma select_names_spec rmatch suffix names specs sel : select_names rmatch suffix names specs = Ok sel -> forall n,
  In n sel <-> In n names /\ exists sp, In sp specs /\ (sp = n \/ (~ In sp names /\ rmatch (sp ++ suffix)%string n = true)).
Proof.
  unfold select_names. intros H n. apply bind_Ok in H as (l & Hl & H). inversion H; subst sel; clear H. apply mapM_Forall2 in Hl.
  assert (Hex : forall sp, existsb (String.eqb sp) names = true <-> In sp names).
  { intros sp. rewrite existsb_exists. split; [intros (x & Hx & Ex); apply String.eqb_eq in Ex; now subst|intros Hx; exists sp; split; [exact Hx|apply String.eqb_refl]]. }
  induction Hl as [|sp x specs l H1 Hl IH]; cbn [concat].
  - split; [intros []|intros (_ & sp & [] & _)].
  - rewrite in_app_iff, IH. clear IH. destruct (existsb (String.eqb sp) names) eqn:E0.
    + inversion H1; subst x. apply Hex in E0. cbn [In]. split.
      * intros [[->|[]]|(Hn & sp' & Hs & Hc)]; [split; [exact E0|exists n; split; [now left|now left]]|split; [exact Hn|exists sp'; split; [now right|exact Hc]]].
      * intros (Hn & sp' & [<-|Hs] & Hc); [|right; split; [exact Hn|exists sp'; auto]]. destruct Hc as [->|(Hc & _)]; [left; now left|contradiction].
    + assert (Hni : ~ In sp names) by (rewrite <- Hex; congruence).
      assert (Ex : x = filter (rmatch (sp ++ suffix)%string) names) by (destruct (filter _ names); inversion H1; reflexivity). subst x.
      rewrite filter_In. split.
      * intros [(Hn & Hm)|(Hn & sp' & Hs & Hc)]; [split; [exact Hn|exists sp; split; [now left|right; auto]]|split; [exact Hn|exists sp'; split; [now right|exact Hc]]].
      * intros (Hn & sp' & [<-|Hs] & Hc); [|right; split; [exact Hn|exists sp'; auto]]. destruct Hc as [->|(Hc & Hm)]; [contradiction|left; auto].
Qed.

(** * the loop over the POIs *)
Lemma dremove_incl {V} k (d : dict V) : incl (dremove k d) d.
Proof. induction d as [|[a v] d IH]; cbn [dremove]; [intros x []|]. destruct (String.eqb k a); intros x Hx; [now right|]. destruct Hx as [<-|Hx]; [now left|right; now apply IH]. Qed.
Lemma dremove_keeps {V} k (d : dict V) x v : x <> k -> In (x, v) d -> In (x, v) (dremove k d).
Proof.
  intros Hne. induction d as [|[a w] d IH]; cbn [dremove]; [auto|]. destruct (String.eqb k a) eqn:E.
  - apply String.eqb_eq in E. subst a. intros [E|H]; [inversion E; congruence|exact H].
  - intros [E1|H]; [now left|right; now apply IH].
Qed.

Definition unused (chs : dict Channel) (name : string) : Prop :=
  forall k c n s, In (k, c) chs -> In (n, s) (ch_samples c) -> s_norm s <> ExprNorm name.
Lemma remove_from_norms_ok chs name vals u : remove_from_norms chs name vals = Ok u -> unused chs name.
Proof.
  unfold remove_from_norms. destruct (existsb _ chs) eqn:E; [destruct (dmem name vals); discriminate|]. intros _ k c n s Hk Hs En.
  assert (X : existsb (fun kc : string * Channel => existsb (fun ks : string * Sample => match s_norm (snd ks) with ExprNorm e => String.eqb e name | _ => false end) (ch_samples (snd kc))) chs = true).
  { apply existsb_exists. exists (k, c). split; [exact Hk|]. apply existsb_exists. exists (n, s). split; [exact Hs|]. cbn [snd]. rewrite En. apply String.eqb_refl. }
  congruence.
Qed.

(** what the loop over the selected POIs does, whatever the POI values F agreeing with the replacement values *)
Lemma remove_loop fuel vals : forall sel m names ev m' names' ev',
  foldM (fun (st : Model * list string * dict R) n =>
      let '(m, names, evals) := st in
      let! _ := if dmem n (m_exprs m) then Ok tt else remove_from_norms (m_channels m) n vals in
      let! r := replace_in_exprs fuel m n (dget n vals) (m_exprs m, names, evals) in
      let '(ex, names', evals') := r in
      let! ps := dpopE n (m_pois m) in
      Ok (with_pois (with_exprs m ex) ps, names', evals')) sel (m, names, ev) = Ok (m', names', ev') ->
  NoDup (keys (m_pois m)) ->
  m' = with_pois (with_exprs m (m_exprs m')) (m_pois m') /\ keys (m_exprs m') = keys (m_exprs m) /\ 
  (forall x p, In (x, p) (m_pois m') <-> In (x, p) (m_pois m) /\ ~ In x sel) /\ NoDup (keys (m_pois m')) /\
  (forall n, In n sel -> dmem n (m_exprs m) = false -> unused (m_channels m) n) /\
  shrinks (m_exprs m) (m_exprs m') /\
  forall F, (forall n v, In n sel -> dget n vals = Some v -> F n = v) -> sat F (m_exprs m) -> sat F (m_exprs m').
Proof.
  induction sel as [|n sel IH]; intros m names ev m' names' ev' H HN; cbn [foldM] in H.
  - inversion H; subst. split; [now destruct m'|]. split; [reflexivity|]. split; [intros; cbn; tauto|]. split; [exact HN|]. split; [intros ? []|]. split; [apply shrinks_refl|auto].
  - apply bind_Ok in H as ([[m1 n1] e1] & H1 & H). apply bind_Ok in H1 as (u & Hu & H1). apply bind_Ok in H1 as ([[ex n2] e2] & Hr & H1).
    apply bind_Ok in H1 as (ps & Hp & H1). inversion H1; subst m1 n1 e1; clear H1.
    destruct (replace_in_exprs_spec _ _ _ _ _ _ _ _ _ _ Hr) as (S & K & Sat).
    assert (Hps : ps = dremove n (m_pois m)) by (unfold dpopE in Hp; destruct (dmem n (m_pois m)); inversion Hp; reflexivity).
    assert (HN1 : NoDup (keys ps)) by (subst ps; now apply NoDup_keys_dremove).
    destruct (IH _ _ _ _ _ _ H) as (A & B & C & D & U & S2 & Sat2); [exact HN1|]. clear H IH.
    cbn [with_pois with_exprs m_pois m_exprs m_channels] in *. split; [rewrite A; reflexivity|]. split; [congruence|]. split.
    { intros x p. rewrite C. subst ps. cbn [In]. split.
      - intros (Hx & Hn). pose proof (dremove_incl _ _ _ Hx) as Hx'. split; [exact Hx'|]. intros [->|Hi]; [|contradiction].
        assert (X : dget x (dremove x (m_pois m)) = None) by (apply dget_dremove_eq; exact HN). apply dget_None in X. apply X. unfold keys. apply in_map_iff. exists (x, p). auto.
      - intros (Hx & Hn). split; [|tauto]. apply dremove_keeps; [intros ->; tauto|exact Hx]. }
    split; [exact D|]. split.
    { intros x [<-|Hx] Hd; [rewrite Hd in Hu; eapply remove_from_norms_ok; exact Hu|]. apply U; [exact Hx|].
      unfold dmem in *. specialize (S x). destruct (dget x (m_exprs m)); [discriminate|]. destruct (dget x ex); [contradiction|reflexivity]. }
    split; [eapply shrinks_trans; eauto|]. intros F HF Hs. apply Sat2; [intros; apply HF; [now right|assumption]|]. apply Sat; [|exact Hs].
    intros v Hv. apply HF; [now left|exact Hv].
Qed.

(** * removal of the trivial expressions *)
Lemma remove_expr_loop vals : forall sel m m',
  foldM (fun m n => match dget n (m_exprs m) with
                    | None => Err KeyError
                    | Some e => let! _ := remove_from_norms (m_channels m) (expr_name e) vals in
                                Ok (with_exprs m (dremove n (m_exprs m)))
                    end) sel m = Ok m' ->
  m' = with_exprs m (m_exprs m') /\ incl (m_exprs m') (m_exprs m) /\ (NoDup (keys (m_exprs m)) -> NoDup (keys (m_exprs m'))) /\
  (NoDup (keys (m_exprs m)) -> keyed (m_exprs m) -> forall k e, In (k, e) (m_exprs m) -> ~ In (k, e) (m_exprs m') -> unused (m_channels m) k).
Proof.
  induction sel as [|n sel IH]; intros m m' H; cbn [foldM] in H.
  - inversion H; subst. split; [now destruct m'|]. split; [apply incl_refl|]. split; [auto|]. intros _ _ k e H1 H2. contradiction.
  - apply bind_Ok in H as (m1 & H1 & H). destruct (dget n (m_exprs m)) as [e|] eqn:En; [|discriminate]. apply bind_Ok in H1 as (u & Hu & H1). inversion H1; subst m1; clear H1.
    destruct (IH _ _ H) as (A & B & C & D). cbn [with_exprs m_exprs m_channels] in *. split; [rewrite A; reflexivity|].
    split; [eapply incl_tran; [exact B|apply dremove_incl]|]. split; [intros HN; apply C; now apply NoDup_keys_dremove|].
    intros HN HK k e0 Hin Hni. destruct (string_dec k n) as [->|Hne].
    + apply remove_from_norms_ok in Hu. rewrite (HK n e) in Hu by (now apply dget_In). exact Hu.
    + apply (D (NoDup_keys_dremove _ _ HN)) with (e := e0); [|apply dremove_keeps; auto|exact Hni].
      intros a b Hab. apply HK. now apply (dremove_incl _ _ _ Hab).
Qed.

(** * the whole call *)
Lemma remove_pois_spec fuel rmatch m specs vals m' : NoDup (keys (m_pois m)) -> NoDup (keys (m_exprs m)) -> keyed (m_exprs m) ->
  remove_pois fuel rmatch m specs vals = Ok m' -> exists sel,
  (forall n, In n sel <-> In n (keys (m_pois m)) /\ exists sp, In sp specs /\ (sp = n \/ (~ In sp (keys (m_pois m)) /\ rmatch (sp ++ "$")%string n = true))) /\
  m' = with_pois (with_exprs m (m_exprs m')) (m_pois m') /\
  (forall x p, In (x, p) (m_pois m') <-> In (x, p) (m_pois m) /\ ~ In x sel) /\ NoDup (keys (m_pois m')) /\
  NoDup (keys (m_exprs m')) /\ keyed (m_exprs m') /\ incl (keys (m_exprs m')) (keys (m_exprs m)) /\
  (forall n, In n sel -> dmem n (m_exprs m) = false -> unused (m_channels m) n) /\
  (forall k, In k (keys (m_exprs m)) -> ~ In k (keys (m_exprs m')) -> unused (m_channels m) k) /\
  forall F, (forall n v, In n sel -> dget n vals = Some v -> F n = v) -> sat F (m_exprs m) -> sat F (m_exprs m').
Proof.
  intros HN HNe HK H. unfold remove_pois in H. apply bind_Ok in H as (sel & Hsel & H). apply bind_Ok in H as ([[m1 names] evals] & Hl & H).
  apply remove_loop in Hl as (A & B & C & D & U & S & Sat); [|exact HN]. exists sel. split; [exact (select_names_spec _ _ _ _ _ Hsel)|].
  unfold remove_expressions in H. apply bind_Ok in H as (sel2 & _ & H). apply remove_expr_loop in H as (A2 & B2 & C2 & D2).
  assert (HNe1 : NoDup (keys (m_exprs m1))) by (rewrite B; exact HNe).
  assert (HK1 : keyed (m_exprs m1)) by (eapply (shrinks_keyed (m_exprs m)); eauto).
  assert (Hp : m_pois m' = m_pois m1) by (rewrite A2; reflexivity).
  assert (Hc : m_channels m1 = m_channels m) by (rewrite A; reflexivity).
  split; [clear - A A2; destruct m', m1, m; cbn in *; inversion A; inversion A2; subst; reflexivity|].
  split; [rewrite Hp; exact C|]. split; [rewrite Hp; exact D|]. split; [auto|]. split; [intros k e He; apply HK1, B2, He|].
  split; [rewrite <- B; unfold keys; intros k Hk; apply in_map_iff in Hk as (x & <- & Hx); apply in_map, B2, Hx|].
  split; [exact U|]. split.
  - intros k Hk Hnk. rewrite <- B in Hk. unfold keys in Hk. apply in_map_iff in Hk as ([k1 e] & <- & Hin). cbn [fst] in *. rewrite <- Hc.
    apply (D2 HNe1 HK1 k1 e Hin). intros X. apply Hnk. unfold keys. apply in_map_iff. exists (k1, e). auto.
  - intros F HF Hs k e He. apply (Sat F HF Hs). apply dget_In in He. apply In_dget; [exact HNe1|]. apply B2, He.
Qed.

(** * values of the expressions of the new model *)
Lemma real_vals_agree F : forall exprs d vals, real_vals exprs d = Ok vals -> agrees d F -> (forall e, In e exprs -> F (expr_name e) = expr_den e F) -> agrees vals F.
Proof.
  induction exprs as [|e r IH]; intros d vals H Ha Hs; cbn [real_vals] in H; [inversion H; subst; exact Ha|].
  apply bind_Ok in H as (w & Hw & H). apply (IH _ _ H); [|intros e0 He0; apply Hs; now right].
  intros k x Hk. destruct (string_dec k (expr_name e)) as [->|Hne].
  - rewrite dget_dset_eq in Hk. inversion Hk; subst x. destruct (expr_value_ok _ _ _ Hw) as (_ & _ & Hv). rewrite (proj1 (Hv F Ha)). apply Hs. now left.
  - rewrite dget_dset_neq in Hk by exact Hne. now apply Ha.
Qed.

(** the normalizations of all samples are computed by n_exp *)
Lemma n_exp_norms E m I ps ns n k c ks sm : built E m I -> n_exp m I ps ns = Ok n -> In (k, c) (i_channels I) -> In (ks, sm) (ch_samples c) ->
  exists rv y, model_real_vals m (i_pm I) ps = Ok rv /\ norm_value (s_norm sm) rv = Ok y.
Proof.
  intros Bt H Hk Hs. unfold n_exp in H. apply bind_Ok in H as (rv & Hrv & H). apply bind_Ok in H as (rows & Hrows & _).
  assert (X : exists s, nth_error (values (ch_samples c)) s = Some sm).
  { apply In_nth_error. unfold values. apply in_map_iff. exists (ks, sm). auto. }
  destruct X as (s & X). pose proof (sample_at_lt c s sm X) as Hlt. pose proof (max_samples_le _ _ _ Hk) as Hle. rewrite <- (bt_ns _ _ _ Bt) in Hle.
  pose proof (mapM_nth _ _ _ s 0%nat ([] : list R) Hrows) as Hrow. rewrite seq_length in Hrow. specialize (Hrow ltac:(lia)). rewrite seq_nth in Hrow by lia. cbn [Nat.add] in Hrow.
  unfold nominal_row in Hrow. apply bind_Ok in Hrow as (bl & Hbl & _). apply mapM_Forall2 in Hbl. destruct (Forall2_in_l _ _ _ _ Hbl Hk) as (x & _ & Hx).
  cbn [snd] in Hx. unfold sample_at in Hx. rewrite X in Hx. unfold sample_yields, normalization in Hx. apply bind_Ok in Hx as (w & Hw & _). apply bind_Ok in Hw as (y & Hy & _).
  exists rv, y. auto.
Qed.
Lemma NoDup_app3_incl (a b c a' c' : list string) : NoDup (a ++ b ++ c) -> NoDup a' -> NoDup c' -> incl a' a -> incl c' c -> NoDup (a' ++ b ++ c').
Proof.
  intros H Ha Hc Ia Ic. assert (Hb := NoDup_app_l _ _ (NoDup_app_r _ _ H)).
  assert (HD : forall l1 l2 : list string, NoDup l1 -> NoDup l2 -> (forall x, In x l1 -> ~ In x l2) -> NoDup (l1 ++ l2)).
  { induction l1 as [|x l1 IH]; intros l2 H1 H2 H3; [exact H2|]. inversion H1; subst. cbn. constructor.
    - intros Hx. apply in_app_or in Hx as [Hx|Hx]; [contradiction|]. apply (H3 x); [now left|exact Hx].
    - apply IH; auto. intros y Hy. apply H3. now right. }
  apply HD; [exact Ha| |].
  - apply HD; [exact Hb|exact Hc|]. intros x Hx Hx'. apply (NoDup_app_disj _ _ x (NoDup_app_r _ _ H) Hx). apply Ic, Hx'.
  - intros x Hx Hx'. apply (NoDup_app_disj _ _ x H (Ia _ Hx)). apply in_or_app. apply in_app_or in Hx' as [?|?]; [now left|right; now apply Ic].
Qed.
