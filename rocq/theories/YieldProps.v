(** Properties of the expected yields and of the impact factors: C18, C19 (core.py). *)
From Verif Require Import Py PyFacts Deriv Base Expressions ExprSpec Norms Sample Vander SampleFacts Channels Params Core CoreFacts CoreSpec CoreCoefs CoreYields CoreExample RSort.
Local Open Scope R_scope.
Local Open Scope string_scope.
Local Open Scope list_scope.

(** C18: in bin [b] of channel [k], the expected yield is the sum over the samples of the channel of
    (normalization / nominal normalization) * nominal yield * NP factor; see CoreSpec.v *)
Theorem C18_expected_yield_formula : forall E m I ps ns t k c off b,
  set_internal_vars E m = Ok I -> names_ok m -> NoDup (keys (m_channels m)) -> tables_ok E m (i_channels I) ->
  length ps = length (m_pois m) -> tot_bin_exp m I ps ns None = Ok t ->
  dget k (i_channels I) = Some c -> dget k (i_offsets I) = Some off -> (b < nbins c)%nat ->
  t (off + b)%nat = lsum (map (fun sm => spec_yield m ps sm b * cut (m_cutoff m) (np_factor E m sm b ns)) (values (ch_samples c))).
Proof.
  intros E m I ps ns t k c off b H HN HD HT HL Ht Hc Ho Hb. apply siv_built in H as Bt.
  apply dget_In in Hc. apply In_nth_error in Hc as (i & Hi).
  assert (HNi : NoDup (keys (i_channels I))) by (rewrite (built_keys _ _ _ Bt); exact HD).
  rewrite (bt_off _ _ _ Bt), (off_at _ _ _ _ HNi Hi) in Ho. inversion Ho; subst off.
  apply (tot_bin_at E m I ps ns t i k c b Bt HN HT HL Ht Hi Hb).
Qed.
Print Assumptions C18_expected_yield_formula.

(** the channels of the built model are those given: same samples in the same order, with the given normalization;
    a given nominal norm, yields or impacts is never changed *)
Theorem C18_given_samples_kept : forall E m I k c, set_internal_vars E m = Ok I -> NoDup (keys (m_channels m)) ->
  dget k (m_channels m) = Some c ->
  exists c', dget k (i_channels I) = Some c' /\ keys (ch_samples c') = keys (ch_samples c) /\
  Forall2 (fun sm sm' => s_norm sm' = s_norm sm /\
     (forall x, s_nominal_norm sm = Some x -> s_nominal_norm sm' = Some x) /\
     (forall y, s_yields sm = Some y -> s_yields sm' = Some y) /\
     (forall par im, dget par (s_impacts sm) = Some im -> dget par (s_impacts sm') = Some im))
    (values (ch_samples c)) (values (ch_samples c')).
Proof.
  intros E m I k c H HN Hc. apply siv_built in H as Bt. destruct (bt_chs _ _ _ Bt) as (rv & _ & HF).
  rewrite (built_poisson_first _ _ _ HN Bt) in HF. apply dget_In in Hc.
  destruct (Forall2_in_l _ _ _ _ HF Hc) as ([k' c'] & Hin & H1 & H2). cbn in H1, H2. subst k'.
  exists c'. split; [apply In_dget; [rewrite (built_keys _ _ _ Bt)|]; assumption|].
  apply update_channel_same in H2 as (_ & _ & H3 & H4). split; [exact H3|].
  eapply Forall2_impl_in; [|exact H4]. intros sm sm' _ Hs. unfold set_np_data in Hs.
  apply bind_Ok in Hs as (y & Hy & Hs). apply bind_Ok in Hs as (im & Him & Hs). inversion Hs; subst sm'; clear Hs. cbn [s_norm s_nominal_norm s_yields s_impacts].
  split; [reflexivity|]. split; [intros x ->; reflexivity|]. split; [intros y0 E0; rewrite E0 in Hy; now inversion Hy|].
  intros par v Hv. clear - Him Hv. revert Hv Him. generalize (s_impacts sm) as d0. induction (pm_nps (i_pm I)) as [|p l IH]; intros d0 Hv Him; cbn [foldM] in Him.
  - now inversion Him; subst.
  - destruct (dmem (fst (fst p)) d0) eqn:Em; cbn [bind] in Him; [apply (IH _ Hv Him)|].
    destruct (implicit_impact _ _ _ _ _ _ _ _ _) as [[o|]|]; cbn [bind] in Him; try discriminate; [|apply (IH _ Hv Him)].
    apply (IH _) in Him; [exact Him|]. rewrite dget_dset_neq; [exact Hv|]. intros ->.
    assert (dmem (fst (fst p)) d0 = true); [|congruence]. apply dmem_spec. apply dget_In in Hv. change (fst (fst p)) with (fst (fst (fst p), v)). now apply in_map.
Qed.
Print Assumptions C18_given_samples_kept.

(** with a floor, Poisson bins are raised to the floor and the others left alone *)
Theorem C18_floor : forall m I ps ns t f, tot_bin_exp m I ps ns None = Ok t ->
  exists t', tot_bin_exp m I ps ns (Some f) = Ok t' /\
    forall b, ((b < i_nbins_p I)%nat -> t' b = Rmax (t b) f) /\ ((i_nbins_p I <= b)%nat -> t' b = t b).
Proof.
  intros m I ps ns t f H. unfold tot_bin_exp in *. apply bind_Ok in H as (n & Hn & H). inversion H; subst; clear H.
  rewrite Hn. cbn [bind]. eexists; split; [reflexivity|]. intros b. cbn beta.
  split; intros Hb; [apply Nat.ltb_lt in Hb|apply Nat.ltb_ge in Hb]; rewrite Hb; reflexivity.
Qed.
Print Assumptions C18_floor.

(** the values of the parameters and expressions used for the normalizations *)
Theorem C18_real_values : forall E m I ps rv n v, set_internal_vars E m = Ok I -> names_ok m -> length ps = length (m_pois m) ->
  model_real_vals m (i_pm I) ps = Ok rv -> dget n rv = Some v -> v = model_env m ps n.
Proof. intros E m I ps rv n v H HN HL Hrv Hn. apply siv_built in H as Bt. apply (real_vals_spec m (i_pm I) ps rv HN (bt_pm _ _ _ Bt) HL Hrv n v Hn). Qed.
Print Assumptions C18_real_values.

Lemma ex_names_ok : names_ok ex_model.
Proof. unfold names_ok. cbn. repeat constructor; cbn; intuition discriminate. Qed.
Lemma ex_fit : all_fit ex_channels'.
Proof.
  intros k c ks sm Hc Hs. cbn in Hc.
  destruct Hc as [E|[E|[]]]; inversion E; subst; cbn in Hs; repeat match goal with H : _ \/ _ |- _ => destruct H as [H|H] | H : False |- _ => destruct H end;
  inversion Hs; subst; (split; [eexists; split; reflexivity|]); intros par l Hl; cbn in Hl;
  repeat match type of Hl with context [String.eqb ?a ?b] => destruct (String.eqb a b) end; discriminate.
Qed.
Lemma ex_balanced k c ks sm par : In (k, c) ex_channels' -> In (ks, sm) (ch_samples c) -> In par (keys (m_nps ex_model)) ->
  balanced ex_env sm par /\ (norders ex_env sm par <= 1)%nat.
Proof.
  intros Hc Hs Hp. assert (HB : available_variations (e_float ex_env) sm par = Ok [1; -1]).
  { cbn in Hc, Hp. destruct Hc as [E|[E|[]]]; inversion E; subst; cbn in Hs; repeat match goal with H : _ \/ _ |- _ => destruct H as [H|H] | H : False |- _ => destruct H end;
    inversion Hs; subst; reflexivity. }
  unfold balanced, norders. rewrite HB. split; [intros av [= <-]|]; cbn [filter]; rdec; cbn; lia.
Qed.
Lemma ex_tables : tables_ok ex_env ex_model ex_channels'.
Proof.
  split; [exact ex_fit|]. intros _. split.
  - intros k c ks sm par H1 H2 H3. apply (ex_balanced k c ks sm par H1 H2 H3).
  - intros k c ks sm par H1 H2 H3. left. apply (ex_balanced k c ks sm par H1 H2 H3).
Qed.

Example C18_nonvacuous : exists I t, set_internal_vars ex_env ex_model = Ok I /\ names_ok ex_model /\ NoDup (keys (m_channels ex_model)) /\
  tables_ok ex_env ex_model (i_channels I) /\ tot_bin_exp ex_model I [2] [0; 1/2] None = Ok t /\ t 0%nat = 3 * 2 + 10.
Proof.
  destruct ex_built_full as (I & H & Hc & Ho & Hn & _). exists I.
  assert (HD : NoDup (keys (m_channels ex_model))) by (cbn; repeat constructor; cbn; intuition discriminate).
  assert (HT : tables_ok ex_env ex_model (i_channels I)) by (rewrite Hc; exact ex_tables).
  destruct (ex_tot I H 2 0 (1/2)) as (t & Ht). exists t. repeat (split; [first [exact H|exact ex_names_ok|exact HD|exact HT|exact Ht]|]).
  change (t 0%nat) with (t (0 + 0)%nat). rewrite (C18_expected_yield_formula ex_env ex_model I [2] [0; 1/2] t "SR" (mkChannel "SR" KSingle [("Signal", ex_signal'); ("Background", ex_bkg)]) 0 0 H ex_names_ok HD HT eq_refl Ht); [|rewrite Hc; reflexivity|rewrite Ho; reflexivity|cbn; lia].
  cbn [ch_samples values map lsum snd]. assert (Hcut : forall x, cut (m_cutoff ex_model) x = x) by (intros x; unfold cut; cbn; rdec; reflexivity).
  rewrite !Hcut. unfold np_factor, factor. cbn [m_linear m_asym ex_model m_nps length keys map fst nth rsum].
  assert (Z : forall il s p b, np_effect ex_env il s p b 0 = 0).
  { intros. unfold np_effect. destruct (impact_coefficients _ _ _ _ _ _) as [[pc nc]|]; [|reflexivity]. rewrite !poly_0. destruct (Rltb 0 0); reflexivity. }
  rewrite !Z.
  assert (Z2 : forall s, In s [ex_signal'; ex_bkg] -> np_effect ex_env (negb true) s "bkg" 0 (1/2) = 0).
  { intros s [<-|[<-|[]]]; unfold np_effect; ev; unfold poly; cbn; field. }
  rewrite (Z2 ex_signal') by (cbn; tauto). rewrite (Z2 ex_bkg) by (cbn; tauto).
  unfold spec_yield, model_env, norm_den, par_env. cbn -[IZR Rplus Rmult Rdiv]. lra.
Qed.

(** C19: the effect of an NP vanishes at its nominal value, and the factor is 1 when all NPs are nominal *)
Lemma np_effect_0 E il sm par b : np_effect E il sm par b 0 = 0.
Proof. unfold np_effect. destruct (impact_coefficients _ _ _ _ _ _) as [[pc nc]|]; [|reflexivity]. rewrite !poly_0. destruct (Rltb 0 0); reflexivity. Qed.
Lemma sym_effect_0 E l sm par b : sym_effect E l sm par b 0 = 0.
Proof. unfold sym_effect. destruct (sym_impact _ _ _) as [[im|]|]; [|reflexivity..]. destruct l; ring. Qed.

(** the array of impact factors computed by the code, at bin [b] of sample number [s] of channel [k] *)
Theorem C19_impact_factor : forall E m I ns K k c off s sm b, set_internal_vars E m = Ok I -> NoDup (keys (m_channels m)) ->
  tables_ok E m (i_channels I) -> k_exp m I ns = Ok K -> dget k (i_channels I) = Some c -> dget k (i_offsets I) = Some off ->
  sample_at c s = Some sm -> (b < nbins c)%nat -> K s (off + b)%nat = np_factor E m sm b ns.
Proof.
  intros E m I ns K k c off s sm b H HD HT HK Hc Ho Hs Hb. apply siv_built in H as Bt.
  apply dget_In in Hc. apply In_nth_error in Hc as (i & Hi).
  assert (HNi : NoDup (keys (i_channels I))) by (rewrite (built_keys _ _ _ Bt); exact HD).
  rewrite (bt_off _ _ _ Bt), (off_at _ _ _ _ HNi Hi) in Ho. inversion Ho; subst off.
  apply (k_exp_at E m I ns K i k c s sm b Bt HT Hi Hs Hb HK).
Qed.
Print Assumptions C19_impact_factor.

Theorem C19_one_at_nominal : forall m I n K s b, k_exp m I (repeat 0 n) = Ok K -> K s b = 1.
Proof.
  intros m I n K s b H. unfold k_exp in H.
  assert (N : forall p, nth p (repeat 0 n) 0 = 0).
  { intros p. destruct (Nat.ltb_spec p n); [apply nth_repeat|apply nth_overflow; rewrite repeat_length; lia]. }
  assert (Z : forall (f : nat -> R) g, g 0 = 0 -> rsum (i_nvar I) (fun v => f v * g 0 ^ (v + 1)) = 0).
  { intros f g Hg. apply rsum_eq0. intros v _. rewrite Hg, pow_i by lia. ring. }
  destruct (m_asym m).
  - inversion H; subst K; clear H.
    match goal with |- (if _ then fun s b => 1 + ?D s b else _) s b = 1 => idtac | _ => idtac end.
    destruct (m_linear m); cbn beta;
    rewrite !(rsum_eq0 (length (pm_nps (i_pm I)))) by
      (intros p _; cbn beta; apply rsum_eq0; intros v _; rewrite N, ?Rmax_left, ?Rmin_left by lra; rewrite pow_i by lia; ring);
    rewrite Rplus_0_l; [ring|apply exp_0].
  - destruct (m_linear m).
    + inversion H; subst K. cbn beta. rewrite rsum_eq0; [ring|]. intros p _. rewrite N. ring.
    + destruct (forallb _ _); [|discriminate]. inversion H; subst K. cbn beta. rewrite rsum_eq0; [apply exp_0|]. intros p _. rewrite N. ring.
Qed.
Print Assumptions C19_one_at_nominal.

Theorem C19_positive_in_exponential_mode : forall m I ns K s b, m_linear m = false -> k_exp m I ns = Ok K -> 0 < K s b.
Proof.
  intros m I ns K s b HL H. unfold k_exp in H. rewrite HL in H.
  destruct (m_asym m); [inversion H; subst; apply exp_pos|]. destruct (forallb _ _); [|discriminate]. inversion H; subst. apply exp_pos.
Qed.
Print Assumptions C19_positive_in_exponential_mode.

(** with only NP number [p] away from nominal, at one of its tabulated variations, the factor is 1 + tabulated impact *)
Lemma only_one_np (f : nat -> R -> R) (n p : nat) v : (p < n)%nat -> (forall q, f q 0 = 0) ->
  rsum n (fun q => f q (nth q (set_nth p v (repeat 0 n)) 0)) = f p v.
Proof.
  intros Hp Z.
  assert (G : forall q p n, (p < n)%nat -> nth q (set_nth p v (repeat 0 n)) 0 = if Nat.eqb q p then v else 0).
  { clear. intros q p n. revert q n. induction p as [|p IH]; intros q [|n] Hp; try lia; cbn [repeat set_nth].
    - destruct q; cbn; [reflexivity|]. clear. revert q; induction n; intros [|q]; cbn; auto.
    - destruct q; cbn; [reflexivity|]. apply IH. lia. }
  rewrite (rsum_single _ p); [rewrite G, Nat.eqb_refl by exact Hp; reflexivity|exact Hp|].
  intros q Hq Hne. rewrite G by exact Hp. apply Nat.eqb_neq in Hne. rewrite Hne. apply Z.
Qed.

Theorem C19_tabulated_variation_reproduced : forall E m sm par p v av im b, m_asym m = true -> inv_ok (e_inv E) ->
  nth_error (keys (m_nps m)) p = Some par -> available_variations (e_float E) sm par = Ok av -> NoDup av -> balanced E sm par ->
  In v av -> v <> 0 -> (forall v, In v av -> v <> 0 -> exists im, impact (e_fmt E) sm par v = Ok (Some im)) ->
  impact (e_fmt E) sm par v = Ok (Some im) -> (b < length im)%nat ->
  (m_linear m = false -> 1 / 100 <= 1 + nth b im 0 <= 100) ->
  np_factor E m sm b (set_nth p v (repeat 0 (length (m_nps m)))) = 1 + nth b im 0.
Proof.
  intros E m sm par p v av im b HA Hinv Hp Hav HN HB Hv Hz Him Himv Hb HR. unfold np_factor. rewrite HA.
  assert (Hlt : (p < length (m_nps m))%nat) by (rewrite <- (map_length fst (m_nps m)); apply nth_error_Some; unfold keys in Hp; congruence).
  rewrite (only_one_np (fun q x => np_effect E (negb (m_linear m)) sm (nth q (keys (m_nps m)) "") b x) _ p v Hlt) by (intros q; apply np_effect_0).
  rewrite (nth_error_nth _ _ "" Hp).
  destruct (coefficients_ok (e_float E) (e_fmt E) (e_inv E) sm par (negb (m_linear m)) av Hinv Hav HN (HB av Hav)) as (pc & nc & Hc & Hval); [eauto|exact Him|].
  unfold np_effect. rewrite Hc. specialize (Hval v im b Hv Hz Himv Hb).
  assert (Hx : (if Rltb 0 v then poly pc b v else poly nc b v) = impact_scale (negb (m_linear m)) (nth b im 0)) by (destruct (Rltb 0 v); exact Hval).
  rewrite Hx. unfold factor. destruct (m_linear m); cbn [negb].
  - reflexivity.
  - apply impact_scale_exp. apply HR. reflexivity.
Qed.
Print Assumptions C19_tabulated_variation_reproduced.

(** the positive side of the table is used for positive values, the negative one for negative values, and the effect
    is continuous *)
Theorem C19_sides : forall E il sm par b x pc nc, impact_coefficients (e_float E) (e_fmt E) (e_inv E) sm par il = Ok (pc, nc) ->
  (0 < x -> np_effect E il sm par b x = poly pc b x) /\ (x <= 0 -> np_effect E il sm par b x = poly nc b x).
Proof.
  intros E il sm par b x pc nc H. unfold np_effect. rewrite H. split; intros Hx; [rewrite (proj2 (Rltb_true 0 x)) by lra|rewrite (proj2 (Rltb_false 0 x)) by lra]; reflexivity.
Qed.
Print Assumptions C19_sides.

Lemma poly_continuous c b x : continuity_pt (poly c b) x.
Proof.
  unfold poly. set (a := fun n => nth b (nth n c []) 0). change (continuity_pt (fun x => rsum (length c) (fun n => a n * x ^ (n + 1))) x). clearbody a. induction (length c) as [|n IH]; cbn [rsum].
  - apply continuity_pt_const. intros u v. reflexivity.
  - apply (continuity_pt_plus (fun y => rsum n (fun k => a k * y ^ (k + 1))) (fun y => a n * y ^ (n + 1))); [apply IH|].
    apply (continuity_pt_scal (fun y => y ^ (n + 1))). apply derivable_continuous_pt, derivable_pt_pow.
Qed.

Lemma continuity_pt_ext f g x : (forall y, f y = g y) -> continuity_pt f x -> continuity_pt g x.
Proof.
  intros H C eps He. destruct (C eps He) as (alp & Ha & Hx). exists alp. split; [exact Ha|]. intros y Hy. rewrite <- !H. apply Hx, Hy.
Qed.

Theorem C19_effect_continuous : forall E il sm par b x, continuity_pt (np_effect E il sm par b) x.
Proof.
  intros E il sm par b x. unfold np_effect. destruct (impact_coefficients _ _ _ _ _ _) as [[pc nc]|]; [|apply continuity_pt_const; intros u v; reflexivity].
  apply (continuity_pt_ext (fun y => poly pc b (1 / 2 * (y + Rabs y)) + poly nc b (1 / 2 * (y - Rabs y)))).
  - intros y. destruct (Rltb 0 y) eqn:El.
    + apply Rltb_true in El. rewrite Rabs_right by lra. replace (1 / 2 * (y + y)) with y by field. replace (1 / 2 * (y - y)) with 0 by field. rewrite poly_0. apply Rplus_0_r.
    + apply Rltb_false in El. rewrite Rabs_left1 by lra. replace (1 / 2 * (y + - y)) with 0 by field. replace (1 / 2 * (y - - y)) with y by field. rewrite poly_0. apply Rplus_0_l.
  - assert (Id : continuity_pt (fun y => y) x) by (apply derivable_continuous_pt, derivable_pt_id).
    assert (Ab : continuity_pt (fun y => Rabs y) x) by apply Rcontinuity_abs.
    apply (continuity_pt_plus (fun y => poly pc b (1 / 2 * (y + Rabs y))) (fun y => poly nc b (1 / 2 * (y - Rabs y)))).
    + apply (continuity_pt_comp (fun y => 1 / 2 * (y + Rabs y)) (poly pc b)); [|apply poly_continuous].
      apply (continuity_pt_scal (fun y => y + Rabs y)). apply (continuity_pt_plus (fun y => y) Rabs); assumption.
    + apply (continuity_pt_comp (fun y => 1 / 2 * (y - Rabs y)) (poly nc b)); [|apply poly_continuous].
      apply (continuity_pt_scal (fun y => y - Rabs y)). apply (continuity_pt_minus (fun y => y) Rabs); assumption.
Qed.
Print Assumptions C19_effect_continuous.

(** in exponential mode the factors of the NPs multiply *)
Theorem C19_exponential_mode_factorizes : forall E m sm b th, m_linear m = false ->
  np_factor E m sm b th = lprod (map (fun p => exp (if m_asym m then np_effect E true sm (nth p (keys (m_nps m)) "") b (nth p th 0)
                                                   else sym_effect E false sm (nth p (keys (m_nps m)) "") b (nth p th 0))) (seq 0 (length (m_nps m)))).
Proof.
  intros E m sm b th HL. unfold np_factor, factor. rewrite HL. rewrite <- lsum_seq. cbn [negb].
  induction (seq 0 (length (m_nps m))) as [|p l IH]; cbn [map lsum lprod]; [apply exp_0|]. rewrite exp_plus, IH. reflexivity.
Qed.
Print Assumptions C19_exponential_mode_factorizes.

(** symmetric mode: (1 + impact)^theta or 1 + impact*theta with the symmetrized impact, for one NP *)
Theorem C19_symmetric_mode : forall E m sm par p v b im, m_asym m = false -> nth_error (keys (m_nps m)) p = Some par ->
  sym_impact (e_fmt E) sm par = Ok (Some im) ->
  np_factor E m sm b (set_nth p v (repeat 0 (length (m_nps m)))) = if m_linear m then 1 + nth b im 0 * v else Rpower (1 + nth b im 0) v.
Proof.
  intros E m sm par p v b im HA Hp Him. unfold np_factor. rewrite HA.
  assert (Hlt : (p < length (m_nps m))%nat) by (rewrite <- (map_length fst (m_nps m)); apply nth_error_Some; unfold keys in Hp; congruence).
  rewrite (only_one_np (fun q x => sym_effect E (m_linear m) sm (nth q (keys (m_nps m)) "") b x) _ p v Hlt) by (intros q; apply sym_effect_0).
  rewrite (nth_error_nth _ _ "" Hp). unfold sym_effect. rewrite Him. unfold factor, Rpower. destruct (m_linear m); [reflexivity|]. f_equal. ring.
Qed.
Print Assumptions C19_symmetric_mode.

Example C19_nonvacuous : exists I K, set_internal_vars ex_env ex_model = Ok I /\ tables_ok ex_env ex_model (i_channels I) /\
  k_exp ex_model I [-1; 0] = Ok K /\ K 0%nat 0%nat = 1 + - 1 / 20 /\ K 1%nat 0%nat = 1 - 1/5.
Proof.
  destruct ex_built_full as (I & H & Hc & Ho & Hn & Hns & _). exists I.
  assert (HK : exists K, k_exp ex_model I [-1; 0] = Ok K) by (unfold k_exp; cbn; eauto). destruct HK as (K & HK). exists K. split; [exact H|]. split; [rewrite Hc; exact ex_tables|]. split; [exact HK|].
  assert (HD : NoDup (keys (m_channels ex_model))) by (cbn; repeat constructor; cbn; intuition discriminate).
  assert (HT : tables_ok ex_env ex_model (i_channels I)) by (rewrite Hc; exact ex_tables).
  set (c := mkChannel "SR" KSingle [("Signal", ex_signal'); ("Background", ex_bkg)]).
  pose proof (C19_impact_factor ex_env ex_model I [-1; 0] K "SR" c 0 0 ex_signal' 0 H HD HT HK) as A1.
  pose proof (C19_impact_factor ex_env ex_model I [-1; 0] K "SR" c 0 1 ex_bkg 0 H HD HT HK) as A2.
  rewrite Hc, Ho in *. cbn [Nat.add] in *. rewrite A1, A2 by (try reflexivity; cbn; lia). clear A1 A2.
  unfold np_factor, factor. cbn [m_linear m_asym ex_model m_nps length keys map fst nth rsum]. rewrite !np_effect_0.
  unfold np_effect. split; ev; unfold poly; cbn; field.
Qed.

(** Three NPs with impacts on one bin: "a" and "b" with one variation, "c" with two.  The arrays are enlarged when
    "c" is reached, and the values of "b" end up as those of another NP: the factor at b = +1 is 1, the table says 1.2. *)
Definition inv2 (n : nat) (m : mat) : res mat :=
  let d := m 0%nat 0%nat * m 1%nat 1%nat - m 0%nat 1%nat * m 1%nat 0%nat in
  Ok (fun i j => match i, j with
                 | O, O => m 1%nat 1%nat / d | O, S O => - m 0%nat 1%nat / d
                 | S O, O => - m 1%nat 0%nat / d | S O, S O => m 0%nat 0%nat / d | _, _ => 0 end).
Definition tab_fmt (r : R) : string := if Reqb r 1 then "+1" else if Reqb r (-1) then "-1" else if Reqb r 2 then "+2" else "-2".
Definition tab_float (s : string) : option R :=
  if String.eqb s "+1" then Some 1 else if String.eqb s "-1" then Some (-1) else if String.eqb s "+2" then Some 2
  else if String.eqb s "-2" then Some (-2) else None.
Definition tab_env := mkEnv tab_fmt tab_float inv2 5.
Definition tab_np (n : string) : string * NP := (n, mkNP (Some n) (Some 0) 1 (Some 1) (Some (n ++ "_aux")%string) None None).
Definition tab_two := JObj [("+1", JFlt (1/10)); ("-1", JFlt (-1/10)); ("+2", JFlt (1/4)); ("-2", JFlt (-1/5))].
Definition resize_model : Model :=
  mkModel "resize" None [] [tab_np "a"; tab_np "b"; tab_np "c"] []
    [("SR", mkChannel "SR" KSingle [("S", mkSample "S" (NumberNorm (Some 1)) (Some 1) (Some [10]) [("a", JFlt (1/10)); ("b", JFlt (1/5)); ("c", tab_two)])])]
    [] true true true false 0.

Ltac ev2 := repeat (progress (lazy -[Reqb Rltb Rleb IZR Rplus Rminus Rmult Rdiv Ropp Rinv Rmax Rmin pow exp ln]; rdec)).
Theorem C19_more_variations_in_later_np_refuted : exists I K, set_internal_vars tab_env resize_model = Ok I /\
  k_exp resize_model I [0; 1; 0] = Ok K /\ K 0%nat 0%nat = 1 /\
  impact tab_fmt (mkSample "S" (NumberNorm (Some 1)) (Some 1) (Some [10]) [("a", JFlt (1/10)); ("b", JFlt (1/5)); ("c", tab_two)]) "b" 1 = Ok (Some [1 / 5 * 1]).
Proof.
  eexists. eexists. split; [unfold resize_model; ev2; reflexivity|]. split; [reflexivity|]. split; [|reflexivity].
  cbn [m_linear resize_model]. ev2. rewrite !Rmax_left, !Rmin_right by lra. cbn [pow]. field.
Qed.
Print Assumptions C19_more_variations_in_later_np_refuted.

(** Two positive variations and one negative: the negative coefficient is used for both orders, and the factor at -1 is 1
    instead of 0.8. *)
Definition uneven_model : Model :=
  mkModel "uneven" None [] [tab_np "a"] []
    [("SR", mkChannel "SR" KSingle [("S", mkSample "S" (NumberNorm (Some 1)) (Some 1) (Some [10])
       [("a", JObj [("+1", JFlt (1/10)); ("+2", JFlt (3/10)); ("-1", JFlt (-1/5))])])])]
    [] true true true false 0.
Definition inv_any (n : nat) (m : mat) : res mat :=
  match n with 1%nat => Ok (fun _ _ => 1 / m 0%nat 0%nat) | _ => inv2 n m end.
Theorem C19_uneven_variations_refuted : exists I K, set_internal_vars (mkEnv tab_fmt tab_float inv_any 5) uneven_model = Ok I /\
  k_exp uneven_model I [-1] = Ok K /\ K 0%nat 0%nat = 1.
Proof.
  eexists. eexists. split; [unfold uneven_model; ev2; reflexivity|]. split; [reflexivity|].
  cbn [m_linear uneven_model]. ev2. rewrite !Rmax_right, !Rmin_left by lra. cbn [pow]. field.
Qed.
Print Assumptions C19_uneven_variations_refuted.

(** Channels with different numbers of samples and an NP with two variations: the model cannot be built *)
Definition ragged_model : Model :=
  mkModel "ragged" None [] [tab_np "a"] []
    [("SR", mkChannel "SR" KSingle [("S", mkSample "S" (NumberNorm (Some 1)) (Some 1) (Some [10]) [("a", tab_two)]);
                                    ("B", mkSample "B" (NumberNorm (Some 1)) (Some 1) (Some [10]) [("a", tab_two)])]);
     ("CR", mkChannel "CR" KSingle [("S", mkSample "S" (NumberNorm (Some 1)) (Some 1) (Some [10]) [("a", tab_two)])])]
    [] true true true false 0.
Theorem C19_ragged_samples_refuted : set_internal_vars tab_env ragged_model = Err ValueError.
Proof. unfold ragged_model. ev2. reflexivity. Qed.
Print Assumptions C19_ragged_samples_refuted.

