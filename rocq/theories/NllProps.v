(** Properties of the likelihood: offsets (C21) and Asimov datasets (C22), core.py:742-787 and 1136-1151. *)
From Verif Require Import Py PyFacts Base Expressions Norms Sample Channels Params Core CoreFacts CoreExample NllFacts.
Local Open Scope string_scope.
Local Open Scope list_scope.

(** C21: there is one constant such that, at every parameter point with positive expected yields, the likelihood with
    offset is the likelihood without offset minus the constant.  The reference yields of the Poisson bins must be
    positive, and the Hessian of the Gaussian channels symmetric. *)
Theorem C21_offset_is_a_constant : forall m I data ref, ref_yields m I = Ok ref ->
  (forall b, (b < i_nbins_p I)%nat -> 0 < ref b) -> sym_on (i_nbins_g I) (i_poi_hess I) ->
  exists K, forall ps ns floor nc t, tot_bin_exp m I ps ns floor = Ok t -> (forall b, (b < i_nbins_p I)%nat -> 0 < t b) ->
    exists x, nll m I ps ns data false floor nc = Ok (Fin x) /\ nll m I ps ns data true floor nc = Ok (Fin (x - K)).
Proof.
  intros m I data ref Hr Hp Hs. eexists. intros ps ns floor nc t Ht Htp. eexists. split; [apply (nll_noff m I ps ns data floor nc t ref Ht Hr Htp)|].
  apply (nll_off m I ps ns data floor nc t ref Ht Hr Htp Hp Hs).
Qed.
Print Assumptions C21_offset_is_a_constant.

(** in particular for differences between any two points where both likelihoods are finite *)
Theorem C21_differences_unchanged : forall m I data ref, ref_yields m I = Ok ref ->
  (forall b, (b < i_nbins_p I)%nat -> 0 < ref b) -> sym_on (i_nbins_g I) (i_poi_hess I) ->
  forall ps ns ps' ns' floor nc x x' y y',
  nll m I ps ns data false floor nc = Ok (Fin x) -> nll m I ps' ns' data false floor nc = Ok (Fin x') ->
  nll m I ps ns data true floor nc = Ok (Fin y) -> nll m I ps' ns' data true floor nc = Ok (Fin y') -> y - y' = x - x'.
Proof.
  intros m I data ref Hr Hp Hs ps ns ps' ns' floor nc x x' y y' H1 H2 H3 H4.
  destruct (C21_offset_is_a_constant m I data ref Hr Hp Hs) as (K & HK).
  destruct (nll_fin_inv _ _ _ _ _ _ _ _ _ H1) as (t & rf & Ht & _ & P). destruct (nll_fin_inv _ _ _ _ _ _ _ _ _ H2) as (t' & rf' & Ht' & _ & P').
  destruct (HK ps ns floor nc t Ht (P (or_introl eq_refl))) as (z & Z1 & Z2). destruct (HK ps' ns' floor nc t' Ht' (P' (or_introl eq_refl))) as (z' & Z1' & Z2').
  rewrite H1 in Z1. rewrite H2 in Z1'. rewrite H3 in Z2. rewrite H4 in Z2'.
  inversion Z1. inversion Z1'. inversion Z2. inversion Z2'. subst. lra.
Qed.
Print Assumptions C21_differences_unchanged.

Lemma ex_ref I : set_internal_vars ex_env ex_model = Ok I -> exists ref, ref_yields ex_model I = Ok ref /\
  ref 0%nat = 13 /\ ref 1%nat = 20 /\ ref 2%nat = 40.
Proof.
  intros H. destruct ex_built_full as (I' & H' & Hc & _ & Hb & Hs & Hp & Hr & Hv & _). rewrite H in H'. inversion H'; subst I'; clear H'.
  unfold ref_yields, n_exp, nominal_row, cut_k_exp. rewrite Hc, Hb, Hs, Hp, Hr.
  assert (HK : forall ns, exists K, k_exp ex_model I ns = Ok K) by (intros; unfold k_exp; cbn; eauto).
  destruct (HK (repeat 0 2)) as (K & EK). cbn [length pm_nps]. rewrite EK.
  assert (K1 : forall s b, K s b = 1).
  { intros s b. clear - EK Hp. unfold k_exp in EK. cbn [m_asym m_linear ex_model] in EK. inversion EK; subst K; clear EK. rewrite Hp. cbn [length pm_nps rsum nth repeat].
    rewrite !Rmax_left, !Rmin_left by lra.
    assert (Z : forall f, rsum (i_nvar I) (fun v => f v * 0 ^ (v + 1)) = 0) by (intros f; apply rsum_eq0; intros v _; rewrite pow_i by lia; ring).
    rewrite !Z. ring. }
  eexists. split; [ev; reflexivity|]. cbn beta. unfold cut. cbn [m_cutoff ex_model]. rdec. cbn [rsum]. rewrite !K1. cbn [nth]. repeat split; field.
Qed.

Example C21_nonvacuous : exists I ref, set_internal_vars ex_env ex_model = Ok I /\ ref_yields ex_model I = Ok ref /\
  (forall b, (b < i_nbins_p I)%nat -> 0 < ref b) /\ sym_on (i_nbins_g I) (i_poi_hess I).
Proof.
  destruct ex_built_full as (I & H & _ & _ & _ & _ & _ & _ & _ & Hnp & Hng). destruct (ex_ref I H) as (ref & Hr & R0 & R1 & R2). exists I, ref.
  split; [exact H|]. split; [exact Hr|]. rewrite Hnp, Hng. split.
  - intros [|[|[|b]]] Hb; try lia; [rewrite R0|rewrite R1|rewrite R2]; lra.
  - intros i j Hi. lia.
Qed.

(** A signal-only bin and a POI with initial value 0: the reference yield is 0, and with offset the likelihood is
    minus infinity at every point with positive yield, so differences are meaningless *)
Definition sigonly_model (mu0 : R) : Model :=
  mkModel "sig" None [("mu", mkPOI (Some "mu") (Some 0) (Some 10) (Some mu0) None None)] [] []
    [("SR", mkChannel "SR" KSingle [("S", mkSample "S" (ExprNorm "mu") (Some 1) (Some [5]) [])])] [] true true true false 0.
Lemma sigonly_built mu0 : exists I, set_internal_vars ex_env (sigonly_model mu0) = Ok I /\
  i_channels I = m_channels (sigonly_model mu0) /\ i_nbins I = 1%nat /\ i_nsamples I = 1%nat /\ i_pm I = mkPM ["mu"] [] /\ i_ref_pois I = [mu0] /\ i_nbins_p I = 1%nat /\ i_nbins_g I = 0%nat.
Proof. eexists. split; [unfold sigonly_model; ev; reflexivity|]. repeat split; reflexivity. Qed.
Lemma sigonly_tot mu0 I mu : set_internal_vars ex_env (sigonly_model mu0) = Ok I -> forall floor, exists t, tot_bin_exp (sigonly_model mu0) I [mu] [] floor = Ok t /\
   (floor = None -> t 0%nat = 5 * mu).
Proof.
  intros H. destruct (sigonly_built mu0) as (I' & H' & Hc & Hb & Hs & Hp & _). rewrite H in H'. inversion H'; subst I'; clear H'.
  intros floor. unfold tot_bin_exp, n_exp, nominal_row, cut_k_exp, k_exp. rewrite Hc, Hb, Hs, Hp. cbn [m_asym m_linear sigonly_model m_channels].
  eexists. split; [ev; reflexivity|]. intros ->. cbn [rsum nth]. unfold cut. cbn [m_cutoff sigonly_model]. rdec. cbn [rsum length]. field.
Qed.
Lemma sigonly_ref mu0 I : set_internal_vars ex_env (sigonly_model mu0) = Ok I -> exists ref, ref_yields (sigonly_model mu0) I = Ok ref /\ ref 0%nat = 5 * mu0.
Proof.
  intros H. destruct (sigonly_built mu0) as (I' & H' & Hc & Hb & Hs & Hp & Hr & _). rewrite H in H'. inversion H'; subst I'; clear H'.
  unfold ref_yields, n_exp, nominal_row, cut_k_exp, k_exp. rewrite Hc, Hb, Hs, Hp, Hr. cbn [m_asym m_linear sigonly_model m_channels].
  eexists. split; [ev; reflexivity|]. cbn [rsum nth]. unfold cut. cbn [m_cutoff sigonly_model]. rdec. cbn [rsum length]. field.
Qed.

Theorem C21_zero_reference_yield_refuted : exists I, set_internal_vars ex_env (sigonly_model 0) = Ok I /\
  forall mu n, 0 < mu -> 0 < n ->
    (exists x, nll (sigonly_model 0) I [mu] [] (mkData [n] []) false None false = Ok (Fin x)) /\
    nll (sigonly_model 0) I [mu] [] (mkData [n] []) true None false = Ok MInf.
Proof.
  destruct (sigonly_built 0) as (I & H & Hc & Hb & Hs & Hp & Hr & Hnp & Hng). exists I. split; [exact H|]. intros mu n Hmu Hn.
  destruct (sigonly_tot 0 I mu H None) as (t & Ht & T0). destruct (sigonly_ref 0 I H) as (ref & Href & R0). specialize (T0 eq_refl). split.
  - eexists. apply (nll_noff _ I [mu] [] (mkData [n] []) None false t ref Ht Href). rewrite Hnp. intros [|b] Hb'; [|lia]. rewrite T0. lra.
  - unfold nll. rewrite Ht, Href. cbn [bind]. rewrite Hnp, Hng, Hp. cbn [esum length pm_nps]. rewrite R0, T0. unfold ediv. rdec.
    cbn [eloge nth d_counts emulr].
    rewrite (proj2 (Rltb_false 0 (- n))) by lra. rewrite (proj2 (Rltb_true (- n) 0)) by lra. reflexivity.
Qed.
Print Assumptions C21_zero_reference_yield_refuted.

(** C22 *)
Lemma poisson_min n t : 0 < n -> 0 < t -> n - n * ln n <= t - n * ln t.
Proof.
  intros Hn Ht. assert (E : ln (t / n) <= t / n - 1).
  { pose proof (exp_ineq1_le (ln (t / n))) as A. rewrite exp_ln in A by (apply Rdiv_lt_0_compat; assumption). lra. }
  rewrite ln_div in E by assumption. apply (Rmult_le_compat_l n) in E; [|lra].
  replace (n * (t / n - 1)) with (t - n) in E by (field; lra). lra.
Qed.

Definition psd (n : nat) (h : mat) : Prop := forall d, 0 <= qform n h d d.

Lemma cons_nonneg E m I p : built E m I -> 0 <= nth p (i_cons I) 0.
Proof.
  intros B. pose proof (bt_cons _ _ _ B) as HF. revert p. induction HF as [|a x l r Ha Hr IH]; intros [|p]; cbn; try lra; [|apply IH].
  unfold cons_of in Ha. destruct (np_constraint (snd a)); [|inversion Ha; lra]. apply bind_Ok in Ha as (c & Hc & Ha).
  destruct (Reqb c 0) eqn:Ez; [discriminate|]. apply Reqb_false in Ez. inversion Ha; subst.
  apply Rlt_le, Rdiv_lt_0_compat; [lra|]. destruct (Rtotal_order c 0) as [|[|]]; nra.
Qed.

(** no parameter point has a lower likelihood than the point at which the Asimov dataset was generated: the others are
    finite and not lower, or +infinity *)
Theorem C22_asimov_is_minimal : forall E m I ps ns data t off nc, set_internal_vars E m = Ok I ->
  generate_asimov m I ps ns = Ok data -> tot_bin_exp m I ps ns None = Ok t -> (forall b, (b < i_nbins_p I)%nat -> 0 < t b) ->
  psd (i_nbins_g I) (i_poi_hess I) ->
  (off = true -> sym_on (i_nbins_g I) (i_poi_hess I) /\ forall ref, ref_yields m I = Ok ref -> forall b, (b < i_nbins_p I)%nat -> 0 < ref b) ->
  forall ps' ns' v, nll m I ps' ns' data off None nc = Ok v ->
  exists x, nll m I ps ns data off None nc = Ok (Fin x) /\ (v = PInf \/ exists y, v = Fin y /\ x <= y).
Proof.
  intros E m I ps ns data t off nc H Hg Ht Hp Hpsd Hoff ps' ns' v Hv. apply siv_built in H as B.
  unfold generate_asimov in Hg. rewrite Ht in Hg. cbn [bind] in Hg. inversion Hg; subst data; clear Hg.
  set (cnt := map t (seq 0 (i_nbins I))) in *. set (data := mkData cnt ns) in *.
  assert (Hcnt : forall b, (b < i_nbins I)%nat -> nth b cnt 0 = t b).
  { intros b Hb. unfold cnt. rewrite (nth_map_lt _ _ _ 0%nat) by (rewrite seq_length; exact Hb). rewrite seq_nth by exact Hb. reflexivity. }
  pose proof (built_nbins _ _ _ B) as Hnb.
  assert (Hv2 := Hv). unfold nll in Hv2. apply bind_Ok in Hv2 as (t' & Ht' & Hv2). apply bind_Ok in Hv2 as (ref & Href & Hv2).
  assert (Hsum : forall t2 ref2, (forall b, (b < i_nbins_p I)%nat -> 0 < t2 b) ->
     pois_sum I (fun b => nth b cnt 0) t + gauss_sum I (fun b => nth b cnt 0) t + (if nc then 0 else cons_sum I ns ns) - ref2
     <= pois_sum I (fun b => nth b cnt 0) t2 + gauss_sum I (fun b => nth b cnt 0) t2 + (if nc then 0 else cons_sum I ns ns') - ref2).
  { intros t2 ref2 Hp2.
    assert (A1 : pois_sum I (fun b => nth b cnt 0) t <= pois_sum I (fun b => nth b cnt 0) t2).
    { unfold pois_sum. apply rsum_le. intros b Hb. rewrite Hcnt by lia. apply poisson_min; auto. }
    assert (A2 : gauss_sum I (fun b => nth b cnt 0) t = 0).
    { unfold gauss_sum, qform. rewrite rsum_eq0; [ring|]. intros i Hi. apply rsum_eq0. intros j Hj. rewrite !Hcnt by lia. ring. }
    assert (A3 : 0 <= gauss_sum I (fun b => nth b cnt 0) t2).
    { unfold gauss_sum. pose proof (Hpsd (fun i => t2 (i_nbins_p I + i)%nat - nth (i_nbins_p I + i) cnt 0)). lra. }
    assert (A4 : cons_sum I ns ns = 0) by (unfold cons_sum; rewrite rsum_eq0; [ring|intros; ring]).
    assert (A5 : 0 <= cons_sum I ns ns').
    { unfold cons_sum. enough (0 <= rsum (length (pm_nps (i_pm I))) (fun p => nth p (i_cons I) 0 * (nth p ns 0 - nth p ns' 0) * (nth p ns 0 - nth p ns' 0))) by lra.
      apply rsum_nonneg. intros p _. pose proof (cons_nonneg _ _ _ p B). pose proof (Rle_0_sqr (nth p ns 0 - nth p ns' 0)). unfold Rsqr in *. rewrite Rmult_assoc. apply Rmult_le_pos; assumption. }
    destruct nc; lra. }
  assert (Hbase : exists x, nll m I ps ns data off None nc = Ok (Fin x) /\ forall y, nll m I ps' ns' data off None nc = Ok (Fin y) -> x <= y).
  { destruct off.
    - destruct (Hoff eq_refl) as [Hs Hrp]. specialize (Hrp ref Href).
      eexists. split; [apply (nll_off m I ps ns data None nc t ref Ht Href Hp Hrp Hs)|]. intros y Hy.
      destruct (nll_fin_inv _ _ _ _ _ _ _ _ _ Hy) as (t2 & ref2 & Ht2 & Hr2 & Hp2). rewrite Href in Hr2. inversion Hr2; subst ref2. specialize (Hp2 (or_intror Hrp)).
      rewrite (nll_off m I ps' ns' data None nc t2 ref Ht2 Href Hp2 Hrp Hs) in Hy. inversion Hy. apply (Hsum t2 _ Hp2).
    - eexists. split; [apply (nll_noff m I ps ns data None nc t ref Ht Href Hp)|]. intros y Hy.
      destruct (nll_fin_inv _ _ _ _ _ _ _ _ _ Hy) as (t2 & ref2 & Ht2 & Hr2 & Hp2). specialize (Hp2 (or_introl eq_refl)).
      rewrite (nll_noff m I ps' ns' data None nc t2 ref Ht2 Href Hp2) in Hy. inversion Hy. pose proof (Hsum t2 0 Hp2). cbn [d_counts d_aux data] in *. lra. }
  destruct Hbase as (x & Hx & Hmin). exists x. split; [exact Hx|].
  assert (Hup : v = PInf \/ exists y, v = Fin y).
  { inversion Hv2 as [Hv3]. clear Hv2. match goal with |- context [esum ?n ?f] => assert (U : up (esum n f)) end.
    { apply esum_up. intros b Hb. cbn [d_counts data]. rewrite (Hcnt b) by lia. pose proof (Hp b Hb) as Tb. destruct off.
      - destruct (Hoff eq_refl) as [_ Hrp]. pose proof (Hrp ref Href b Hb). rewrite ediv_nz by lra. cbn [eloge]. unfold elog.
        destruct (Rltb 0 (t' b / ref b)); [exact Logic.I|]. destruct (Rltb (t' b / ref b) 0); [exact Logic.I|]. cbn.
        rewrite (proj2 (Rltb_false 0 (- t b))) by lra. rewrite (proj2 (Rltb_true (- t b) 0)) by lra. exact Logic.I.
      - unfold elog. destruct (Rltb 0 (t' b)); [exact Logic.I|]. destruct (Rltb (t' b) 0); [exact Logic.I|]. cbn.
        rewrite (proj2 (Rltb_false 0 (- t b))) by lra. rewrite (proj2 (Rltb_true (- t b) 0)) by lra. exact Logic.I. }
    match goal with |- context [esum ?n ?f] => destruct (esum n f) end; cbn [eadd]; try (destruct U); eauto. }
  destruct Hup as [->|(y & ->)]; [now left|]. right. exists y. split; [reflexivity|]. apply Hmin. exact Hv.
Qed.
Print Assumptions C22_asimov_is_minimal.

Example C22_nonvacuous : exists I data t, set_internal_vars ex_env ex_model = Ok I /\ generate_asimov ex_model I [1] [0; 0] = Ok data /\
  tot_bin_exp ex_model I [1] [0; 0] None = Ok t /\ (forall b, (b < i_nbins_p I)%nat -> 0 < t b) /\ psd (i_nbins_g I) (i_poi_hess I).
Proof.
  destruct ex_built_full as (I & H & _ & _ & _ & Hs & Hpm & Hrp & _ & Hnp & Hng). destruct (ex_ref I H) as (ref & Hr & R0 & R1 & R2). exists I.
  unfold ref_yields in Hr. rewrite Hrp, Hpm in Hr. cbn [length pm_nps repeat] in Hr. apply bind_Ok in Hr as (n & Hn & Hr). inversion Hr; subst ref; clear Hr.
  assert (Ht : tot_bin_exp ex_model I [1] [0; 0] None = Ok (fun b => rsum (i_nsamples I) (fun s => n s b))) by (unfold tot_bin_exp; rewrite Hn; reflexivity).
  unfold generate_asimov. rewrite Ht. cbn [bind]. do 2 eexists. repeat split; [exact H|..].
  - rewrite Hnp. intros [|[|[|b]]] Hb; try lia; [rewrite R0|rewrite R1|rewrite R2]; lra.
  - rewrite Hng. intros d. unfold qform. cbn. lra.
Qed.

(** With an empty bin the claim is false: the likelihood of the Asimov dataset at its own point is infinite (NaN in the
    sum), while it is finite at other points *)
Theorem C22_empty_bin_refuted : exists I data, set_internal_vars ex_env (sigonly_model 1) = Ok I /\
  generate_asimov (sigonly_model 1) I [0] [] = Ok data /\
  nll (sigonly_model 1) I [0] [] data false None false = Ok PInf /\
  forall mu, 0 < mu -> exists x, nll (sigonly_model 1) I [mu] [] data false None false = Ok (Fin x).
Proof.
  destruct (sigonly_built 1) as (I & H & Hc & Hb & Hs & Hp & Hr & Hnp & Hng). exists I.
  destruct (sigonly_tot 1 I 0 H None) as (t & Ht & T0). specialize (T0 eq_refl). destruct (sigonly_ref 1 I H) as (ref & Href & R0).
  unfold generate_asimov. rewrite Ht. cbn [bind]. eexists. split; [exact H|]. split; [reflexivity|]. rewrite Hb. cbn [seq map]. rewrite T0. split.
  - unfold nll. rewrite Ht, Href. cbn [bind]. rewrite Hnp, Hng, Hp. cbn [esum nth d_counts]. rewrite T0. unfold elog.
    rewrite (proj2 (Rltb_false 0 (5 * 0))) by lra. rewrite (proj2 (Rltb_false (5 * 0) 0)) by lra. cbn [emulr].
    rewrite (proj2 (Rltb_false 0 (- (5 * 0)))) by lra. rewrite (proj2 (Rltb_false (- (5 * 0)) 0)) by lra. reflexivity.
  - intros mu Hmu. destruct (sigonly_tot 1 I mu H None) as (t2 & Ht2 & T2). specialize (T2 eq_refl). eexists.
    apply (nll_noff _ I [mu] [] _ None false t2 ref Ht2 Href). rewrite Hnp. intros [|b] Hb'; [|lia]. rewrite T2. lra.
Qed.
Print Assumptions C22_empty_bin_refuted.
