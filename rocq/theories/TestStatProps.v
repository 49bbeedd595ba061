(** Properties of the test statistics and of their asymptotic p-values (test_statistics.py, calculators.py).
    [survival f g] (NormalSf): f is strictly decreasing with values in (0,1) and g is its inverse; the survival function
    of the normal distribution is proved to be one. *)
From Verif Require Import Py PyFacts NormalSf TestStat.

(** * signed square root *)
Theorem C35_signed_sqrt : forall x,
  signed_sqrt x * Rabs (signed_sqrt x) = x /\ (signed_sqrt x)² = Rabs x /\ (0 <= x -> 0 <= signed_sqrt x) /\ (x < 0 -> signed_sqrt x < 0) /\
  (forall y, x < y -> signed_sqrt x < signed_sqrt y) /\ signed_sqrt (- x) = - signed_sqrt x.
Proof.
  assert (P : forall x, 0 <= x -> signed_sqrt x = sqrt x) by (intros x H; unfold signed_sqrt; now rewrite (proj2 (Rleb_true _ _) H)).
  assert (N : forall x, x < 0 -> signed_sqrt x = - sqrt (- x)) by (intros x H; unfold signed_sqrt; now rewrite (proj2 (Rleb_false _ _) H)).
  intros x. split; [|split; [|split; [|split; [|split]]]].
  - destruct (Rle_lt_dec 0 x) as [H|H].
    + rewrite P by exact H. rewrite Rabs_pos_eq by apply sqrt_pos. apply sqrt_sqrt, H.
    + rewrite N by exact H. rewrite Rabs_Ropp, Rabs_pos_eq by apply sqrt_pos. pose proof (sqrt_sqrt (- x)). lra.
  - destruct (Rle_lt_dec 0 x) as [H|H].
    + rewrite P by exact H. rewrite Rabs_pos_eq by exact H. apply Rsqr_sqrt, H.
    + rewrite N by exact H. rewrite <- Rsqr_neg, Rsqr_sqrt by lra. rewrite Rabs_left by exact H. reflexivity.
  - intros H. rewrite P by exact H. apply sqrt_pos.
  - intros H. rewrite N by exact H. pose proof (sqrt_lt_R0 (- x)). lra.
  - intros y H. destruct (Rle_lt_dec 0 x) as [Hx|Hx]; destruct (Rle_lt_dec 0 y) as [Hy|Hy]; try lra.
    + rewrite !P by assumption. apply sqrt_lt_1; assumption.
    + rewrite N, P by assumption. pose proof (sqrt_lt_R0 (- x)). pose proof (sqrt_pos y). lra.
    + rewrite !N by assumption. apply Ropp_lt_contravar, sqrt_lt_1; lra.
  - destruct (Rtotal_order x 0) as [H|[->|H]].
    + rewrite P, N by lra. lra.
    + rewrite Ropp_0, P by lra. rewrite sqrt_0. lra.
    + rewrite N, P by lra. now rewrite Ropp_involutive.
Qed.
Print Assumptions C35_signed_sqrt.

(** * values *)
(** as computed by the calculators: the likelihood ratio, with a minus sign when the best fit is not below the hypothesis *)
Theorem C35_values : forall hypo tmu best A0, 0 < tmu ->
  (best < hypo <-> 0 < qmu_value (make_qmu hypo tmu best A0)) /\ (hypo <= best <-> qmu_value (make_qmu hypo tmu best A0) < 0) /\
  Rabs (qmu_value (make_qmu hypo tmu best A0)) = tmu /\
  (forall tmu_0, 0 <= tmu_0 -> 0 < hypo ->
     let q := qmt_init hypo tmu best (Some tmu_0) None (Some A0) (Some A0) in
     (best < 0 -> qmt_value q = tmu_0) /\ (0 <= best -> qmt_value q = qmu_value (make_qmu hypo tmu best A0))).
Proof.
  intros hypo tmu best A0 Ht. unfold make_qmu, qmu_value, qmu_init. cbn [q_best q_comp q_tmu].
  assert (A : qmu_value (make_qmu hypo tmu best A0) = if Rltb best hypo then tmu else - tmu) by reflexivity.
  unfold make_qmu, qmu_value, qmu_init in A. cbn [q_best q_comp q_tmu] in A.
  split; [|split; [|split]].
  - destruct (Rltb best hypo) eqn:E; [apply Rltb_true in E|apply Rltb_false in E]; split; intros; lra.
  - destruct (Rltb best hypo) eqn:E; [apply Rltb_true in E|apply Rltb_false in E]; split; intros; lra.
  - destruct (Rltb best hypo); [|rewrite Rabs_Ropp]; apply Rabs_pos_eq; lra.
  - intros tmu_0 H0 Hh. unfold qmt_value, qmt_init, qmu_init. cbn [qt_base qt_tmu_0 q_best q_comp q_tmu]. split; intros H.
    + now rewrite (proj2 (Rltb_true _ _) H).
    + now rewrite (proj2 (Rltb_false _ _) H).
Qed.
Print Assumptions C35_values.
(** the calculator does not provide the t_0-based value: q~ is then the same as q also for a negative best fit *)
Theorem C35_calculator_ignores_t0_refuted : forall hypo tmu best A0, best < 0 -> 0 <= hypo ->
  qmt_value (make_qmt hypo tmu best A0) = tmu /\ qmt_value (make_qmt hypo tmu best A0) = qmu_value (make_qmu hypo tmu best A0).
Proof.
  intros hypo tmu best A0 H Hh. unfold qmt_value, make_qmt, qmt_init, make_qmu, qmu_value, qmu_init. cbn [qt_base qt_tmu_0 q_best q_comp q_tmu].
  rewrite (proj2 (Rltb_true _ _) H), (proj2 (Rltb_true best hypo)) by lra. split; reflexivity.
Qed.
Print Assumptions C35_calculator_ignores_t0_refuted.

(** * C36: p-values *)
Lemma ssqrt_le x y : x <= y -> signed_sqrt x <= signed_sqrt y.
Proof. intros [H|<-]; [left; now apply C35_signed_sqrt|right; reflexivity]. Qed.
Lemma ncp_nonneg q l : ncp q = Ok l -> 0 <= l.
Proof.
  unfold ncp. destruct (Reqb _ _); [intros [= <-]; lra|]. destruct (q_Amu q) as [a|].
  - intros [= <-]. destruct (Rltb a 0) eqn:E; [lra|]. now apply Rltb_false in E.
  - destruct (q_sigma q) as [s|]; [|discriminate]. destruct (Reqb s 0); [discriminate|]. intros E; injection E as <-. apply (pow2_ge_0 ((q_comp q - q_test q) / s)).
Qed.

(** the p-value of q_mu is a probability that decreases with the test statistic *)
Theorem C36_qmu_pvalue : forall D q t p, survival (sf D) (isf D) -> qmu_pv D q (Some t) = Ok p ->
  0 < p < 1 /\ forall t', t < t' -> exists p', qmu_pv D q (Some t') = Ok p' /\ p' < p.
Proof.
  intros D q t p S H. unfold qmu_pv in *. destruct (ncp q) as [l|]; [|discriminate]. cbn [bind] in *. inversion H; subst p; clear H. split; [apply (sv_range _ _ S)|].
  intros t' Ht. eexists. split; [reflexivity|]. apply (sv_decr _ _ S). assert (signed_sqrt t < signed_sqrt t') by now apply C35_signed_sqrt. lra.
Qed.
Print Assumptions C36_qmu_pvalue.

(** the argument of the survival function, for q~: signed square root below the threshold, linear above *)
Definition qmt_arg (h l t : R) : R := if Rltb t h then signed_sqrt t - sqrt l else (t + h) / (2 * sqrt h) - sqrt l.
Lemma qmt_pv_arg D q t h l : threshold q = Ok h -> 0 < h -> ncp (qt_base q) = Ok l -> qmt_pv D q (Some t) = Ok (sf D (qmt_arg h l t)).
Proof.
  intros H Hh Hl. unfold qmt_pv, qmt_arg. rewrite H. cbn [bind]. unfold qmu_pv. rewrite Hl. cbn [bind]. destruct (Rltb t h); [reflexivity|].
  now rewrite (proj2 (Reqb_false h 0)) by lra.
Qed.
Lemma qmt_arg_threshold h l : 0 < h -> (h + h) / (2 * sqrt h) - sqrt l = signed_sqrt h - sqrt l.
Proof.
  intros Hh. unfold signed_sqrt. rewrite (proj2 (Rleb_true 0 h)) by lra. f_equal. pose proof (sqrt_lt_R0 h Hh). rewrite <- (sqrt_sqrt h) at 1 2 by lra. field. lra.
Qed.
Lemma qmt_arg_incr h l t t' : 0 < h -> t < t' -> qmt_arg h l t < qmt_arg h l t'.
Proof.
  intros Hh Ht. pose proof (sqrt_lt_R0 h Hh) as Hs. pose proof (qmt_arg_threshold h l Hh) as E.
  assert (L : forall u v, u < v -> (u + h) / (2 * sqrt h) - sqrt l < (v + h) / (2 * sqrt h) - sqrt l).
  { intros u v Huv. assert ((u + h) / (2 * sqrt h) < (v + h) / (2 * sqrt h)); [|lra]. apply Rmult_lt_compat_r; [apply Rinv_0_lt_compat|]; lra. }
  assert (Q : forall u v, u < v -> signed_sqrt u - sqrt l < signed_sqrt v - sqrt l).
  { intros u v Huv. assert (signed_sqrt u < signed_sqrt v) by now apply C35_signed_sqrt. lra. }
  unfold qmt_arg. destruct (Rltb t h) eqn:E1; destruct (Rltb t' h) eqn:E2; try (apply Rltb_true in E1); try (apply Rltb_false in E1); try (apply Rltb_true in E2); try (apply Rltb_false in E2).
  - now apply Q.
  - apply Rlt_le_trans with (signed_sqrt h - sqrt l); [now apply Q|]. rewrite <- E. destruct E2 as [E2|E2]; [left; now apply L|subst t'; lra].
  - lra.
  - now apply L.
Qed.
(** same for q~_mu with a positive threshold; the expressions below and above the threshold agree there *)
Theorem C36_qmutilda_pvalue : forall D q h t p, survival (sf D) (isf D) -> threshold q = Ok h -> 0 < h -> qmt_pv D q (Some t) = Ok p ->
  0 < p < 1 /\ (forall t', t < t' -> exists p', qmt_pv D q (Some t') = Ok p' /\ p' < p) /\
  qmt_pv D q (Some h) = qmu_pv D (qt_base q) (Some h) /\
  (t <= h -> qmt_pv D q (Some t) = qmu_pv D (qt_base q) (Some t)).
Proof.
  intros D q h t p S H Hh Hp.
  assert (Hl : exists l, ncp (qt_base q) = Ok l).
  { unfold qmt_pv in Hp. rewrite H in Hp. cbn [bind] in Hp. unfold qmu_pv in Hp. destruct (Rltb t h), (Reqb h 0), (ncp (qt_base q)); cbn in Hp; try discriminate; eauto. }
  destruct Hl as (l & Hl). pose proof (qmt_pv_arg D q t h l H Hh Hl) as A. rewrite Hp in A. inversion A; subst p; clear A.
  split; [apply (sv_range _ _ S)|]. split; [|split].
  - intros t' Ht. exists (sf D (qmt_arg h l t')). split; [now apply qmt_pv_arg|]. apply (sv_decr _ _ S). now apply qmt_arg_incr.
  - rewrite (qmt_pv_arg D q h h l H Hh Hl). unfold qmt_arg. rewrite (proj2 (Rltb_false h h)) by lra. unfold qmu_pv. rewrite Hl. cbn [bind]. now rewrite qmt_arg_threshold.
  - intros Ht. rewrite (qmt_pv_arg D q t h l H Hh Hl). unfold qmu_pv. rewrite Hl. cbn [bind]. unfold qmt_arg. destruct (Rltb t h) eqn:E; [reflexivity|].
    apply Rltb_false in E. assert (t = h) by lra. subst t. now rewrite qmt_arg_threshold.
Qed.
Print Assumptions C36_qmutilda_pvalue.
(** with a zero threshold (in particular for the hypothesis 0) there is no p-value for a non-negative test statistic *)
Theorem C36_qmutilda_zero_threshold_refuted : forall D hypo tmu best A0, A0 <= 0 -> 0 <= tmu -> 0 <= best < hypo ->
  qmt_pv D (make_qmt hypo tmu best A0) None = Err ZeroDivisionError.
Proof.
  intros D hypo tmu best A0 HA Ht Hb. unfold qmt_pv, make_qmt, qmt_init, threshold, qmt_value, qmu_init. cbn [qt_A0 qt_base qt_tmu_0 q_best q_comp q_tmu bind].
  rewrite (proj2 (Rltb_false best 0)), (proj2 (Rltb_true best hypo)) by lra.
  assert (E : (if Rltb A0 0 then 0 else A0) = 0) by (destruct (Rltb A0 0) eqn:E; [reflexivity|apply Rltb_false in E; lra]).
  rewrite E, (proj2 (Rltb_false tmu 0)) by lra. now rewrite (proj2 (Reqb_true 0 0)).
Qed.
Print Assumptions C36_qmutilda_zero_threshold_refuted.
Definition normal_dist : Dist := mkDist normal_sf normal_isf (fun _ _ => 1).
Example C36_nonvacuous : survival (sf normal_dist) (isf normal_dist) /\ threshold (make_qmt 2 3 1 4) = Ok 4 /\ exists p, qmt_pv normal_dist (make_qmt 2 3 1 4) (Some 9) = Ok p.
Proof.
  split; [apply normal_survival|]. assert (T : threshold (make_qmt 2 3 1 4) = Ok 4) by (unfold threshold; cbn; now rewrite (proj2 (Rltb_false 4 0)) by lra).
  split; [exact T|]. eexists. apply (qmt_pv_arg _ _ 9 4 0 T); [lra|]. unfold ncp. cbn. now rewrite (proj2 (Reqb_true 2 2)).
Qed.

(** * C37: inverse of the p-value *)
Lemma norm_isf_ok D p : 0 < p < 1 -> norm_isf D p = Ok (isf D p).
Proof. intros [H1 H2]. unfold norm_isf. now rewrite (proj2 (Rltb_true _ _) H1), (proj2 (Rltb_true _ _) H2). Qed.
Lemma ssqrt_sq x : signed_sqrt (x * Rabs x) = x.
Proof.
  destruct (Rle_lt_dec 0 x) as [H|H].
  - rewrite Rabs_pos_eq by exact H. unfold signed_sqrt. rewrite (proj2 (Rleb_true 0 (x * x))) by nra. now apply sqrt_square.
  - rewrite Rabs_left by exact H. unfold signed_sqrt. rewrite (proj2 (Rleb_false 0 (x * - x))) by nra. replace (- (x * - x)) with ((- x) * (- x)) by ring. rewrite sqrt_square by lra. ring.
Qed.
Theorem C37_qmu_inverse : forall D q l, survival (sf D) (isf D) -> ncp q = Ok l ->
  (forall pv, 0 < pv < 1 -> exists t, qmu_ts D q pv = Ok t /\ qmu_pv D q (Some t) = Ok pv) /\
  (forall t p, qmu_pv D q (Some t) = Ok p -> qmu_ts D q p = Ok t).
Proof.
  intros D q l S Hl. split.
  - intros pv Hp. unfold qmu_ts, qmu_pv. rewrite norm_isf_ok by exact Hp. rewrite Hl. cbn [bind]. eexists. split; [reflexivity|]. rewrite ssqrt_sq. f_equal.
    replace (isf D pv + sqrt l - sqrt l) with (isf D pv) by ring. apply (sv_inv _ _ S), Hp.
  - intros t p H. unfold qmu_pv, qmu_ts in *. rewrite Hl in *. cbn [bind] in *. inversion H; subst p; clear H. rewrite norm_isf_ok by apply (sv_range _ _ S). cbn [bind].
    rewrite (survival_inv_l _ _ _ S). replace (signed_sqrt t - sqrt l + sqrt l) with (signed_sqrt t) by ring. f_equal. apply C35_signed_sqrt.
Qed.
Print Assumptions C37_qmu_inverse.
(** for q~ the value found gives the p-value back exactly when the normal quantile is not between the threshold and its
    square root: the code compares it to the threshold instead of its square root *)
Theorem C37_qmutilda_inverse : forall D q l h pv, survival (sf D) (isf D) -> ncp (qt_base q) = Ok l -> threshold q = Ok h -> 0 < h -> 0 < pv < 1 ->
  exists t, qmt_ts D q pv = Ok t /\
  let q1 := isf D pv + sqrt l in
  ((q1 < h /\ q1 <= sqrt h) \/ (h <= q1 /\ sqrt h <= q1) -> qmt_pv D q (Some t) = Ok pv) /\
  ((q1 < h /\ sqrt h < q1) \/ (h <= q1 /\ q1 < sqrt h) -> qmt_pv D q (Some t) <> Ok pv).
Proof.
  intros D q l h pv S Hl H Hh Hp. unfold qmt_ts. rewrite norm_isf_ok by exact Hp. rewrite Hl, H. cbn [bind]. eexists. split; [reflexivity|]. set (q1 := isf D pv + sqrt l).
  pose proof (sqrt_lt_R0 h Hh) as Hs. pose proof (sqrt_sqrt h (Rlt_le _ _ Hh)) as Hss.
  assert (Ok1 : forall t, qmt_pv D q (Some t) = Ok pv <-> qmt_arg h l t = q1 - sqrt l).
  { intros t. rewrite (qmt_pv_arg D q t h l H Hh Hl). unfold q1. replace (isf D pv + sqrt l - sqrt l) with (isf D pv) by ring. split.
    - intros [= E]. rewrite <- (sv_inv _ _ S pv Hp) in E. now apply (survival_inj _ _ _ _ S) in E.
    - intros ->. f_equal. apply (sv_inv _ _ S), Hp. }
  assert (Rng : q1 <= sqrt h -> q1 * Rabs q1 <= h).
  { intros Hq. destruct (Rle_lt_dec 0 q1); [rewrite Rabs_pos_eq by lra; nra|rewrite Rabs_left by lra; nra]. }
  fold q1. split.
  - intros [[A B]|[A B]]; apply Ok1.
    + rewrite (proj2 (Rltb_true _ _) A). unfold qmt_arg. destruct (Rltb (q1 * Rabs q1) h) eqn:E; [now rewrite ssqrt_sq|]. apply Rltb_false in E. specialize (Rng B).
      assert (E2 : q1 * Rabs q1 = h) by lra. rewrite E2, qmt_arg_threshold by exact Hh. rewrite <- E2, ssqrt_sq. reflexivity.
    + rewrite (proj2 (Rltb_false _ _) A). unfold qmt_arg. rewrite (proj2 (Rltb_false (q1 * 2 * sqrt h - h) h)) by nra. f_equal. field. lra.
  - intros C E. apply Ok1 in E. revert E. destruct C as [[A B]|[A B]].
    + rewrite (proj2 (Rltb_true _ _) A). unfold qmt_arg. rewrite Rabs_pos_eq by lra. rewrite (proj2 (Rltb_false (q1 * q1) h)) by nra. intros E.
      assert (E2 : (q1 * q1 + h) / (2 * sqrt h) = q1) by lra. apply (f_equal (fun x => x * (2 * sqrt h))) in E2. unfold Rdiv in E2. rewrite Rmult_assoc, Rinv_l, Rmult_1_r in E2 by lra.
      assert (0 < (q1 - sqrt h) * (q1 - sqrt h)) by (apply Rmult_lt_0_compat; lra). nra.
    + rewrite (proj2 (Rltb_false _ _) A). unfold qmt_arg. rewrite (proj2 (Rltb_true (q1 * 2 * sqrt h - h) h)) by nra. intros E.
      assert (E2 : signed_sqrt (q1 * 2 * sqrt h - h) = q1) by lra. apply (f_equal (fun x => x * Rabs x)) in E2. rewrite (proj1 (C35_signed_sqrt _)) in E2. rewrite Rabs_pos_eq in E2 by lra.
      assert (0 < (sqrt h - q1) * (sqrt h - q1)) by (apply Rmult_lt_0_compat; lra). nra.
Qed.
Print Assumptions C37_qmutilda_inverse.
(** the second case happens: threshold 4, normal quantile 3 *)
Theorem C37_qmutilda_inverse_refuted : forall D, survival (sf D) (isf D) -> exists pv t, 0 < pv < 1 /\
  qmt_ts D (make_qmt 1 1 0 4) pv = Ok t /\ t = 9 /\ qmt_pv D (make_qmt 1 1 0 4) (Some t) <> Ok pv.
Proof.
  intros D S. pose proof (sv_range _ _ S 3) as Hp. exists (sf D 3).
  assert (T : threshold (make_qmt 1 1 0 4) = Ok 4) by (unfold threshold; cbn; now rewrite (proj2 (Rltb_false 4 0)) by lra).
  assert (Hl : ncp (qt_base (make_qmt 1 1 0 4)) = Ok 0) by (unfold ncp; cbn; now rewrite (proj2 (Reqb_true 1 1))).
  destruct (C37_qmutilda_inverse D (make_qmt 1 1 0 4) 0 4 (sf D 3) S Hl T) as (t & Ht & _ & B); [lra|exact Hp|].
  rewrite (survival_inv_l _ _ 3 S), sqrt_0 in B. exists t. split; [exact Hp|]. split; [exact Ht|]. split.
  - unfold qmt_ts in Ht. rewrite norm_isf_ok, Hl, T in Ht by exact Hp. cbn [bind] in Ht. rewrite (survival_inv_l _ _ 3 S), sqrt_0 in Ht.
    rewrite (proj2 (Rltb_true (3 + 0) 4)) in Ht by lra. inversion Ht. rewrite Rabs_pos_eq by lra. lra.
  - apply B. left. replace 4 with (2 * 2) at 2 by ring. rewrite sqrt_square by lra. lra.
Qed.
Print Assumptions C37_qmutilda_inverse_refuted.
(** t_mu: the inverse is taken with the normal distribution, the p-value with the chi2 distribution *)
Theorem C37_tmu_inverse_refuted : forall D n, survival (sf D) (isf D) -> sf D 0 = 1 / 2 -> chi2sf D 0 n = 1 ->
  exists t, tmu_ts D (1 / 2) = Ok t /\ tmu_pv D (mkTMu n 0) (Some t) = 1.
Proof.
  intros D n S H0 Hc. exists 0. unfold tmu_ts. rewrite norm_isf_ok by lra. split; [|exact Hc]. f_equal. rewrite <- H0. apply (survival_inv_l _ _ 0 S).
Qed.
Print Assumptions C37_tmu_inverse_refuted.
Example C37_nonvacuous : survival (sf normal_dist) (isf normal_dist) /\ sf normal_dist 0 = 1 / 2 /\ ncp (make_qmu 1 2 0 4) = Ok 0.
Proof. split; [apply normal_survival|]. split; [apply normal_sf_0|]. unfold ncp. cbn. now rewrite (proj2 (Reqb_true 1 1)). Qed.

(** * C38: CLs *)
Lemma cls_bounds clsb clb : 0 < clsb -> clsb <= clb -> clb < 1 -> clsb < cls_of clsb clb <= 1.
Proof.
  intros H1 H2 H3. unfold cls_of. rewrite (proj2 (Rltb_true 0 clb)) by lra. assert (Hi : 1 < / clb) by (rewrite <- Rinv_1; apply Rinv_lt_contravar; lra). split.
  - unfold Rdiv. rewrite <- (Rmult_1_r clsb) at 1. apply Rmult_lt_compat_l; assumption.
  - apply (Rmult_le_reg_r clb); [lra|]. unfold Rdiv. rewrite Rmult_assoc, Rinv_l by lra. lra.
Qed.
(** CLs and CLs+b, CLb as stored by the q_mu calculator: CLs = CLs+b/CLb is in (0,1] and above CLs+b *)
Theorem C38_qmu_cls : forall D hypo tmu best A0 v pv cls clb, survival (sf D) (isf D) ->
  fill_pv_qmu D (make_qmu hypo tmu best A0) = Ok (v, pv, cls, clb) -> 0 < pv /\ pv <= clb /\ clb < 1 /\ cls = pv / clb /\ pv < cls <= 1.
Proof.
  intros D hypo tmu best A0 v pv cls clb S H. unfold fill_pv_qmu in H. apply bind_Ok in H as (pv0 & Hpv & H). apply bind_Ok in H as (cls0 & Hc & H). apply bind_Ok in H as (clb0 & Hb & H).
  inversion H; subst v pv0 cls0 clb0; clear H. unfold qmu_cls in Hc. rewrite Hpv, Hb in Hc. cbn [bind] in Hc. inversion Hc as [E]. clear Hc.
  unfold qmu_pv in Hpv. unfold ncp in Hpv. cbn [q_comp q_test make_qmu qmu_init] in Hpv. rewrite (proj2 (Reqb_true hypo hypo) eq_refl) in Hpv. cbn [bind] in Hpv. inversion Hpv as [Ep]; clear Hpv.
  unfold qmu_clb, qmu_pv in Hb. apply bind_Ok in Hb as (l & Hl & Hb). inversion Hb as [Eb]; clear Hb. apply ncp_nonneg in Hl.
  change (qmu_value (qmu_init 0 _ _ _ _ _)) with (qmu_value (make_qmu hypo tmu best A0)).
  set (x := signed_sqrt (qmu_value (make_qmu hypo tmu best A0))). rewrite sqrt_0, Rminus_0_r.
  assert (L : sf D x <= sf D (x - sqrt l)) by (apply (survival_le _ _ _ _ S); pose proof (sqrt_pos l); lra).
  pose proof (sv_range _ _ S x). pose proof (sv_range _ _ S (x - sqrt l)). pose proof (cls_bounds (sf D x) (sf D (x - sqrt l))) as CB.
  split; [lra|]. split; [exact L|]. split; [lra|]. split; [unfold cls_of; now rewrite (proj2 (Rltb_true 0 _)) by lra|]. apply CB; lra.
Qed.
Print Assumptions C38_qmu_cls.
Example C38_nonvacuous : exists r, fill_pv_qmu normal_dist (make_qmu 1 2 0 4) = Ok r.
Proof.
  unfold fill_pv_qmu, qmu_cls, qmu_clb, qmu_pv, ncp. cbn [q_comp q_test make_qmu qmu_init q_Amu]. rewrite (proj2 (Reqb_true 1 1) eq_refl), (proj2 (Reqb_false 1 0)) by lra. cbn [bind]. eauto.
Qed.
(** same for q~_mu, as built by its calculator, with a positive Asimov value *)
Theorem C38_qmutilda_cls : forall D hypo tmu best A0 v pv cls clb, survival (sf D) (isf D) -> 0 < A0 ->
  fill_pv_qmt D (make_qmt hypo tmu best A0) = Ok (v, pv, cls, clb) -> 0 < pv /\ pv <= clb /\ clb < 1 /\ cls = pv / clb /\ pv < cls <= 1.
Proof.
  intros D hypo tmu best A0 v pv cls clb S HA H. unfold fill_pv_qmt in H. apply bind_Ok in H as (pv0 & Hpv & H). apply bind_Ok in H as (cls0 & Hc & H). apply bind_Ok in H as (clb0 & Hb & H).
  inversion H; subst v pv0 cls0 clb0; clear H. unfold qmt_cls in Hc. rewrite Hpv, Hb in Hc. cbn [bind] in Hc. inversion Hc as [E]. clear Hc.
  set (v := qmt_value (make_qmt hypo tmu best A0)) in *.
  assert (T : forall q, qt_A0 q = Some A0 -> threshold q = Ok A0) by (intros q Hq; unfold threshold; rewrite Hq, (proj2 (Rltb_false A0 0)) by lra; reflexivity).
  assert (P1 : qmt_pv D (make_qmt hypo tmu best A0) (Some v) = Ok (sf D (qmt_arg A0 0 v))).
  { apply qmt_pv_arg; [apply T; reflexivity|exact HA|]. unfold ncp. cbn. now rewrite (proj2 (Reqb_true hypo hypo) eq_refl). }
  change (qmt_pv D (make_qmt hypo tmu best A0) None) with (qmt_pv D (make_qmt hypo tmu best A0) (Some v)) in Hpv. rewrite P1 in Hpv. inversion Hpv as [Ep]; clear Hpv P1.
  unfold qmt_clb in Hb. cbn [make_qmt qmt_init qt_base q_tmu q_best q_comp qmu_init qt_A0] in Hb. set (q0 := qmt_init 0 tmu best None (Some hypo) (Some A0) (Some A0)) in *.
  change (qmt_pv D q0 None) with (qmt_pv D q0 (Some v)) in Hb.
  assert (Hl : exists l, ncp (qt_base q0) = Ok l /\ 0 <= l) by (unfold ncp; cbn; destruct (Reqb hypo 0); [exists 0; split; [reflexivity|lra]|]; rewrite (proj2 (Rltb_false A0 0)) by lra; exists A0; split; [reflexivity|lra]).
  destruct Hl as (l & Hl & Hl0). rewrite (qmt_pv_arg D q0 v A0 l (T q0 eq_refl) HA Hl) in Hb. inversion Hb as [Eb]; clear Hb.
  assert (L : sf D (qmt_arg A0 0 v) <= sf D (qmt_arg A0 l v)).
  { apply (survival_le _ _ _ _ S). unfold qmt_arg. pose proof (sqrt_pos l). rewrite sqrt_0. destruct (Rltb v A0); lra. }
  pose proof (sv_range _ _ S (qmt_arg A0 0 v)). pose proof (sv_range _ _ S (qmt_arg A0 l v)). pose proof (cls_bounds (sf D (qmt_arg A0 0 v)) (sf D (qmt_arg A0 l v))) as CB.
  split; [lra|]. split; [exact L|]. split; [lra|]. split; [unfold cls_of; now rewrite (proj2 (Rltb_true 0 _)) by lra|]. apply CB; lra.
Qed.
Print Assumptions C38_qmutilda_cls.
(** when the value t_0 is given, CLb does not use it, and CLs can be above 1: best fit -1, t_0 = 1, t = 10, t_A0 = 1 *)
Theorem C38_qmutilda_t0_refuted : forall D, survival (sf D) (isf D) -> exists q cls, q = qmt_init 1 10 (-1) (Some 1) None (Some 1) (Some 1) /\ qmt_cls D q = Ok cls /\ 1 < cls.
Proof.
  intros D S. exists (qmt_init 1 10 (-1) (Some 1) None (Some 1) (Some 1)).
  assert (T : forall q, qt_A0 q = Some 1 -> threshold q = Ok 1) by (intros q Hq; unfold threshold; rewrite Hq, (proj2 (Rltb_false 1 0)) by lra; reflexivity).
  set (q := qmt_init 1 10 (-1) (Some 1) None (Some 1) (Some 1)).
  assert (V : qmt_value q = 1) by (unfold qmt_value; cbn; now rewrite (proj2 (Rltb_true (-1) 0)) by lra).
  assert (P1 : qmt_pv D q None = Ok (sf D (qmt_arg 1 0 1))).
  { change (qmt_pv D q None) with (qmt_pv D q (Some (qmt_value q))). rewrite V. apply qmt_pv_arg; [apply T; reflexivity|lra|]. unfold ncp. cbn. now rewrite (proj2 (Reqb_true 1 1)). }
  assert (P2 : qmt_clb D q = Ok (sf D (qmt_arg 1 1 10))).
  { unfold qmt_clb. set (q0 := qmt_init _ _ _ _ _ _ _). change (qmt_pv D q0 None) with (qmt_pv D q0 (Some (qmt_value q0))).
    assert (V0 : qmt_value q0 = 10) by (unfold qmt_value, q0; cbn; now rewrite (proj2 (Rltb_true (-1) 0)) by lra). rewrite V0. apply qmt_pv_arg; [apply T; reflexivity|lra|].
    unfold ncp. cbn. rewrite (proj2 (Reqb_false 1 0)) by lra. now rewrite (proj2 (Rltb_false 1 0)) by lra. }
  unfold qmt_cls. rewrite P1, P2. cbn [bind]. eexists. split; [reflexivity|]. split; [reflexivity|].
  assert (L : qmt_arg 1 0 1 < qmt_arg 1 1 10) by (unfold qmt_arg; rewrite (proj2 (Rltb_false 1 1)), (proj2 (Rltb_false 10 1)) by lra; rewrite sqrt_0, sqrt_1; lra).
  apply (sv_decr _ _ S) in L. pose proof (sv_range _ _ S (qmt_arg 1 1 10)) as Rg. unfold cls_of. rewrite (proj2 (Rltb_true 0 _)) by lra.
  apply (Rmult_lt_reg_r (sf D (qmt_arg 1 1 10))); [lra|]. unfold Rdiv. rewrite Rmult_assoc, Rinv_l by lra. lra.
Qed.
Print Assumptions C38_qmutilda_t0_refuted.
(** a CLb of zero gives 1 *)
Theorem C38_zero_clb : forall clsb clb, clb <= 0 -> cls_of clsb clb = 1.
Proof. intros clsb clb H. unfold cls_of. now rewrite (proj2 (Rltb_false 0 clb)) by lra. Qed.
Print Assumptions C38_zero_clb.
