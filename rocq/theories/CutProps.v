(** C20: the regularization of the impact factors (core.py:651-653). *)
From Verif Require Import Py PyFacts Base Channels Params Core.
From Coquelicot Require Import Coquelicot.
Local Open Scope R_scope.

(** C20 *)
Lemma cosh_pos x : 0 < cosh x.
Proof. unfold cosh. pose proof (exp_pos x). pose proof (exp_pos (- x)). lra. Qed.
Lemma tanh_lt_1 x : -1 < tanh x < 1.
Proof.
  unfold tanh. pose proof (cosh_pos x) as C. pose proof (exp_pos x). pose proof (exp_pos (- x)). unfold sinh in *.
  split; [apply Rmult_lt_reg_r with (cosh x)|apply Rmult_lt_reg_r with (cosh x)]; auto; unfold Rdiv; rewrite Rmult_assoc, Rinv_l by lra; unfold cosh; lra.
Qed.
Lemma tanh_0 : tanh 0 = 0.
Proof. unfold tanh. rewrite sinh_0. unfold Rdiv. ring. Qed.
Lemma tanh_odd x : tanh (- x) = - tanh x.
Proof. unfold tanh, sinh, cosh. rewrite Ropp_involutive. field. pose proof (exp_pos x). pose proof (exp_pos (- x)). lra. Qed.
Lemma tanh_incr x y : x < y -> tanh x < tanh y.
Proof.
  intros H. unfold tanh. pose proof (cosh_pos x). pose proof (cosh_pos y).
  apply Rmult_lt_reg_r with (cosh x * cosh y); [apply Rmult_lt_0_compat; assumption|].
  replace (sinh x / cosh x * (cosh x * cosh y)) with (sinh x * cosh y) by (field; lra).
  replace (sinh y / cosh y * (cosh x * cosh y)) with (sinh y * cosh x) by (field; lra).
  unfold sinh, cosh. assert (E : exp x * exp (- y) < exp y * exp (- x)) by (rewrite <- !exp_plus; apply exp_increasing; lra). nra.
Qed.
Lemma der_sinh x : is_derive sinh x (cosh x).
Proof. unfold sinh, cosh. auto_derive; [tauto|]. field. Qed.
Lemma der_tanh x : is_derive tanh x (1 / (cosh x * cosh x)).
Proof.
  unfold tanh. pose proof (cosh_pos x) as C. evar_last. 
  - apply (is_derive_div sinh cosh x (cosh x) (sinh x)); [apply der_sinh| |lra]. unfold sinh, cosh. auto_derive; [tauto|]. field.
  - unfold sinh, cosh. assert (E : exp x * exp (- x) = 1) by (rewrite <- exp_plus, Rplus_opp_r; apply exp_0). 
    unfold cosh in C. field_simplify_eq; [|lra]. replace (exp x) with (/ exp (- x)) by (pose proof (exp_pos (- x)); apply (Rmult_eq_reg_r (exp (- x))); [rewrite E; field; lra|lra]).
    field. pose proof (exp_pos (- x)). lra.
Qed.
Lemma tanh_le x : 0 <= x -> tanh x <= x.
Proof.
  intros Hx. destruct (Req_dec x 0) as [->|Hz]; [rewrite tanh_0; lra|].
  destruct (MVT_gen tanh 0 x (fun y => 1 / (cosh y * cosh y))) as (c & Hc & E).
  - intros y _. apply der_tanh.
  - intros y _. apply derivable_continuous_pt. exists (1 / (cosh y * cosh y)). apply is_derive_Reals, der_tanh.
  - rewrite tanh_0 in E. rewrite Rminus_0_r, Rminus_0_r in E. rewrite E.
    assert (1 <= cosh c * cosh c).
    { assert (cosh c * cosh c = 1 + sinh c * sinh c) as ->.
      { unfold sinh, cosh. assert (Ex : exp c * exp (- c) = 1) by (rewrite <- exp_plus, Rplus_opp_r; apply exp_0). nra. }
      pose proof (Rle_0_sqr (sinh c)). unfold Rsqr in *. lra. }
    assert (1 / (cosh c * cosh c) <= 1) by (apply Rmult_le_reg_r with (cosh c * cosh c); [lra|]; unfold Rdiv; rewrite Rmult_assoc, Rinv_l by lra; lra).
    nra.
Qed.

Lemma cut_even c k : cut (- c) k = cut c k.
Proof.
  unfold cut. destruct (Req_dec c 0) as [->|H]; [rewrite Ropp_0; reflexivity|].
  rewrite (proj2 (Reqb_false (- c) 0)) by lra. rewrite (proj2 (Reqb_false c 0)) by lra.
  replace ((k - 1) / - c) with (- ((k - 1) / c)) by (field; lra). rewrite tanh_odd. ring.
Qed.

Theorem C20_no_cutoff_is_identity : forall k, cut 0 k = k.
Proof. intros k. unfold cut. rewrite (proj2 (Reqb_true 0 0)) by lra. reflexivity. Qed.
Print Assumptions C20_no_cutoff_is_identity.

Theorem C20_within_cutoff : forall c k, c <> 0 -> Rabs (cut c k - 1) < Rabs c.
Proof.
  intros c k H. unfold cut. rewrite (proj2 (Reqb_false c 0)) by exact H. replace (1 + c * tanh ((k - 1) / c) - 1) with (c * tanh ((k - 1) / c)) by ring.
  rewrite Rabs_mult. pose proof (tanh_lt_1 ((k - 1) / c)) as T. assert (0 < Rabs c) by (apply Rabs_pos_lt; exact H).
  assert (Rabs (tanh ((k - 1) / c)) < 1) by (apply Rabs_def1; lra). nra.
Qed.
Print Assumptions C20_within_cutoff.

Theorem C20_increasing : forall c k k', k < k' -> cut c k < cut c k'.
Proof.
  assert (P : forall c k k', 0 < c -> k < k' -> cut c k < cut c k').
  { intros c k k' Hc Hk. unfold cut. rewrite (proj2 (Reqb_false c 0)) by lra.
    assert ((k - 1) / c < (k' - 1) / c) by (apply Rmult_lt_compat_r; [apply Rinv_0_lt_compat; exact Hc|lra]).
    pose proof (tanh_incr _ _ H). nra. }
  intros c k k' Hk. destruct (Rtotal_order c 0) as [Hc|[->|Hc]].
  - rewrite <- !(cut_even c). apply P; lra.
  - rewrite !C20_no_cutoff_is_identity. exact Hk.
  - apply P; assumption.
Qed.
Print Assumptions C20_increasing.

(** same sign of the deviation from 1, never larger than without regularization *)
Theorem C20_sign_and_size_of_deviation : forall c k, (1 < k -> 1 < cut c k <= k) /\ (k < 1 -> k <= cut c k < 1) /\ cut c 1 = 1.
Proof.
  assert (One : forall c, cut c 1 = 1).
  { intros c. unfold cut. destruct (Reqb c 0); [reflexivity|]. rewrite Rminus_diag_eq by reflexivity. unfold Rdiv. rewrite Rmult_0_l, tanh_0. ring. }
  assert (P : forall c k, 0 < c -> (1 < k -> cut c k <= k) /\ (k < 1 -> k <= cut c k)).
  { intros c k Hc. unfold cut. rewrite (proj2 (Reqb_false c 0)) by lra. pose proof (Rinv_0_lt_compat c Hc).
    split; intros Hk.
    - assert (T : tanh ((k - 1) / c) <= (k - 1) / c) by (apply tanh_le; unfold Rdiv; nra).
      apply (Rmult_le_compat_l c) in T; [|lra]. replace (c * ((k - 1) / c)) with (k - 1) in T by (field; lra). lra.
    - assert (T : tanh (- ((k - 1) / c)) <= - ((k - 1) / c)) by (apply tanh_le; unfold Rdiv; nra).
      rewrite tanh_odd in T. apply (Rmult_le_compat_l c) in T; [|lra]. replace (c * - ((k - 1) / c)) with (- (k - 1)) in T by (field; lra). lra. }
  assert (Q : forall c k, (1 < k -> cut c k <= k) /\ (k < 1 -> k <= cut c k)).
  { intros c k. destruct (Rtotal_order c 0) as [Hc|[->|Hc]].
    - rewrite <- !(cut_even c). apply P; lra.
    - rewrite C20_no_cutoff_is_identity. lra.
    - apply P; assumption. }
  intros c k. split; [|split; [|apply One]]; intros Hk; (split; [|]); try apply Q; auto.
  - pose proof (C20_increasing c 1 k Hk) as A. rewrite One in A. exact A.
  - pose proof (C20_increasing c k 1 Hk) as A. rewrite One in A. exact A.
Qed.
Print Assumptions C20_sign_and_size_of_deviation.

(** small deviations are unchanged to first order *)
Theorem C20_unit_slope_at_one : forall c, derivable_pt_lim (cut c) 1 1.
Proof.
  intros c. apply is_derive_Reals. destruct (Req_dec c 0) as [->|H].
  - apply (is_derive_ext (fun y => y)); [intros y; now rewrite C20_no_cutoff_is_identity|apply (is_derive_id (K := R_AbsRing))].
  - apply (is_derive_ext (fun k => 1 + c * tanh ((k - 1) / c))).
    { intros y. unfold cut. rewrite (proj2 (Reqb_false c 0)) by exact H. reflexivity. }
    pose proof (der_tanh ((1 - 1) / c)) as D. replace ((1 - 1) / c) with 0 in D by (field; exact H). rewrite cosh_0 in D.
    evar_last.
    + apply (is_derive_plus (fun _ => 1) (fun k => c * tanh ((k - 1) / c))); [apply (is_derive_const (K := R_AbsRing))|].
      apply is_derive_scal. apply (is_derive_comp tanh (fun k => (k - 1) / c)).
      * replace ((1 - 1) / c) with 0 by (field; exact H). exact D.
      * auto_derive; [exact I|reflexivity].
    + unfold plus, zero, scal. cbn. unfold mult. cbn. field. exact H.
Qed.
Print Assumptions C20_unit_slope_at_one.

(** the regularization applies to every sample and bin *)
Theorem C20_applies_to_every_bin : forall m I ns K, cut_k_exp m I ns = Ok K -> m_cutoff m <> 0 -> forall s b, Rabs (K s b - 1) < Rabs (m_cutoff m).
Proof. intros m I ns K H Hc s b. unfold cut_k_exp in H. apply bind_Ok in H as (k & _ & H). inversion H; subst. apply C20_within_cutoff. exact Hc. Qed.
Print Assumptions C20_applies_to_every_bin.
