(** The survival function of the normal distribution, and its inverse: they have the properties that the theorems on
    p-values assume.  The density is exp(-t^2/2)/Z with Z the integral of exp(-t^2/2) over the real line. *)
From Coquelicot Require Import Coquelicot.
From Verif Require Import Py PyFacts.
Local Open Scope R_scope.

(** What the theorems on asymptotic p-values use: a continuous strictly decreasing function with values in (0,1), and
    its inverse on (0,1). *)
Record survival (f finv : R -> R) : Prop := mkSurv {
  sv_range : forall x, 0 < f x < 1;
  sv_decr : forall x y, x < y -> f y < f x;
  sv_inv : forall p, 0 < p < 1 -> f (finv p) = p }.

Lemma survival_le f g x y : survival f g -> x <= y -> f y <= f x.
Proof. intros S [H|<-]; [left; now apply (sv_decr _ _ S)|right; reflexivity]. Qed.
Lemma survival_inj f g x y : survival f g -> f x = f y -> x = y.
Proof. intros S E. destruct (Rtotal_order x y) as [H|[H|H]]; [|exact H|]; apply (sv_decr _ _ S) in H; lra. Qed.
Lemma survival_inv_l f g x : survival f g -> g (f x) = x.
Proof. intros S. apply (survival_inj f g); [exact S|]. apply (sv_inv _ _ S), (sv_range _ _ S). Qed.

Definition gauss (t : R) : R := exp (- (t * t) / 2).
Lemma gauss_pos t : 0 < gauss t. Proof. apply exp_pos. Qed.
Lemma gauss_cont t : continuous gauss t.
Proof. apply (ex_derive_continuous gauss). unfold gauss. auto_derive. auto. Qed.
Lemma gauss_int a b : ex_RInt gauss a b.
Proof. apply (ex_RInt_continuous (V := R_CompleteNormedModule)). intros; apply gauss_cont. Qed.

Definition G (x : R) : R := RInt gauss 0 x.
Lemma G_der x : is_derive G x (gauss x).
Proof.
  apply (is_derive_RInt gauss G 0 x); [|apply gauss_cont].
  exists (mkposreal 1 Rlt_0_1). intros y _. apply (RInt_correct (V := R_CompleteNormedModule) gauss 0 y), gauss_int.
Qed.
Lemma G_0 : G 0 = 0. Proof. unfold G. apply (RInt_point (V := R_CompleteNormedModule)). Qed.
Lemma G_incr x y : x < y -> G x < G y.
Proof.
  intros H. destruct (MVT_gen G x y gauss) as (c & Hc & E).
  - intros z _. apply G_der.
  - intros z _. apply continuity_pt_filterlim, (ex_derive_continuous G). exists (gauss z). apply G_der.
  - pose proof (gauss_pos c). assert (0 < gauss c * (y - x)) by (apply Rmult_lt_0_compat; lra). lra.
Qed.
(** a function with a derivative of the same sign everywhere *)
Lemma G_odd x : G (- x) = - G x.
Proof.
  assert (H : forall t, is_derive (fun t => G (- t) + G t) t 0).
  { intros t. replace 0 with (- gauss (- t) + gauss t) by (unfold gauss; replace (- (- t * - t) / 2) with (- (t * t) / 2) by field; lra).
    apply (is_derive_plus (fun t => G (- t)) G t (- gauss (- t)) (gauss t)); [|apply G_der].
    replace (- gauss (- t)) with (scal (-1) (gauss (- t))) by (unfold scal; cbn; unfold mult; cbn; ring).
    apply (is_derive_comp G (fun t => - t)); [apply G_der|]. auto_derive; auto. }
  assert (E : (fun t => G (- t) + G t) x = (fun t => G (- t) + G t) 0).
  { destruct (MVT_gen (fun t => G (- t) + G t) 0 x (fun _ => 0)) as (c & _ & E).
    - intros; apply H.
    - intros z _. apply continuity_pt_filterlim, (ex_derive_continuous (fun t => G (- t) + G t)). exists 0. apply H.
    - lra. }
  cbv beta in E. rewrite Ropp_0, G_0 in E. lra.
Qed.
(** bounded: exp(-t^2/2) <= exp(1/2-t) *)
Lemma G_bound x : G x < exp (1/2).
Proof.
  destruct (Rle_lt_dec x 0) as [H|H].
  - assert (G x <= 0) by (destruct H as [H| ->]; [rewrite <- G_0; left; now apply G_incr|rewrite G_0; lra]). pose proof (exp_pos (1/2)). lra.
  - assert (A : forall t, is_derive (fun t => - exp (1/2 - t)) t (exp (1/2 - t))) by (intros t; auto_derive; [auto|]; match goal with |- context [exp ?u] => replace u with (1/2 - t) by field end; ring).
    assert (B : is_RInt (fun t => exp (1/2 - t)) 0 x (- exp (1/2 - x) - - exp (1/2 - 0))).
    { apply (is_RInt_derive (fun t => - exp (1/2 - t)) (fun t => exp (1/2 - t)) 0 x).
      - intros; apply A.
      - intros z _. apply (ex_derive_continuous (fun t => exp (1/2 - t))). auto_derive. auto. }
    assert (C : G x <= - exp (1/2 - x) - - exp (1/2 - 0)).
    { unfold G. apply (is_RInt_le gauss (fun t => exp (1/2 - t)) 0 x); [lra|apply (RInt_correct (V := R_CompleteNormedModule) gauss 0 x), gauss_int|exact B|].
      intros t _. unfold gauss. destruct (Req_dec (- (t * t) / 2) (1/2 - t)) as [->|Hn]; [right; reflexivity|]. left. apply exp_increasing. pose proof (Rle_0_sqr (t - 1)) as S. unfold Rsqr in S. nra. }
    rewrite Rminus_0_r in C. pose proof (exp_pos (1/2 - x)). lra.
Qed.

(** half of the integral over the real line *)
Lemma Z_exists : {l | is_lub (fun y => exists x, y = G x) l}.
Proof.
  apply completeness.
  - exists (exp (1/2)). intros y (x & ->). left. apply G_bound.
  - exists (G 0). eauto.
Qed.
Definition halfZ : R := proj1_sig Z_exists.
Lemma G_lt_halfZ x : G x < halfZ.
Proof.
  destruct (proj2_sig Z_exists) as [U _]. assert (G (x + 1) <= halfZ) by (apply U; eauto). assert (G x < G (x + 1)) by (apply G_incr; lra). lra.
Qed.
Lemma halfZ_approx e : 0 < e -> exists x, halfZ - e < G x.
Proof.
  intros He. destruct (proj2_sig Z_exists) as [_ L]. destruct (Classical_Prop.classic (exists x, halfZ - e < G x)) as [H|H]; [exact H|].
  exfalso. assert (halfZ <= halfZ - e); [|lra]. apply L. intros y (x & ->). apply Rnot_lt_le. intros H1. apply H. eauto.
Qed.
Lemma halfZ_pos : 0 < halfZ. Proof. pose proof (G_lt_halfZ 0). rewrite G_0 in H. exact H. Qed.

(** scipy.stats.norm.sf *)
Definition normal_sf (x : R) : R := 1 / 2 - G x / (2 * halfZ).
(** scipy.stats.norm.isf: the largest x with sf x >= p *)
Definition normal_isf (p : R) : R := real (Lub_Rbar (fun x => p <= normal_sf x)).

Lemma normal_decr x y : x < y -> normal_sf y < normal_sf x.
Proof.
  intros H. unfold normal_sf. apply G_incr in H. pose proof halfZ_pos.
  assert (G x / (2 * halfZ) < G y / (2 * halfZ)); [|lra]. apply Rmult_lt_compat_r; [|exact H]. apply Rinv_0_lt_compat. lra.
Qed.
Lemma normal_range x : 0 < normal_sf x < 1.
Proof.
  unfold normal_sf. pose proof halfZ_pos as Hz. pose proof (G_lt_halfZ x) as H1. pose proof (G_lt_halfZ (- x)) as H2. rewrite G_odd in H2.
  assert (Hi : 0 < / (2 * halfZ)) by (apply Rinv_0_lt_compat; lra).
  assert (A : G x / (2 * halfZ) < halfZ / (2 * halfZ)) by (apply Rmult_lt_compat_r; assumption).
  assert (B : - halfZ / (2 * halfZ) < G x / (2 * halfZ)) by (apply Rmult_lt_compat_r; lra).
  assert (E1 : halfZ / (2 * halfZ) = 1 / 2) by (field; lra). assert (E2 : - halfZ / (2 * halfZ) = - (1 / 2)) by (field; lra). lra.
Qed.
Lemma normal_sf_0 : normal_sf 0 = 1 / 2.
Proof. unfold normal_sf. rewrite G_0. unfold Rdiv at 2. rewrite Rmult_0_l. lra. Qed.
Lemma normal_sym x : normal_sf (- x) = 1 - normal_sf x.
Proof. unfold normal_sf. rewrite G_odd. pose proof halfZ_pos. field. lra. Qed.
Lemma normal_cont x : continuity_pt normal_sf x.
Proof.
  assert (K : forall c : R, continuity_pt (fun _ => c) x) by (intros c; apply continuity_pt_const; intros u v; reflexivity).
  apply (continuity_pt_minus (fun _ => 1 / 2) (fun x => G x * / (2 * halfZ))); [apply K|].
  apply (continuity_pt_mult G (fun _ => / (2 * halfZ))); [|apply K].
  apply continuity_pt_filterlim, (ex_derive_continuous G). exists (gauss x). apply G_der.
Qed.
Lemma normal_low e : 0 < e -> exists x, normal_sf x < e.
Proof.
  intros He. pose proof halfZ_pos as Hz. destruct (halfZ_approx (e * (2 * halfZ))) as (x & Hx); [apply Rmult_lt_0_compat; lra|]. exists x. unfold normal_sf.
  assert (Hi : 0 < / (2 * halfZ)) by (apply Rinv_0_lt_compat; lra).
  assert (A : (halfZ - e * (2 * halfZ)) / (2 * halfZ) < G x / (2 * halfZ)) by (apply Rmult_lt_compat_r; assumption).
  assert (E1 : (halfZ - e * (2 * halfZ)) / (2 * halfZ) = 1 / 2 - e) by (field; lra). lra.
Qed.
Lemma normal_onto p : 0 < p < 1 -> exists x, normal_sf x = p.
Proof.
  intros [H0 H1]. destruct (normal_low p H0) as (b & Hb). destruct (normal_low (1 - p)) as (a & Ha); [lra|].
  assert (Ha' : p < normal_sf (- a)) by (rewrite normal_sym; lra).
  assert (Hab : - a < b) by (apply Rnot_le_lt; intros [L|L]; [apply normal_decr in L; lra|subst b; lra]).
  destruct (IVT (fun x => p - normal_sf x) (- a) b) as (x & _ & Hx).
  - intros x. apply continuity_pt_minus; [apply continuity_pt_const; intros u v; reflexivity|apply normal_cont].
  - exact Hab.
  - lra.
  - lra.
  - exists x. cbv beta in Hx. lra.
Qed.
Lemma normal_isf_inv p : 0 < p < 1 -> normal_sf (normal_isf p) = p.
Proof.
  intros Hp. destruct (normal_onto p Hp) as (x & <-). unfold normal_isf. f_equal.
  rewrite (is_lub_Rbar_unique _ (Finite x)); [reflexivity|]. split.
  - intros y Hy. cbn. apply Rnot_lt_le. intros L. apply normal_decr in L. lra.
  - intros b Hb. apply (Hb x). lra.
Qed.
Theorem normal_survival : survival normal_sf normal_isf.
Proof. constructor; [apply normal_range|apply normal_decr|apply normal_isf_inv]. Qed.
