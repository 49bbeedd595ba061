(** Lemmas for NP profiling. *)
From Coquelicot Require Import Coquelicot.
From Verif Require Import Py PyFacts Deriv Base Expressions Norms Sample Channels Params ParamsFacts Core CoreFacts NllFacts NpMin NpMinSpec.
Local Open Scope R_scope.

Section D2.
Lemma d2at_val f g h g' h' : d2at f g h -> g = g' -> h = h' -> d2at f g' h'.
Proof. intros H <- <-. exact H. Qed.
Lemma d2at_ext f1 f2 g h : (forall t, f1 t = f2 t) -> d2at f1 g h -> d2at f2 g h.
Proof.
  intros E (f' & H1 & H2 & H3). exists f'. split; [|split; assumption]. eapply filter_imp; [|exact H1]. intros t Ht. cbn beta in *.
  eapply is_derive_ext; [|exact Ht]. exact E.
Qed.
Lemma d2at_const c : d2at (fun _ => c) 0 0.
Proof. exists (fun _ => 0). split; [|split; [reflexivity|apply der_const]]. apply filter_forall. intros; apply der_const. Qed.
Lemma d2at_lin c : d2at (fun t => t * c) c 0.
Proof.
  exists (fun _ => c). split; [|split; [reflexivity|apply der_const]]. apply filter_forall. intros t. apply (der_val _ _ (1 * c + t * 0)); [|ring].
  apply (der_mult (fun t => t) (fun _ => c)); [apply der_id|apply der_const].
Qed.
Lemma d2at_plus f1 f2 g1 g2 h1 h2 : d2at f1 g1 h1 -> d2at f2 g2 h2 -> d2at (fun t => f1 t + f2 t) (g1 + g2) (h1 + h2).
Proof.
  intros (a & A1 & A2 & A3) (b & B1 & B2 & B3). exists (fun t => a t + b t). split; [|split; [rewrite A2, B2; reflexivity|apply (der_plus a b); assumption]].
  eapply filter_imp; [|apply filter_and; [exact A1|exact B1]]. intros t [Ha Hb]. apply (der_plus f1 f2); assumption.
Qed.
Lemma d2at_scal c f g h : d2at f g h -> d2at (fun t => c * f t) (c * g) (c * h).
Proof.
  intros (a & A1 & A2 & A3). exists (fun t => c * a t). split; [|split; [rewrite A2; reflexivity|apply (der_scal c a); assumption]].
  eapply filter_imp; [|exact A1]. intros t Ha. apply (der_scal c f); assumption.
Qed.
Lemma d2at_minus f1 f2 g1 g2 h1 h2 : d2at f1 g1 h1 -> d2at f2 g2 h2 -> d2at (fun t => f1 t - f2 t) (g1 - g2) (h1 - h2).
Proof.
  intros A B. eapply d2at_val; [apply (d2at_ext (fun t => f1 t + (-1) * f2 t)); [intros; ring|]; apply (d2at_plus f1 (fun t => -1 * f2 t)); [exact A|apply d2at_scal; exact B]|ring|ring].
Qed.
Lemma d2at_mult f1 f2 g1 g2 h1 h2 : d2at f1 g1 h1 -> d2at f2 g2 h2 -> d2at (fun t => f1 t * f2 t) (g1 * f2 0 + f1 0 * g2) (h1 * f2 0 + 2 * g1 * g2 + f1 0 * h2).
Proof.
  intros (a & A1 & A2 & A3) (b & B1 & B2 & B3). exists (fun t => a t * f2 t + f1 t * b t). split; [|split].
  - eapply filter_imp; [|apply filter_and; [exact A1|exact B1]]. intros t [Ha Hb]. apply (der_mult f1 f2); assumption.
  - rewrite A2, B2. reflexivity.
  - apply locally_singleton in A1, B1. eapply der_val; [apply (der_plus (fun t => a t * f2 t) (fun t => f1 t * b t)); [apply (der_mult a f2)|apply (der_mult f1 b)]; eassumption|].
    rewrite A2, B2. ring.
Qed.
Lemma d2at_ln f g h : 0 < f 0 -> d2at f g h -> d2at (fun t => ln (f t)) (g / f 0) (h / f 0 - g * g / (f 0 * f 0)).
Proof.
  intros Hp (a & A1 & A2 & A3). exists (fun t => a t / f t). pose proof (locally_singleton _ _ A1) as A0. cbn beta in A0. split; [|split].
  - eapply filter_imp; [|apply filter_and; [exact A1|exact (der_locally_pos f 0 (a 0) A0 Hp)]]. intros t [Ha Hb]. apply (der_ln f); assumption.
  - rewrite A2. reflexivity.
  - eapply der_val; [apply (der_div a f); [exact A3|exact A0|lra]|]. rewrite A2. field. lra.
Qed.
Lemma d2at_exp f g h : d2at f g h -> d2at (fun t => exp (f t)) (exp (f 0) * g) (exp (f 0) * (h + g * g)).
Proof.
  intros (a & A1 & A2 & A3). exists (fun t => exp (f t) * a t). pose proof (locally_singleton _ _ A1) as A0. cbn beta in A0. split; [|split].
  - eapply filter_imp; [|exact A1]. intros t Ha. apply (der_exp f); assumption.
  - rewrite A2. reflexivity.
  - eapply der_val; [apply (der_mult (fun t => exp (f t)) a); [apply (der_exp f); exact A0|exact A3]|]. rewrite A2. ring.
Qed.
Lemma d2at_rsum n (f : nat -> R -> R) g h : (forall i, (i < n)%nat -> d2at (f i) (g i) (h i)) -> d2at (fun t => rsum n (fun i => f i t)) (rsum n g) (rsum n h).
Proof.
  induction n as [|n IH]; intros H; cbn [rsum]; [apply d2at_const|].
  apply (d2at_plus (fun t => rsum n (fun i => f i t)) (f n)); [apply IH; intros; apply H; lia|apply H; lia].
Qed.
End D2.

(** double sums *)
Lemma rsum2_scal n m c (f : nat -> nat -> R) : rsum n (fun i => rsum m (fun j => c * f i j)) = c * rsum n (fun i => rsum m (f i)).
Proof. rewrite <- rsum_scal. apply rsum_ext. intros. apply rsum_scal. Qed.
Lemma rsum_prod n m f g : rsum n f * rsum m g = rsum n (fun i => rsum m (fun j => f i * g j)).
Proof. rewrite <- rsum_scal_r. apply rsum_ext. intros i _. rewrite <- rsum_scal. reflexivity. Qed.

(** totals along a line: value, slope, curvature *)
Section Line.
Variables (loglin : bool) (S P : nat) (n : nat -> nat -> R) (imp : nat -> nat -> nat -> R) (th0 d : nat -> R).
Definition lin (s b : nat) : R := rsum P (fun a => imp s b a * d a).
Definition slope (b : nat) : R := rsum S (fun s => n s b * lin s b).
Definition curv (b : nat) : R := if loglin then rsum S (fun s => n s b * (lin s b * lin s b)) else 0.
Lemma tot_line b : d2at (fun t => approx_tot loglin S P n imp th0 (fun a => th0 a + t * d a) b) (slope b) (curv b).
Proof.
  apply (d2at_ext (fun t => rsum S (fun s => n s b * resp loglin (t * lin s b)))).
  { intros t. unfold approx_tot. apply rsum_ext. intros s Hs. do 2 f_equal. unfold lin. rewrite <- rsum_scal. apply rsum_ext. intros; ring. }
  unfold slope, curv. destruct loglin; cbn [resp].
  - apply d2at_rsum. intros s Hs. apply d2at_scal. eapply d2at_val; [apply (d2at_exp (fun t => t * lin s b)), d2at_lin| |]; rewrite Rmult_0_l, exp_0; ring.
  - eapply d2at_val; [apply (d2at_rsum _ _ (fun s => n s b * lin s b) (fun s => n s b * 0))| |].
    + intros s Hs. apply d2at_scal. eapply d2at_val; [apply (d2at_plus (fun _ => 1) (fun t => t * lin s b)); [apply d2at_const|apply d2at_lin]| |]; ring.
    + reflexivity.
    + apply rsum_eq0. intros; ring.
Qed.
Lemma tot_line0 b : approx_tot loglin S P n imp th0 (fun a => th0 a + 0 * d a) b = rsum S (fun s => n s b).
Proof.
  unfold approx_tot. apply rsum_ext. intros s Hs. replace (rsum P _) with 0; [destruct loglin; cbn; rewrite ?exp_0; ring|].
  symmetry. apply rsum_eq0. intros; ring.
Qed.
End Line.

Lemma resp0 l : resp l 0 = 1.
Proof. destruct l; cbn; rewrite ?exp_0; ring. Qed.

(** first and second derivatives of the likelihood along a line, in terms of slopes and curvatures of the totals *)
Lemma likelihood_line Np Ng P H c obs aux (T : R -> nat -> R) t0 sl cu th0 d :
  (forall b, T 0 b = t0 b) -> (forall b, d2at (fun t => T t b) (sl b) (cu b)) -> (forall b, (b < Np)%nat -> 0 < t0 b) -> sym_on Ng H ->
  d2at (fun t => likelihood Np Ng P H c obs aux (T t) (fun a => th0 a + t * d a))
    (rsum Np (fun b => (t0 b - obs b) / t0 b * sl b)
     + rsum Ng (fun i => rsum Ng (fun j => sl (Np + i)%nat * H i j * (t0 (Np + j)%nat - obs (Np + j)%nat)))
     + rsum P (fun a => c a * (th0 a - aux a) * d a))
    (rsum Np (fun b => obs b * (sl b / t0 b) * (sl b / t0 b) + (t0 b - obs b) / t0 b * cu b)
     + (rsum Ng (fun i => rsum Ng (fun j => sl (Np + i)%nat * H i j * sl (Np + j)%nat))
        + rsum Ng (fun i => rsum Ng (fun j => cu (Np + i)%nat * H i j * (t0 (Np + j)%nat - obs (Np + j)%nat))))
     + rsum P (fun a => c a * d a * d a)).
Proof.
  intros HT0 HT Hp Hs. unfold likelihood. apply (d2at_plus _ _ _ _ _ _).
  - apply (d2at_plus _ _ _ _ _ _).
    + apply d2at_rsum. intros b Hb. specialize (Hp b Hb). eapply d2at_val;
        [apply (d2at_minus (fun t => T t b) (fun t => obs b * ln (T t b))); [apply HT|apply d2at_scal, (d2at_ln (fun t => T t b)); [rewrite HT0; exact Hp|apply HT]]| |];
        rewrite HT0; field; lra.
    + set (D := fun i => t0 (Np + i)%nat - obs (Np + i)%nat).
      assert (E : forall i, d2at (fun t => T t (Np + i)%nat - obs (Np + i)%nat) (sl (Np + i)%nat) (cu (Np + i)%nat)).
      { intros i. eapply d2at_val; [apply (d2at_minus (fun t => T t (Np + i)%nat) (fun _ => obs (Np + i)%nat)); [apply HT|apply d2at_const]| |]; ring. }
      eapply d2at_val.
      * apply d2at_scal. apply d2at_rsum. intros i Hi. apply d2at_rsum. intros j Hj.
        apply (d2at_mult (fun t => (T t (Np + i)%nat - obs (Np + i)%nat) * H i j) (fun t => T t (Np + j)%nat - obs (Np + j)%nat)); [|apply E].
        apply (d2at_ext (fun t => H i j * (T t (Np + i)%nat - obs (Np + i)%nat))); [intros; ring|]. apply d2at_scal, E.
      * cbn beta. rewrite (rsum_ext Ng _ (fun i => rsum Ng (fun j => sl (Np + i)%nat * H i j * D j) + rsum Ng (fun j => sl (Np + j)%nat * H j i * D i))).
        -- rewrite rsum_plus. rewrite (rsum_swap Ng Ng (fun i j => sl (Np + j)%nat * H j i * D i)). unfold D. lra.
        -- intros i Hi. rewrite <- rsum_plus. apply rsum_ext. intros j Hj. rewrite !HT0. fold (D i) (D j). rewrite (Hs j i Hj Hi). ring.
      * cbn beta. rewrite (rsum_ext Ng _ (fun i => 2 * rsum Ng (fun j => sl (Np + i)%nat * H i j * sl (Np + j)%nat) + rsum Ng (fun j => cu (Np + i)%nat * H i j * D j)
           + rsum Ng (fun j => cu (Np + j)%nat * H j i * D i))).
        -- rewrite !rsum_plus, rsum_scal. rewrite (rsum_swap Ng Ng (fun i j => cu (Np + j)%nat * H j i * D i)). unfold D. lra.
        -- intros i Hi. rewrite <- rsum_scal. rewrite <- !rsum_plus. apply rsum_ext. intros j Hj. rewrite !HT0. fold (D i) (D j). rewrite (Hs j i Hj Hi). ring.
  - eapply d2at_val.
    + apply d2at_scal. apply d2at_rsum. intros a Ha. apply d2at_scal.
      apply (d2at_ext (fun t => (th0 a - aux a + t * d a) * (th0 a - aux a + t * d a))); [intros; ring|].
      assert (E : d2at (fun t => th0 a - aux a + t * d a) (0 + d a) (0 + 0)) by (apply (d2at_plus (fun _ => th0 a - aux a) (fun t => t * d a)); [apply d2at_const|apply d2at_lin]).
      apply (d2at_mult _ _ _ _ _ _ E E).
    + cbn beta. rewrite <- rsum_scal. apply rsum_ext. intros; field.
    + cbn beta. rewrite <- rsum_scal. apply rsum_ext. intros; field.
Qed.

(** contraction of the code's arrays with a direction *)
Lemma dot_lin P B (w : nat -> R) (r : nat -> nat -> R) d : rsum P (fun a => rsum B (fun b => w b * r b a) * d a) = rsum B (fun b => w b * rsum P (fun a => r b a * d a)).
Proof.
  rewrite (rsum_ext P _ (fun a => rsum B (fun b => w b * r b a * d a))) by (intros; rewrite rsum_scal_r; reflexivity).
  rewrite rsum_swap. apply rsum_ext. intros b Hb. rewrite <- rsum_scal. apply rsum_ext. intros; ring.
Qed.
Lemma dot_bil P B C (w : nat -> nat -> R) (r u : nat -> nat -> R) d e :
  rsum P (fun a => rsum P (fun c => d a * rsum B (fun b => rsum C (fun j => r b a * w b j * u j c)) * e c))
  = rsum B (fun b => rsum C (fun j => rsum P (fun a => r b a * d a) * w b j * rsum P (fun c => u j c * e c))).
Proof.
  transitivity (rsum P (fun a => rsum B (fun b => rsum C (fun j => rsum P (fun c => d a * (r b a * w b j * u j c) * e c))))).
  { apply rsum_ext. intros a Ha. transitivity (rsum P (fun c => rsum B (fun b => rsum C (fun j => d a * (r b a * w b j * u j c) * e c)))).
    - apply rsum_ext. intros c Hc. rewrite <- rsum_scal, <- rsum_scal_r. apply rsum_ext. intros b Hb. rewrite <- rsum_scal, <- rsum_scal_r. reflexivity.
    - rewrite rsum_swap. apply rsum_ext. intros b Hb. apply rsum_swap. }
  rewrite rsum_swap. apply rsum_ext. intros b Hb. rewrite rsum_swap. apply rsum_ext. intros j Hj.
  replace (rsum P (fun a => r b a * d a) * w b j * rsum P (fun c => u j c * e c)) with (w b j * (rsum P (fun a => r b a * d a) * rsum P (fun c => u j c * e c))) by ring.
  rewrite rsum_prod. rewrite <- rsum_scal. apply rsum_ext. intros a Ha. rewrite <- rsum_scal. apply rsum_ext. intros; ring.
Qed.
Lemma dot_diag P B (w : nat -> R) (r u : nat -> nat -> R) d e :
  rsum P (fun a => rsum P (fun c => d a * rsum B (fun b => w b * r b a * u b c) * e c))
  = rsum B (fun b => w b * rsum P (fun a => r b a * d a) * rsum P (fun c => u b c * e c)).
Proof.
  transitivity (rsum P (fun a => rsum P (fun c => d a * rsum B (fun b => rsum 1 (fun j => r b a * w b * u b c)) * e c))).
  { apply rsum_ext. intros a Ha. apply rsum_ext. intros c Hc. do 2 f_equal. apply rsum_ext. intros b Hb. cbn. ring. }
  transitivity (rsum P (fun a => rsum P (fun c => d a * rsum B (fun b => rsum B (fun j => r b a * (if (b =? j)%nat then w b else 0) * u j c)) * e c))).
  { apply rsum_ext. intros a Ha. apply rsum_ext. intros c Hc. do 2 f_equal. apply rsum_ext. intros b Hb. cbn. rewrite (rsum_single B b); [rewrite Nat.eqb_refl; ring|exact Hb|].
    intros j Hj Hne. destruct (Nat.eqb_spec b j); [congruence|ring]. }
  rewrite (dot_bil P B B (fun b j => if (b =? j)%nat then w b else 0)). apply rsum_ext. intros b Hb. rewrite (rsum_single B b); [rewrite Nat.eqb_refl; ring|exact Hb|].
  intros j Hj Hne. destruct (Nat.eqb_spec b j); [congruence|ring].
Qed.

Section PQ.
Variables (S P : nat) (n : nat -> nat -> R) (imp : nat -> nat -> nat -> R) (d : nat -> R).
Let t := fun b => rsum S (fun s => n s b).
Lemma ni_dot b : rsum P (fun a => rsum S (fun s => n s b * imp s b a) * d a) = slope S P n imp d b.
Proof. unfold slope, lin. apply (dot_lin P S (fun s => n s b) (fun s a => imp s b a) d). Qed.
Lemma ri_dot b : rsum P (fun a => rsum S (fun s => n s b / t b * imp s b a) * d a) = slope S P n imp d b / t b.
Proof.
  rewrite <- ni_dot. unfold Rdiv. rewrite <- rsum_scal_r. apply rsum_ext. intros a Ha. rewrite <- !rsum_scal_r. apply rsum_ext. intros; ring.
Qed.
Lemma pois_grad B obs : (forall b, (b < B)%nat -> t b <> 0) ->
  rsum P (fun a => rsum B (fun b => (t b - obs b) * rsum S (fun s => n s b / t b * imp s b a)) * d a) = rsum B (fun b => (t b - obs b) / t b * slope S P n imp d b).
Proof.
  intros H. rewrite dot_lin. apply rsum_ext. intros b Hb. rewrite ri_dot. field. apply H, Hb.
Qed.
Lemma pois_hess B obs : rsum P (fun a => rsum P (fun c => d a * rsum B (fun b => obs b * rsum S (fun s => n s b / t b * imp s b a) * rsum S (fun s => n s b / t b * imp s b c)) * d c))
  = rsum B (fun b => obs b * (slope S P n imp d b / t b) * (slope S P n imp d b / t b)).
Proof. rewrite (dot_diag P B obs). apply rsum_ext. intros b Hb. rewrite !ri_dot. reflexivity. Qed.
Lemma log_hess B (w : nat -> R) : rsum P (fun a => rsum P (fun c => d a * rsum S (fun s => rsum B (fun b => n s b * w b * imp s b a * imp s b c)) * d c))
  = rsum B (fun b => w b * curv true S P n imp d b).
Proof.
  transitivity (rsum P (fun a => rsum P (fun c => rsum S (fun s => d a * rsum B (fun b => n s b * w b * imp s b a * imp s b c) * d c)))).
  { apply rsum_ext. intros a Ha. apply rsum_ext. intros c Hc. rewrite <- rsum_scal, <- rsum_scal_r. reflexivity. }
  transitivity (rsum S (fun s => rsum P (fun a => rsum P (fun c => d a * rsum B (fun b => n s b * w b * imp s b a * imp s b c) * d c)))).
  { rewrite (rsum_ext P _ (fun a => rsum S (fun s => rsum P (fun c => d a * rsum B (fun b => n s b * w b * imp s b a * imp s b c) * d c)))); [apply rsum_swap|].
    intros a Ha. apply rsum_swap. }
  rewrite (rsum_ext S _ (fun s => rsum B (fun b => n s b * w b * lin P imp d s b * lin P imp d s b))); [|intros s Hs; apply (dot_diag P B (fun b => n s b * w b) (fun b => imp s b) (fun b => imp s b))].
  rewrite rsum_swap. apply rsum_ext. intros b Hb. unfold curv. rewrite <- rsum_scal. apply rsum_ext. intros; ring.
Qed.
Lemma gauss_grad B (H : mat) (D : nat -> R) :
  rsum P (fun a => rsum B (fun i => rsum B (fun j => rsum S (fun s => n s i * imp s i a) * H i j * D j)) * d a) = rsum B (fun i => rsum B (fun j => slope S P n imp d i * H i j * D j)).
Proof.
  transitivity (rsum P (fun a => rsum B (fun i => rsum B (fun j => H i j * D j) * rsum S (fun s => n s i * imp s i a)) * d a)).
  { apply rsum_ext. intros a Ha. f_equal. apply rsum_ext. intros i Hi. rewrite <- rsum_scal_r. apply rsum_ext. intros; ring. }
  rewrite dot_lin. apply rsum_ext. intros i Hi. rewrite ni_dot. rewrite <- rsum_scal_r. apply rsum_ext. intros; ring.
Qed.
Lemma gauss_hess B (H : mat) :
  rsum P (fun a => rsum P (fun c => d a * rsum B (fun i => rsum B (fun j => rsum S (fun s => n s i * imp s i a) * H i j * rsum S (fun s => n s j * imp s j c))) * d c))
  = rsum B (fun i => rsum B (fun j => slope S P n imp d i * H i j * slope S P n imp d j)).
Proof. rewrite dot_bil. apply rsum_ext. intros i Hi. apply rsum_ext. intros j Hj. rewrite !ni_dot. reflexivity. Qed.
End PQ.

Lemma existsb_seq_false B (f : nat -> bool) : existsb f (seq 0 B) = false -> forall b, (b < B)%nat -> f b = false.
Proof.
  intros H b Hb. destruct (f b) eqn:E; [|reflexivity]. rewrite <- H. symmetry. apply existsb_exists. exists b. split; [apply in_seq; lia|exact E].
Qed.

(** what pq_einsum computes, contracted with a direction *)
Lemma pq_contract m I data ps ns M q : pq_einsum m I data ps ns = Ok (M, q) ->
  exists n imp, n_exp m I ps ns = Ok n /\ linear_impacts m I ns = Ok imp /\
  let P := length (pm_nps (i_pm I)) in let S := i_nsamples I in let Np := i_nbins_p I in let Ng := i_nbins_g I in
  let obs := fun b => nth b (d_counts data) 0 in let t := fun b => rsum S (fun s => n s b) in
  (forall b, (b < Np)%nat -> t b <> 0 \/ P = 0%nat) /\ forall d,
  rsum P (fun a => q a * d a) =
    rsum Np (fun b => (t b - obs b) / t b * slope S P n imp d b)
    + rsum Ng (fun i => rsum Ng (fun j => slope S P n imp d (Np + i)%nat * i_poi_hess I i j * (t (Np + j)%nat - obs (Np + j)%nat)))
    + rsum P (fun a => nth a (i_cons I) 0 * (nth a ns 0 - nth a (d_aux data) 0) * d a) /\
  rsum P (fun a => rsum P (fun c => d a * M a c * d c)) =
    rsum Np (fun b => obs b * (slope S P n imp d b / t b) * (slope S P n imp d b / t b) + (t b - obs b) / t b * curv (m_lognormal m) S P n imp d b)
    + (rsum Ng (fun i => rsum Ng (fun j => slope S P n imp d (Np + i)%nat * i_poi_hess I i j * slope S P n imp d (Np + j)%nat))
       + 2 * rsum Ng (fun i => rsum Ng (fun j => curv (m_lognormal m) S P n imp d (Np + i)%nat * i_poi_hess I i j * (t (Np + j)%nat - obs (Np + j)%nat))))
    + rsum P (fun a => nth a (i_cons I) 0 * d a * d a).
Proof.
  unfold pq_einsum. set (P := length (pm_nps (i_pm I))). set (Np := i_nbins_p I). set (Ng := i_nbins_g I). set (S := i_nsamples I).
  set (obs := fun b => nth b (d_counts data) 0).
  intros H. apply bind_Ok in H as (n & Hn & H). apply bind_Ok in H as (imp & Hi & H). apply bind_Ok in H as (pqp & Hp & H).
  exists n, imp. split; [exact Hn|]. split; [exact Hi|]. cbn zeta. set (t := fun b => rsum S (fun s => n s b)).
  assert (Hcq : forall d, rsum P (fun a => rsum P (fun c => cons_hess I a c * (nth c ns 0 - nth c (d_aux data) 0)) * d a) = rsum P (fun a => nth a (i_cons I) 0 * (nth a ns 0 - nth a (d_aux data) 0) * d a)).
  { intros d. apply rsum_ext. intros a Ha. f_equal. rewrite (rsum_single P a); [unfold cons_hess; rewrite Nat.eqb_refl; reflexivity|exact Ha|].
    intros c Hc Hne. unfold cons_hess. destruct (Nat.eqb_spec a c); [congruence|ring]. }
  assert (Hcp : forall d, rsum P (fun a => rsum P (fun c => d a * cons_hess I a c * d c)) = rsum P (fun a => nth a (i_cons I) 0 * d a * d a)) by (intros d; apply (cons_qform I d)).
  assert (Hpp : (forall b, (b < Np)%nat -> t b <> 0 \/ P = 0%nat) /\ forall d,
    rsum P (fun a => snd pqp a * d a) = rsum Np (fun b => (t b - obs b) / t b * slope S P n imp d b) /\
    rsum P (fun a => rsum P (fun c => d a * fst pqp a c * d c)) = rsum Np (fun b => obs b * (slope S P n imp d b / t b) * (slope S P n imp d b / t b) + (t b - obs b) / t b * curv (m_lognormal m) S P n imp d b)).
  { destruct (Nat.ltb_spec 0 Np) as [H0|H0]; [|replace Np with 0%nat by lia; inversion Hp; subst; cbn [fst snd]; split; [intros; lia|]; intros d; cbn [rsum]; split;
       [apply rsum_eq0; intros; ring|apply rsum_eq0; intros; apply rsum_eq0; intros; ring]].
    unfold pq_poisson in Hp. destruct (negb (P =? 0)%nat && existsb _ _)%bool eqn:E; [discriminate|]. inversion Hp; subst pqp; clear Hp.
    assert (Hz : forall b, (b < Np)%nat -> t b <> 0 \/ P = 0%nat).
    { intros b Hb. destruct (Nat.eqb_spec P 0) as [->|Hne]; [right; reflexivity|left]. cbn [negb andb] in E. apply Reqb_false. apply (existsb_seq_false _ _ E b Hb). }
    split; [exact Hz|]. cbn [fst snd]. intros d. destruct (Nat.eq_dec P 0) as [EP|EP].
    - rewrite EP. cbn [rsum]. split; symmetry; apply rsum_eq0; intros b Hb; unfold slope, curv, lin; cbn [rsum].
      + rewrite (rsum_eq0 S) by (intros; ring). ring.
      + rewrite !(rsum_eq0 S) by (intros; ring). destruct (m_lognormal m); unfold Rdiv; ring.
    - assert (Hnz : forall b, (b < Np)%nat -> t b <> 0) by (intros b Hb; destruct (Hz b Hb); [assumption|lia]). split; [apply (pois_grad S P n imp d Np obs Hnz)|].
      destruct (m_lognormal m).
      + rewrite rsum_plus. refine (eq_trans _ (f_equal2 Rplus (pois_hess S P n imp d Np obs) (log_hess S P n imp d Np (fun b => (t b - obs b) / t b)))).
        rewrite <- rsum_plus. apply rsum_ext. intros a Ha. rewrite <- rsum_plus. apply rsum_ext. intros c Hc. rewrite Rmult_plus_distr_l, Rmult_plus_distr_r. f_equal.
        do 2 f_equal. apply rsum_ext. intros s Hs. apply rsum_ext. intros b Hb. fold (t b). field. apply Hnz, Hb.
      + rewrite (rsum_ext Np _ (fun b => obs b * (slope S P n imp d b / t b) * (slope S P n imp d b / t b))) by (intros; unfold curv; ring). apply (pois_hess S P n imp d Np obs). }
  destruct Hpp as (Hz & Hpp). split; [exact Hz|]. intros d. destruct (Hpp d) as (HQ & HM). clear Hpp.
  set (pqg := if (0 <? Ng)%nat then _ else _) in H.
  assert (Hg : rsum P (fun a => snd pqg a * d a) = rsum Ng (fun i => rsum Ng (fun j => slope S P n imp d (Np + i)%nat * i_poi_hess I i j * (t (Np + j)%nat - obs (Np + j)%nat))) /\
    rsum P (fun a => rsum P (fun c => d a * fst pqg a c * d c)) = rsum Ng (fun i => rsum Ng (fun j => slope S P n imp d (Np + i)%nat * i_poi_hess I i j * slope S P n imp d (Np + j)%nat))
       + 2 * rsum Ng (fun i => rsum Ng (fun j => curv (m_lognormal m) S P n imp d (Np + i)%nat * i_poi_hess I i j * (t (Np + j)%nat - obs (Np + j)%nat)))).
  { subst pqg. destruct (Nat.ltb_spec 0 Ng) as [H0|H0].
    2: { replace Ng with 0%nat by lia. cbn [fst snd rsum]. split; [apply rsum_eq0; intros; ring|]. rewrite Rmult_0_r, Rplus_0_r. apply rsum_eq0; intros; apply rsum_eq0; intros; ring. }
    unfold pq_gaussian. cbn [fst snd]. split.
    - apply (gauss_grad S P (fun s b => n s (Np + b)%nat) (fun s b => imp s (Np + b)%nat) d Ng (i_poi_hess I) (fun j => t (Np + j)%nat - obs (Np + j)%nat)).
    - pose proof (gauss_hess S P (fun s b => n s (Np + b)%nat) (fun s b => imp s (Np + b)%nat) d Ng (i_poi_hess I)) as GH.
      destruct (m_lognormal m).
      + pose proof (log_hess S P (fun s b => n s (Np + b)%nat) (fun s b => imp s (Np + b)%nat) d Ng (fun i => rsum Ng (fun j => i_poi_hess I i j * (t (Np + j)%nat - obs (Np + j)%nat)))) as LH.
        transitivity (rsum Ng (fun i => rsum Ng (fun j => slope S P n imp d (Np + i)%nat * i_poi_hess I i j * slope S P n imp d (Np + j)%nat))
          + 2 * rsum Ng (fun i => rsum Ng (fun j => i_poi_hess I i j * (t (Np + j)%nat - obs (Np + j)%nat)) * curv true S P n imp d (Np + i)%nat)).
        * transitivity (rsum P (fun a => rsum P (fun c => d a * rsum Ng (fun i => rsum Ng (fun j => rsum S (fun s => n s (Np + i)%nat * imp s (Np + i)%nat a) * i_poi_hess I i j * rsum S (fun s => n s (Np + j)%nat * imp s (Np + j)%nat c))) * d c)) + 2 * rsum P (fun a => rsum P (fun c => d a *
        rsum S (fun s => rsum Ng (fun b => n s (Np + b)%nat * rsum Ng (fun j => i_poi_hess I b j * (t (Np + j)%nat - obs (Np + j)%nat)) * imp s (Np + b)%nat a * imp s (Np + b)%nat c)) * d c))).
          -- rewrite <- rsum2_scal, <- rsum_plus. apply rsum_ext. intros a Ha. rewrite <- rsum_plus. apply rsum_ext. intros c Hc.
             rewrite Rmult_plus_distr_l, Rmult_plus_distr_r. f_equal. rewrite <- !Rmult_assoc, (Rmult_comm (d a) 2), !Rmult_assoc. f_equal. rewrite <- !Rmult_assoc. do 2 f_equal.
             apply rsum_ext. intros s Hs. apply rsum_ext. intros i Hi'. rewrite <- rsum_scal. rewrite <- !rsum_scal_r. apply rsum_ext. intros j Hj. unfold t, obs. cbn beta. ring.
          -- rewrite LH, GH. reflexivity.
        * f_equal. f_equal. apply rsum_ext. intros i Hi'. rewrite <- rsum_scal_r. apply rsum_ext. intros; ring.
      + rewrite (rsum_eq0 Ng (fun i => rsum Ng (fun j => curv false S P n imp d (Np + i)%nat * i_poi_hess I i j * (t (Np + j)%nat - obs (Np + j)%nat)))); [|intros; apply rsum_eq0; intros; unfold curv; ring].
        rewrite Rmult_0_r, Rplus_0_r. exact GH. }
  destruct Hg as (GQ & GM). injection H as <- <-. split.
  - refine (eq_trans _ (f_equal2 Rplus (f_equal2 Rplus HQ GQ) (Hcq d))). rewrite <- !rsum_plus. apply rsum_ext. intros; ring.
  - refine (eq_trans _ (f_equal2 Rplus (f_equal2 Rplus HM GM) (Hcp d))). rewrite <- !rsum_plus. apply rsum_ext. intros a Ha. rewrite <- !rsum_plus. apply rsum_ext. intros; ring.
Qed.

Lemma pq_sym m I data ps ns M q : pq_einsum m I data ps ns = Ok (M, q) -> sym_on (i_nbins_g I) (i_poi_hess I) -> forall a c, M a c = M c a.
Proof.
  intros H Hs a c. unfold pq_einsum in H. apply bind_Ok in H as (n & Hn & H). apply bind_Ok in H as (imp & Hi & H). apply bind_Ok in H as (pqp & Hp & H).
  injection H as <- <-. f_equal; [f_equal|].
  - destruct (0 <? i_nbins_p I)%nat; [|inversion Hp; reflexivity]. unfold pq_poisson in Hp. destruct (_ && _)%bool; [discriminate|]. inversion Hp; subst; clear Hp. cbn [fst].
    destruct (m_lognormal m); [f_equal|]; repeat (apply rsum_ext; intros); ring.
  - destruct (0 <? i_nbins_g I)%nat; [|reflexivity]. unfold pq_gaussian. cbn [fst].
    assert (E : forall (w1 w2 : nat -> R), rsum (i_nbins_g I) (fun i => rsum (i_nbins_g I) (fun j => w1 i * i_poi_hess I i j * w2 j)) = rsum (i_nbins_g I) (fun i => rsum (i_nbins_g I) (fun j => w2 i * i_poi_hess I i j * w1 j))).
    { intros. apply (qform_sym _ _ w1 w2 Hs). }
    destruct (m_lognormal m); [f_equal|]; [apply (E (fun i => rsum (i_nsamples I) (fun s => n s (i_nbins_p I + i)%nat * imp s (i_nbins_p I + i)%nat a)) (fun i => rsum (i_nsamples I) (fun s => n s (i_nbins_p I + i)%nat * imp s (i_nbins_p I + i)%nat c)))
     | |apply (E (fun i => rsum (i_nsamples I) (fun s => n s (i_nbins_p I + i)%nat * imp s (i_nbins_p I + i)%nat a)) (fun i => rsum (i_nsamples I) (fun s => n s (i_nbins_p I + i)%nat * imp s (i_nbins_p I + i)%nat c)))].
    f_equal. repeat (apply rsum_ext; intros); ring.
  - unfold cons_hess. rewrite (Nat.eqb_sym c a). destruct (Nat.eqb_spec a c); subst; reflexivity.
Qed.

(** a quadratic function around its stationary point *)
Lemma quad_diff P q M th0 (d : vec) : (forall a c, M a c = M c a) -> (forall a, (a < P)%nat -> rsum P (fun c => M a c * d c) = q a) ->
  forall th, quadratic P q M th0 th - quadratic P q M th0 (fun a => th0 a - d a) = 1 / 2 * qform P M (fun a => th a - th0 a + d a) (fun a => th a - th0 a + d a).
Proof.
  intros Hs Hd th. set (e := fun a => th a - th0 a + d a).
  assert (Q : forall w, rsum P (fun a => q a * w a) = qform P M w d).
  { intros w. unfold qform. apply rsum_ext. intros a Ha. rewrite <- (Hd a Ha), <- rsum_scal_r. apply rsum_ext. intros; ring. }
  assert (Sy : sym_on P M) by (intros i j _ _; apply Hs).
  unfold quadratic. rewrite !Q. set (w := fun a => th a - th0 a).
  change (qform P M w d + 1 / 2 * qform P M w w - (qform P M (fun a => th0 a - d a - th0 a) d + 1 / 2 * qform P M (fun a => th0 a - d a - th0 a) (fun a => th0 a - d a - th0 a)) = 1 / 2 * qform P M e e).
  assert (X1 : qform P M (fun a => th0 a - d a - th0 a) d = - qform P M d d).
  { unfold qform. rewrite <- rsum_opp. apply rsum_ext. intros. rewrite <- rsum_opp. apply rsum_ext. intros; ring. }
  assert (X2 : qform P M (fun a => th0 a - d a - th0 a) (fun a => th0 a - d a - th0 a) = qform P M d d).
  { unfold qform. apply rsum_ext. intros. apply rsum_ext. intros; ring. }
  rewrite X1, X2. assert (X3 : qform P M e e = qform P M w w + 2 * qform P M w d + qform P M d d).
  { unfold e. transitivity (qform P M (fun a => w a + d a) (fun a => w a - - d a)).
    - unfold qform. apply rsum_ext. intros. apply rsum_ext. intros. unfold w. ring.
    - rewrite qform_plus_l, !qform_minus_r. assert (N : forall u, qform P M u (fun i => - d i) = - qform P M u d).
      { intros u. unfold qform. rewrite <- rsum_opp. apply rsum_ext. intros. rewrite <- rsum_opp. apply rsum_ext. intros; ring. }
      rewrite !N, (qform_sym P M d w Sy). ring. }
  rewrite X3. lra.
Qed.
(** stationary points of convex quadratic functions are minima *)
Lemma quad_min P q M th0 (d : vec) : (forall a c, M a c = M c a) -> (forall e, 0 <= qform P M e e) -> (forall a, (a < P)%nat -> rsum P (fun c => M a c * d c) = q a) ->
  forall th, quadratic P q M th0 (fun a => th0 a - d a) <= quadratic P q M th0 th.
Proof. intros Hs Hp Hd th. pose proof (quad_diff P q M th0 d Hs Hd th) as E. specialize (Hp (fun a => th a - th0 a + d a)). lra. Qed.

Lemma upper_sym M : (forall a c, M a c = M c a) -> forall a c, upper M a c = M a c.
Proof. intros H a c. unfold upper. destruct (a <=? c)%nat; [reflexivity|apply H]. Qed.

(** the matrix is positive when there is no log-normal term *)
Lemma pq_psd m I data ps ns M q : pq_einsum m I data ps ns = Ok (M, q) -> m_lognormal m = false ->
  (forall b, (b < i_nbins_p I)%nat -> 0 <= nth b (d_counts data) 0) -> (forall p, 0 <= nth p (i_cons I) 0) -> (forall e, 0 <= qform (i_nbins_g I) (i_poi_hess I) e e) ->
  forall e, 0 <= qform (length (pm_nps (i_pm I))) M e e.
Proof.
  intros H Hl Ho Hc Hg e. destruct (pq_contract _ _ _ _ _ _ _ H) as (n & imp & _ & _ & _ & C). destruct (C e) as (_ & C2).
  assert (E0 : qform (length (pm_nps (i_pm I))) M e e = rsum (length (pm_nps (i_pm I))) (fun a => rsum (length (pm_nps (i_pm I))) (fun c => e a * M a c * e c))) by reflexivity.
  rewrite E0, C2, Hl.
  assert (A1 : forall b, (b < i_nbins_p I)%nat -> 0 <= nth b (d_counts data) 0 * (slope (i_nsamples I) (length (pm_nps (i_pm I))) n imp e b / rsum (i_nsamples I) (fun s => n s b)) * (slope (i_nsamples I) (length (pm_nps (i_pm I))) n imp e b / rsum (i_nsamples I) (fun s => n s b))).
  { intros b Hb. rewrite Rmult_assoc. apply Rmult_le_pos; [apply Ho, Hb|]. pose proof (Rle_0_sqr (slope (i_nsamples I) (length (pm_nps (i_pm I))) n imp e b / rsum (i_nsamples I) (fun s => n s b))). exact H0. }
  repeat apply Rplus_le_le_0_compat.
  - apply rsum_nonneg. intros b Hb. unfold curv. rewrite Rmult_0_r, Rplus_0_r. apply A1, Hb.
  - apply (Hg (fun i => slope (i_nsamples I) (length (pm_nps (i_pm I))) n imp e (i_nbins_p I + i)%nat)).
  - unfold curv. rewrite rsum_eq0; [lra|]. intros; apply rsum_eq0; intros; ring.
  - apply rsum_nonneg. intros a Ha. rewrite Rmult_assoc. apply Rmult_le_pos; [apply Hc|]. pose proof (Rle_0_sqr (e a)). exact H0.
Qed.

(** what a successful call of profile means *)
Lemma profile_inv sv m I data hypo dl mp : length (nps hypo) = length (pm_nps (i_pm I)) -> profile sv m I data (HPars hypo) = Ok (dl, mp) ->
  exists M q d, pq_einsum m I data (pois hypo) (nps hypo) = Ok (M, q) /\
   ((Rabs (det (length (pm_nps (i_pm I))) M) < (1 / 1000) ^ length (pm_nps (i_pm I)) /\ (forall i, d i = 0)) \/
    ((1 / 1000) ^ length (pm_nps (i_pm I)) <= Rabs (det (length (pm_nps (i_pm I))) M) /\ sv (length (pm_nps (i_pm I))) M q = Ok d)) /\
   pois mp = pois hypo /\ pois dl = pois hypo /\ length (nps mp) = length (pm_nps (i_pm I)) /\ length (nps dl) = length (pm_nps (i_pm I)) /\
   pmod mp = Some (i_pm I) /\ pmod dl = Some (i_pm I) /\
   (forall i, (i < length (pm_nps (i_pm I)))%nat -> nth i (nps mp) 0 = nth i (nps hypo) 0 - d i /\ nth i (nps dl) 0 = d i).
Proof.
  intros Hl H. unfold profile in H. apply bind_Ok in H as ((M, q) & Hpq & H). apply bind_Ok in H as (d & Hd & H).
  apply bind_Ok in H as (dl' & Hdl & H). apply bind_Ok in H as (mp' & Hmp & H). injection H as <- <-. exists M, q, d. split; [exact Hpq|].
  set (P := length (pm_nps (i_pm I))) in *.
  assert (G : forall f r, pars_init (PIList (pois hypo)) (NIArr (map f (seq 0 P))) (Some (i_pm I)) = Ok r ->
     pois r = pois hypo /\ length (nps r) = P /\ pmod r = Some (i_pm I) /\ forall i, (i < P)%nat -> nth i (nps r) 0 = f i).
  { intros f r Hr. unfold pars_init in Hr. cbn [bind] in Hr. destruct (length (pois hypo) =? length (pm_pois (i_pm I)))%nat; [|discriminate]. cbn [bind] in Hr.
    assert (E : match map f (seq 0 P) with [] => Ok (repeat 0 (length (pm_nps (i_pm I)))) | _ :: _ => Ok (map f (seq 0 P)) end = Ok (map f (seq 0 P))).
    { fold P. destruct P; reflexivity. }
    rewrite E in Hr. cbn [bind] in Hr. destruct (_ =? _)%nat; [|discriminate]. cbn [bind] in Hr. injection Hr as <-. cbn [pois nps pmod].
    repeat split; [rewrite map_length, seq_length; reflexivity|]. intros i Hi. rewrite (nth_map_lt _ _ _ 0%nat) by (rewrite seq_length; exact Hi). rewrite seq_nth by exact Hi. reflexivity. }
  destruct (G _ _ Hdl) as (A1 & A2 & A3 & A4). destruct (G _ _ Hmp) as (B1 & B2 & B3 & B4).
  split.
  - destruct (Rltb (Rabs (det P M)) ((1 / 1000) ^ P)) eqn:E; [left|right].
    + apply Rltb_true in E. split; [exact E|]. inversion Hd; subst. reflexivity.
    + apply Rltb_false in E. split; [exact E|exact Hd].
  - split; [exact B1|]. split; [exact A1|]. split; [exact B2|]. split; [exact A2|]. split; [exact B3|]. split; [exact A3|]. intros i Hi. split; [apply B4, Hi|apply A4, Hi].
Qed.

(** models with linear, symmetric NP effects *)
Definition plain_linear (m : Model) : Prop := m_asym m = false /\ m_linear m = true /\ m_cutoff m = 0 /\ m_lognormal m = false.
Lemma n_exp_linear m I ps ns0 n0 : plain_linear m -> (forall p, nth p ns0 0 = 0) -> n_exp m I ps ns0 = Ok n0 ->
  forall ns, exists n, n_exp m I ps ns = Ok n /\ forall s b, n s b = n0 s b * (1 + rsum (length (pm_nps (i_pm I))) (fun p => i_sym I s b p * nth p ns 0)).
Proof.
  intros (Ha & Hl & Hc & _) H0 H ns. unfold n_exp in *. apply bind_Ok in H as (rv & Hrv & H). apply bind_Ok in H as (rows & Hr & H). rewrite Hrv. cbn [bind]. rewrite Hr. cbn [bind].
  destruct (i_nsamples I =? 0)%nat; [discriminate|]. destruct (negb _); [discriminate|]. unfold cut_k_exp, k_exp in *. rewrite Ha, Hl in *. cbn [bind] in *. inversion H; subst n0; clear H.
  eexists. split; [reflexivity|]. intros s b. cbn beta. unfold cut. rewrite Hc. rewrite (proj2 (Reqb_true 0 0) eq_refl).
  rewrite (rsum_eq0 _ (fun p => i_sym I s b p * nth p ns0 0)) by (intros; rewrite H0; ring). ring.
Qed.

(** the likelihood of such a model is the likelihood of its expansion around zero NPs *)
Lemma nll_linear m I ps ns0 n0 data ref : plain_linear m -> (forall p, nth p ns0 0 = 0) -> n_exp m I ps ns0 = Ok n0 -> ref_yields m I = Ok ref ->
  forall ns, (forall b, (b < i_nbins_p I)%nat -> 0 < approx_tot false (i_nsamples I) (length (pm_nps (i_pm I))) n0 (i_sym I) (fun _ => 0) (fun p => nth p ns 0) b) ->
  nll m I ps ns data false None false = Ok (Fin (likelihood (i_nbins_p I) (i_nbins_g I) (length (pm_nps (i_pm I))) (i_poi_hess I) (fun p => nth p (i_cons I) 0)
    (fun b => nth b (d_counts data) 0) (fun p => nth p (d_aux data) 0)
    (approx_tot false (i_nsamples I) (length (pm_nps (i_pm I))) n0 (i_sym I) (fun _ => 0) (fun p => nth p ns 0)) (fun p => nth p ns 0))).
Proof.
  intros Hpl H0 H Href ns Hpos. destruct (n_exp_linear m I ps ns0 n0 Hpl H0 H ns) as (n & Hn & En).
  assert (Ht : tot_bin_exp m I ps ns None = Ok (fun b => rsum (i_nsamples I) (fun s => n s b))) by (unfold tot_bin_exp; rewrite Hn; reflexivity).
  assert (Et : forall b, rsum (i_nsamples I) (fun s => n s b) = approx_tot false (i_nsamples I) (length (pm_nps (i_pm I))) n0 (i_sym I) (fun _ => 0) (fun p => nth p ns 0) b).
  { intros b. unfold approx_tot. apply rsum_ext. intros s Hs. rewrite En. cbn [resp]. do 2 f_equal. apply rsum_ext. intros; ring. }
  rewrite (nll_noff m I ps ns data None false _ ref Ht Href) by (intros b Hb; rewrite Et; apply Hpos, Hb).
  do 2 f_equal. unfold likelihood, pois_sum, gauss_sum, cons_sum, qform. f_equal; [f_equal|].
  - apply rsum_ext. intros b Hb. rewrite !Et. reflexivity.
  - f_equal. apply rsum_ext. intros. apply rsum_ext. intros. rewrite !Et. reflexivity.
  - f_equal. apply rsum_ext. intros; ring.
Qed.
Lemma d2at_ext_loc f1 f2 g h : locally 0 (fun t => f1 t = f2 t) -> d2at f1 g h -> d2at f2 g h.
Proof.
  intros E (f' & H1 & H2 & H3). exists f'. split; [|split; assumption].
  apply locally_locally in E. eapply filter_imp; [|apply filter_and; [exact E|exact H1]]. intros t [Et Ht]. cbn beta in *. apply (is_derive_ext_loc f1); assumption.
Qed.
Lemma locally_all_lt N (Q : nat -> R -> Prop) : (forall b, (b < N)%nat -> locally 0 (Q b)) -> locally 0 (fun t => forall b, (b < N)%nat -> Q b t).
Proof.
  induction N as [|N IH]; intros H; [apply filter_forall; intros; lia|].
  eapply filter_imp; [|apply filter_and; [apply IH; intros b Hb; apply H; lia|apply (H N); lia]]. intros t [A B] b Hb. destruct (Nat.eq_dec b N) as [->|]; [exact B|apply A; lia].
Qed.

(** for likelihoods that are exactly quadratic: no Poisson bin, linear response *)
Lemma likelihood_quadratic Ng P H c obs aux S n imp th0 : sym_on Ng H ->
  forall q M, second_order P (fun th => likelihood 0 Ng P H c obs aux (approx_tot false S P n imp th0 th) th) th0 q M ->
  forall th, likelihood 0 Ng P H c obs aux (approx_tot false S P n imp th0 th) th
     = likelihood 0 Ng P H c obs aux (approx_tot false S P n imp th0 th0) th0 + quadratic P q M th0 th.
Proof.
  intros Hs q M H2 th. set (d := fun a => th a - th0 a). specialize (H2 d).
  pose proof (likelihood_line 0 Ng P H c obs aux (fun t => approx_tot false S P n imp th0 (fun a => th0 a + t * d a)) (fun b => rsum S (fun s => n s b)) (slope S P n imp d) (curv false S P n imp d) th0 d
     (fun b => tot_line0 false S P n imp th0 d b) (fun b => tot_line false S P n imp th0 d b) (fun b Hb => match Nat.nlt_0_r b Hb with end) Hs) as L.
  destruct H2 as (f1 & A1 & A2 & A3). destruct L as (f2 & B1 & B2 & B3). cbn beta in *.
  assert (EL : locally 0 (fun t => f2 t = f1 t)).
  { eapply filter_imp; [|apply filter_and; [exact A1|exact B1]]. intros t [Ha Hb]. exact (der_unique _ _ _ _ Hb Ha). }
  assert (Eg := locally_singleton _ _ EL). cbn beta in Eg. rewrite A2, B2 in Eg.
  assert (Eh : _) by exact (der_unique _ _ _ _ (der_ext_loc _ _ _ _ EL B3) A3). cbn [rsum] in Eg, Eh.
  unfold quadratic. fold d in Eg, Eh |- *.
  change (rsum P (fun a => q a * (th a - th0 a))) with (rsum P (fun a => q a * d a)).
  change (rsum P (fun a => rsum P (fun c0 => (th a - th0 a) * M a c0 * (th c0 - th0 c0)))) with (rsum P (fun a => rsum P (fun c0 => d a * M a c0 * d c0))).
  rewrite <- Eg, <- Eh. unfold likelihood. cbn [rsum Nat.add].
  assert (E1 : forall b, approx_tot false S P n imp th0 th b = rsum S (fun s => n s b) + slope S P n imp d b).
  { intros b. unfold approx_tot, slope, lin. cbn [resp]. rewrite <- rsum_plus. apply rsum_ext. intros s Hss. unfold d. ring. }
  assert (E0 : forall b, approx_tot false S P n imp th0 th0 b = rsum S (fun s => n s b)).
  { intros b. unfold approx_tot. apply rsum_ext. intros s Hss. cbn [resp]. rewrite (rsum_eq0 P) by (intros; ring). ring. }
  set (D := fun i => rsum S (fun s => n s i) - obs i). set (sl := slope S P n imp d) in *.
  assert (G1 : rsum Ng (fun i => rsum Ng (fun j => (approx_tot false S P n imp th0 th i - obs i) * H i j * (approx_tot false S P n imp th0 th j - obs j)))
     = qform Ng H D D + 2 * qform Ng H sl D + qform Ng H sl sl).
  { transitivity (qform Ng H (fun i => D i + sl i) (fun i => D i - - sl i)).
    - unfold qform. apply rsum_ext. intros. apply rsum_ext. intros. rewrite !E1. unfold D. fold sl. ring.
    - rewrite qform_plus_l, !qform_minus_r. assert (N : forall u, qform Ng H u (fun i => - sl i) = - qform Ng H u sl).
      { intros u. unfold qform. rewrite <- rsum_opp. apply rsum_ext. intros. rewrite <- rsum_opp. apply rsum_ext. intros; ring. }
      rewrite !N, (qform_sym Ng H D sl Hs). ring. }
  assert (G0 : rsum Ng (fun i => rsum Ng (fun j => (approx_tot false S P n imp th0 th0 i - obs i) * H i j * (approx_tot false S P n imp th0 th0 j - obs j))) = qform Ng H D D).
  { unfold qform. apply rsum_ext. intros. apply rsum_ext. intros. rewrite !E0. reflexivity. }
  rewrite G1, G0.
  assert (G2 : rsum P (fun a => c a * (th a - aux a) ^ 2) = rsum P (fun a => c a * (th0 a - aux a) ^ 2) + 2 * rsum P (fun a => c a * (th0 a - aux a) * d a) + rsum P (fun a => c a * d a * d a)).
  { rewrite <- rsum_scal, <- !rsum_plus. apply rsum_ext. intros a Ha. unfold d. ring. }
  rewrite G2. change (rsum Ng (fun i => rsum Ng (fun j => sl i * H i j * (rsum S (fun s => n s j) - obs j)))) with (qform Ng H sl D).
  change (rsum Ng (fun i => rsum Ng (fun j => sl i * H i j * sl j))) with (qform Ng H sl sl).
  unfold curv. rewrite (rsum_eq0 Ng (fun i => rsum Ng (fun j => 0 * H i j * _))) by (intros; apply rsum_eq0; intros; ring). lra.
Qed.
