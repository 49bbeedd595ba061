(** Derivative rules on R -> R functions, in the form used by the other files (from Coquelicot). *)
From Coquelicot Require Import Coquelicot.
From Verif Require Import Py PyFacts.

Definition der (f : R -> R) (x l : R) : Prop := is_derive f x l.

Lemma der_val f x a b : der f x a -> a = b -> der f x b.
Proof. intros H <-; exact H. Qed.
Lemma der_id x : der (fun y => y) x 1.
Proof. apply (is_derive_id (K := R_AbsRing)). Qed.
Lemma der_const c x : der (fun _ => c) x 0.
Proof. apply (is_derive_const (K := R_AbsRing) (V := R_NormedModule)). Qed.
Lemma der_plus f g x a b : der f x a -> der g x b -> der (fun y => f y + g y) x (a + b).
Proof. intros; apply (is_derive_plus (K := R_AbsRing) (V := R_NormedModule)); assumption. Qed.
Lemma der_minus f g x a b : der f x a -> der g x b -> der (fun y => f y - g y) x (a - b).
Proof. intros; apply (is_derive_minus (K := R_AbsRing) (V := R_NormedModule)); assumption. Qed.
Lemma der_opp f x a : der f x a -> der (fun y => - f y) x (- a).
Proof. intros; apply (is_derive_opp (K := R_AbsRing) (V := R_NormedModule)); assumption. Qed.
Lemma der_mult f g x a b : der f x a -> der g x b -> der (fun y => f y * g y) x (a * g x + f x * b).
Proof. intros Hf Hg; apply (is_derive_mult (K := R_AbsRing) f g x a b Hf Hg); intros; apply Rmult_comm. Qed.
Lemma der_scal c f x a : der f x a -> der (fun y => c * f y) x (c * a).
Proof. intros H. apply (is_derive_scal f x c a H). Qed.
Lemma der_div f g x a b : der f x a -> der g x b -> g x <> 0 -> der (fun y => f y / g y) x ((a * g x - f x * b) / (g x * g x)).
Proof. intros Hf Hg H. eapply der_val; [apply (is_derive_div f g x a b Hf Hg H)|]. field; exact H. Qed.
Lemma der_comp f g x a b : der f (g x) a -> der g x b -> der (fun y => f (g y)) x (b * a).
Proof. intros Hf Hg. apply (is_derive_comp f g x a b Hf Hg). Qed.
Lemma der_exp f x a : der f x a -> der (fun y => exp (f y)) x (exp (f x) * a).
Proof. intros H. eapply der_val; [apply (der_comp exp f x (exp (f x)) a); [apply is_derive_exp|exact H]|ring]. Qed.
Lemma der_ln f x a : 0 < f x -> der f x a -> der (fun y => ln (f y)) x (a / f x).
Proof. intros Hp H. eapply der_val; [apply (der_comp ln f x (/ f x) a); [apply is_derive_ln; exact Hp|exact H]|reflexivity]. Qed.
Lemma der_ext f g x a : (forall y, f y = g y) -> der f x a -> der g x a.
Proof. intros H. apply is_derive_ext; exact H. Qed.
Lemma der_ext_loc f g x a : locally x (fun y => f y = g y) -> der f x a -> der g x a.
Proof. intros H. apply is_derive_ext_loc; exact H. Qed.
Lemma der_unique f x a b : der f x a -> der f x b -> a = b.
Proof. intros Ha Hb. rewrite <- (is_derive_unique f x a Ha). apply is_derive_unique; exact Hb. Qed.
Lemma der_Derive f x a : der f x a -> Derive f x = a.
Proof. apply is_derive_unique. Qed.
Lemma der_rsum n (f : nat -> R -> R) x a : (forall i, (i < n)%nat -> der (f i) x (a i)) ->
  der (fun y => rsum n (fun i => f i y)) x (rsum n a).
Proof.
  induction n as [|n IH]; intros H; cbn [rsum]; [apply der_const|].
  apply der_plus; [apply IH; intros; apply H; lia|apply H; lia].
Qed.
Lemma der_lsum {A} (l : list A) (f : A -> R -> R) (g : A -> R) x : (forall k, In k l -> der (f k) x (g k)) ->
  der (fun y => lsum (map (fun k => f k y) l)) x (lsum (map g l)).
Proof.
  induction l as [|k l IH]; intros H; cbn [map lsum]; [apply der_const|].
  apply der_plus; [apply H; left; reflexivity|apply IH; intros; apply H; right; assumption].
Qed.
(** a differentiable function that does not vanish at x does not vanish nearby; same for positivity *)
Lemma der_continuous f x a : der f x a -> continuous f x.
Proof. intros H. apply (ex_derive_continuous f x). exists a; exact H. Qed.
Lemma der_locally_pos f x a : der f x a -> 0 < f x -> locally x (fun y => 0 < f y).
Proof.
  intros H Hp. apply der_continuous in H. apply H. exists (mkposreal _ Hp).
  intros y Hy. unfold ball in Hy; cbn in Hy; unfold AbsRing_ball, abs, minus, plus, opp in Hy; cbn in Hy.
  apply Rabs_def2 in Hy. lra.
Qed.
Lemma der_locally_nz f x a : der f x a -> f x <> 0 -> locally x (fun y => f y <> 0).
Proof.
  intros H Hn. destruct (Rtotal_order (f x) 0) as [Hl|[He|Hg]]; [|contradiction|].
  - apply (filter_imp (fun y => 0 < - f y)); [intros y Hy; lra|].
    apply (der_locally_pos (fun y => - f y) x (- a)); [apply der_opp; exact H|lra].
  - apply (filter_imp (fun y => 0 < f y)); [intros y Hy; lra|]. apply (der_locally_pos f x a H Hg).
Qed.
Lemma locally_forall_in {A} (l : list A) (P : A -> R -> Prop) x :
  (forall k, In k l -> locally x (P k)) -> locally x (fun y => forall k, In k l -> P k y).
Proof.
  induction l as [|k l IH]; intros H.
  - apply filter_forall; intros y k [].
  - apply (filter_imp (fun y => P k y /\ forall k0, In k0 l -> P k0 y)).
    + intros y [H1 H2] k0 [<-|Hk]; auto.
    + apply filter_and; [apply H; left; reflexivity|apply IH; intros; apply H; right; assumption].
Qed.
Lemma der_iff f x l : der f x l <-> is_derive f x l.
Proof. reflexivity. Qed.
Lemma der_ex f x l : der f x l -> ex_derive f x.
Proof. intros H; exists l; exact H. Qed.
Lemma ex_der f x : ex_derive f x -> der f x (Derive f x).
Proof. apply Derive_correct. Qed.
Global Opaque der.
