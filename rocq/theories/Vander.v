(** Polynomial interpolation through distinct non-zero points with no constant term (Newton form): the matrix
    p_i^(k+1) has a right inverse. *)
From Verif Require Import Py PyFacts Expressions Sample.
Local Open Scope list_scope.

Definition rinverse (n : nat) (m inv : mat) : Prop :=
  forall i j, (i < n)%nat -> (j < n)%nat -> rsum n (fun k => m i k * inv k j) = if Nat.eqb i j then 1 else 0.

(** what np.linalg.inv is assumed to do: return an inverse of every invertible matrix *)
Definition inv_ok (inv : nat -> mat -> res mat) : Prop :=
  forall n m, (exists m', rinverse n m m') -> exists m', inv n m = Ok m' /\ rinverse n m m'.

Section Newton.
Variable p : nat -> R.

Fixpoint wcoef (n : nat) : vec :=
  match n with
  | O => fun k => if Nat.eqb k 0 then 1 else 0
  | S n' => fun k => (match k with O => 0 | S k' => wcoef n' k' end) - p n' * wcoef n' k
  end.
Fixpoint wprod (n : nat) (x : R) : R := match n with O => x | S n' => wprod n' x * (x - p n') end.

Lemma wcoef_high n k : (n < k)%nat -> wcoef n k = 0.
Proof.
  revert k; induction n as [|n IH]; intros k H; cbn [wcoef].
  - destruct k; [lia|reflexivity].
  - destruct k; [lia|]. rewrite !IH by lia. ring.
Qed.

Lemma rsum_first n f : rsum (S n) f = f 0%nat + rsum n (fun i => f (S i)).
Proof. induction n as [|n IH]; cbn [rsum] in *; [ring|]. rewrite IH. ring. Qed.

Lemma wcoef_eval n x m : (n < m)%nat -> rsum m (fun k => wcoef n k * x ^ (k + 1)) = wprod n x.
Proof.
  revert m; induction n as [|n IH]; intros m Hm.
  - rewrite (rsum_single m 0); [|lia|intros i Hi Hn; cbn [wcoef]; destruct (Nat.eqb_spec i 0); [lia|ring]].
    cbn. ring.
  - cbn [wcoef wprod]. destruct m as [|m]; [lia|].
    rewrite (rsum_ext _ _ (fun k => (match k with O => 0 | S k' => wcoef n k' end) * x ^ (k + 1) + (- p n) * (wcoef n k * x ^ (k + 1)))).
    2:{ intros i Hi. destruct i; ring. }
    rewrite rsum_plus, rsum_scal, (IH (S m)) by lia.
    rewrite rsum_first, Rmult_0_l, Rplus_0_l.
    rewrite (rsum_ext _ _ (fun i => x * (wcoef n i * x ^ (i + 1)))) by (intros i Hi; cbn [Nat.add pow]; ring).
    rewrite rsum_scal, (IH m) by lia. ring.
Qed.

Lemma wprod_zero n i : (i < n)%nat -> wprod n (p i) = 0.
Proof.
  induction n as [|n IH]; intros H; [lia|]. cbn [wprod].
  destruct (Nat.eq_dec i n) as [->|Hn]; [ring|]. rewrite IH by lia. ring.
Qed.
Lemma wprod_nz n x : x <> 0 -> (forall i, (i < n)%nat -> x <> p i) -> wprod n x <> 0.
Proof.
  intros Hx; induction n as [|n IH]; intros H; cbn [wprod]; [exact Hx|].
  apply Rmult_integral_contrapositive_currified; [apply IH; intros; apply H; lia|].
  specialize (H n (Nat.lt_succ_diag_r n)). intros E; apply H; lra.
Qed.

Fixpoint newton (b : nat -> R) (n : nat) : vec :=
  match n with
  | O => fun _ => 0
  | S n' => let c := newton b n' in
            let a := (b n' - rsum n' (fun k => c k * p n' ^ (k + 1))) / wprod n' (p n') in
            fun k => c k + a * wcoef n' k
  end.
Lemma newton_high b n k : (n <= k)%nat -> newton b n k = 0.
Proof.
  induction n as [|n IH]; intros H; cbn [newton]; [reflexivity|]. rewrite IH, wcoef_high by lia. ring.
Qed.
Lemma rsum_extend n m f : (n <= m)%nat -> (forall i, (n <= i)%nat -> f i = 0) -> rsum m f = rsum n f.
Proof.
  intros H Hz. induction m as [|m IH]; [replace n with 0%nat by lia; reflexivity|].
  destruct (Nat.eq_dec n (S m)) as [->|Hn]; [reflexivity|]. cbn [rsum]. rewrite IH, Hz by lia. ring.
Qed.
Lemma newton_eval b n : (forall i, (i < n)%nat -> p i <> 0) -> (forall i j, (i < j)%nat -> (j < n)%nat -> p j <> p i) ->
  forall i, (i < n)%nat -> rsum n (fun k => newton b n k * p i ^ (k + 1)) = b i.
Proof.
  induction n as [|n IH]; intros Hnz Hd i Hi; [lia|].
  cbn [newton]. set (a := (_ - _) / _).
  rewrite (rsum_ext _ _ (fun k => newton b n k * p i ^ (k + 1) + a * (wcoef n k * p i ^ (k + 1)))) by (intros; ring).
  rewrite rsum_plus, rsum_scal, wcoef_eval by lia.
  rewrite (rsum_extend n (S n)); [|lia|intros k Hk; rewrite newton_high by lia; ring].
  destruct (Nat.eq_dec i n) as [->|Hn].
  - unfold a. field. apply wprod_nz; [apply Hnz; lia|]. intros j Hj. apply Hd; lia.
  - rewrite wprod_zero by lia. rewrite IH; [ring|intros; apply Hnz; lia|intros; apply Hd; lia|lia].
Qed.
End Newton.

Lemma vandermonde_invertible pos : NoDup pos -> (forall v, In v pos -> v <> 0) ->
  exists m', rinverse (length pos) (vandermonde pos) m'.
Proof.
  intros Hd Hz. set (p := fun i => nth i pos 0).
  exists (fun k j => newton p (fun i => if Nat.eqb i j then 1 else 0) (length pos) k).
  intros i j Hi Hj. unfold vandermonde.
  rewrite <- (newton_eval p (fun i => if Nat.eqb i j then 1 else 0) (length pos)) with (i := i); auto.
  - apply rsum_ext. intros k Hk. unfold p at 3. ring.
  - intros k Hk. apply Hz. apply nth_In; exact Hk.
  - intros a b Hab Hb E. unfold p in E. apply (NoDup_nth pos 0) in E; auto; lia.
Qed.

Lemma interpolate_ok inv pos imps : inv_ok inv -> NoDup pos -> (forall v, In v pos -> v <> 0) -> length imps = length pos ->
  exists c, interpolate_impact inv pos imps = Ok c /\
    forall i, (i < length pos)%nat -> rsum (length pos) (fun n => c n * nth i pos 0 ^ (n + 1)) = nth i imps 0.
Proof.
  intros Hinv Hd Hz Hl. destruct (Hinv _ _ (vandermonde_invertible pos Hd Hz)) as (m & Hm & Hr).
  unfold interpolate_impact. rewrite Hl, Nat.eqb_refl. cbn [negb]. rewrite Hm. cbn [bind].
  eexists; split; [reflexivity|]. intros i Hi.
  rewrite (rsum_ext _ _ (fun n => rsum (length pos) (fun k => nth k imps 0 * (vandermonde pos i n * m n k)))).
  2:{ intros n Hn. rewrite <- rsum_scal_r. apply rsum_ext. intros k Hk. unfold vandermonde. ring. }
  rewrite rsum_swap.
  rewrite (rsum_ext _ _ (fun k => nth k imps 0 * (if Nat.eqb i k then 1 else 0))).
  2:{ intros k Hk. rewrite rsum_scal. f_equal. apply Hr; assumption. }
  rewrite (rsum_single _ i); [|exact Hi|intros k Hk Hne; destruct (Nat.eqb_spec i k); [congruence|ring]].
  rewrite Nat.eqb_refl. ring.
Qed.
