(** Facts about the model of sampling.py. *)
From Coq Require Import Sorted Permutation.
From Verif Require Import Py PyFacts RSort Sampling.
Local Open Scope string_scope.
Local Open Scope list_scope.
Local Open Scope R_scope.

(** number of elements of a list that satisfy a test *)
Definition count {A} (P : A -> bool) (l : list A) : nat := length (filter P l).

Lemma count_le {A} (P : A -> bool) l : (count P l <= length l)%nat.
Proof. unfold count. induction l as [|a l IH]; cbn; [lia|]. destruct (P a); cbn; lia. Qed.
Lemma count_mono {A} (P Q : A -> bool) l : (forall a, P a = true -> Q a = true) -> (count P l <= count Q l)%nat.
Proof. intros H. unfold count. induction l as [|a l IH]; cbn; [lia|]. specialize (H a). destruct (P a); destruct (Q a); cbn; try lia. all: now specialize (H eq_refl). Qed.
Lemma count_perm {A} (P : A -> bool) l m : Permutation l m -> count P l = count P m.
Proof.
  intros H. unfold count. induction H; cbn; auto; try lia.
  - destruct (P x); cbn; lia.
  - destruct (P x), (P y); reflexivity.
Qed.
Lemma count_split {A} (P Q S : A -> bool) l : (forall a, P a = orb (Q a) (S a)) -> (forall a, Q a = true -> S a = false) -> count P l = (count Q l + count S l)%nat.
Proof.
  intros H1 H2. unfold count. induction l as [|a l IH]; cbn; [reflexivity|]. rewrite H1. specialize (H2 a). destruct (Q a), (S a); cbn; try lia; now specialize (H2 eq_refl).
Qed.

(** the binary search finds the boundary of a test that is first true and then false *)
Lemma bsearch_boundary below a k : forall fuel lo hi,
  (forall i, (i < k)%nat -> below (nth i a 0) = true) -> (forall i, (k <= i < length a)%nat -> below (nth i a 0) = false) ->
  (lo <= k <= hi)%nat -> (hi <= length a)%nat -> (hi - lo <= fuel)%nat -> bsearch fuel lo hi below a = k.
Proof.
  induction fuel as [|fuel IH]; intros lo hi H1 H2 H3 H4 H5; cbn [bsearch]; [lia|].
  destruct (lo <? hi)%nat eqn:E; [apply Nat.ltb_lt in E|apply Nat.ltb_ge in E; lia].
  assert (M : (lo <= lo + (hi - lo) / 2 < hi)%nat).
  { split; [lia|]. assert ((hi - lo) / 2 < hi - lo)%nat by (apply Nat.div_lt; lia). lia. }
  set (mid := (lo + (hi - lo) / 2)%nat) in *. cbv zeta. destruct (below (nth mid a 0)) eqn:B.
  - apply IH; auto; try lia. split; [|lia]. destruct (Nat.le_gt_cases (S mid) k); [assumption|]. rewrite H2 in B by lia. discriminate.
  - apply IH; auto; try lia. split; [lia|]. destruct (Nat.le_gt_cases k mid); [assumption|]. rewrite H1 in B by lia. discriminate.
Qed.
(** in a sorted list, a test that is closed downwards is true on a prefix of length its count *)
Lemma sorted_count_prefix P l : StronglySorted Rle l -> (forall x y, x <= y -> P y = true -> P x = true) ->
  (forall i, (i < count P l)%nat -> P (nth i l 0) = true) /\ (forall i, (count P l <= i < length l)%nat -> P (nth i l 0) = false).
Proof.
  intros S D. induction S as [|a l SS IH F]; cbn [length].
  - unfold count; cbn. split; intros; lia.
  - assert (Z : P a = false -> count P l = 0%nat).
    { intros E. unfold count. rewrite (proj2 (length_zero_iff_nil _)); [reflexivity|]. clear IH SS. induction l as [|b l IHl]; [reflexivity|]. inversion F; subst. cbn. destruct (P b) eqn:Eb; [|auto]. rewrite (D a b) in E by assumption. discriminate. }
    assert (C : count P (a :: l) = if P a then S (count P l) else count P l) by (unfold count; cbn; destruct (P a); reflexivity).
    destruct IH as [I1 I2]. rewrite C. destruct (P a) eqn:E.
    + split; intros [|i] Hi; cbn; auto; try lia; [apply I1|apply I2]; lia.
    + rewrite (Z eq_refl) in *. split; intros i Hi; [lia|]. destruct i as [|i]; cbn; [exact E|apply I2; lia].
Qed.
Lemma search_left_sorted s x : StronglySorted Rle s -> search_left s x = count (fun y => Rltb y x) s.
Proof.
  intros S. destruct (sorted_count_prefix (fun y => Rltb y x) s S) as [A B].
  { intros y z Hyz H. apply Rltb_true in H. apply Rltb_true. lra. }
  unfold search_left. apply bsearch_boundary; auto; [|lia]. split; [lia|apply count_le].
Qed.
Lemma search_right_sorted s x : StronglySorted Rle s -> search_right s x = count (fun y => Rleb y x) s.
Proof.
  intros S. destruct (sorted_count_prefix (fun y => Rleb y x) s S) as [A B].
  { intros y z Hyz H. apply Rleb_true in H. apply Rleb_true. lra. }
  unfold search_right. apply bsearch_boundary; auto; [|lia]. split; [lia|apply count_le].
Qed.
Lemma bsearch_range below a : forall fuel lo hi, (lo <= hi)%nat -> (lo <= bsearch fuel lo hi below a <= hi)%nat.
Proof.
  induction fuel as [|fuel IH]; intros lo hi H; cbn [bsearch]; [lia|]. destruct (lo <? hi)%nat eqn:E; [apply Nat.ltb_lt in E|lia].
  assert ((hi - lo) / 2 < hi - lo)%nat by (apply Nat.div_lt; lia). cbv zeta. destruct (below _).
  - specialize (IH (S (lo + (hi - lo) / 2)) hi). lia.
  - specialize (IH lo (lo + (hi - lo) / 2)%nat). lia.
Qed.
Lemma count_le_split s x : count (fun y => Rleb y x) s = (count (fun y => Rltb y x) s + count (fun y => Reqb y x) s)%nat.
Proof.
  apply count_split.
  - intros a. destruct (Rleb a x) eqn:E.
    + apply Rleb_true in E. symmetry. apply orb_true_iff. destruct E as [E| ->]; [left; now apply Rltb_true|right; now apply Reqb_true].
    + apply Rleb_false in E. symmetry. apply orb_false_iff. split; [apply Rltb_false; lra|apply Reqb_false; lra].
  - intros a H. apply Rltb_true in H. apply Reqb_false. lra.
Qed.

(** [sd_nbelow] on a sorted array *)
Lemma nbelow_sorted s x : StronglySorted Rle s -> sd_nbelow s x = INR (count (fun y => Rltb y x) s) + INR (count (fun y => Reqb y x) s) / 2.
Proof.
  intros S. unfold sd_nbelow. rewrite search_left_sorted, search_right_sorted, count_le_split, plus_INR by assumption. lra.
Qed.
Lemma nbelow_range s x : 0 <= sd_nbelow s x <= INR (length s).
Proof.
  unfold sd_nbelow, search_left, search_right.
  pose proof (bsearch_range (fun y => Rltb y x) s (length s) 0 (length s) (Nat.le_0_l _)) as [_ A]. pose proof (bsearch_range (fun y => Rleb y x) s (length s) 0 (length s) (Nat.le_0_l _)) as [_ B].
  apply le_INR in A, B. pose proof (pos_INR (bsearch (length s) 0 (length s) (fun y => Rltb y x) s)). pose proof (pos_INR (bsearch (length s) 0 (length s) (fun y => Rleb y x) s)). lra.
Qed.

(** int() *)
Lemma int_of_spec x : 0 <= x -> INR (int_of x) <= x < INR (int_of x) + 1.
Proof.
  intros H. unfold int_of. destruct (base_Int_part x) as [A B].
  assert (P : (0 <= Int_part x)%Z). { apply le_IZR. assert (-1 < IZR (Int_part x)) by lra. apply (lt_IZR (-1)) in H0. apply IZR_le. lia. }
  rewrite INR_IZR_INZ, Z2Nat.id by exact P. lra.
Qed.
Lemma int_of_mono x y : 0 <= x -> x <= y -> (int_of x <= int_of y)%nat.
Proof.
  intros H1 H2. pose proof (int_of_spec x H1). pose proof (int_of_spec y ltac:(lra)). assert (INR (int_of x) < INR (int_of y + 1)) by (rewrite plus_INR; cbn; lra). apply INR_lt in H3. lia.
Qed.
Lemma int_of_lt x n : 0 <= x -> x < INR n -> (int_of x < n)%nat.
Proof. intros H1 H2. pose proof (int_of_spec x H1). apply INR_lt. lra. Qed.
