(** Sorting of real numbers (Python sorted / ndarray.sort). *)
From Coq Require Export Permutation Sorted.
From Verif Require Import Py PyFacts.

Fixpoint rinsert (x : R) (l : list R) : list R :=
  match l with
  | [] => [x]
  | y :: l' => if Rleb x y then x :: y :: l' else y :: rinsert x l'
  end.
Fixpoint rsort (l : list R) : list R :=
  match l with [] => [] | x :: l' => rinsert x (rsort l') end.

Lemma rinsert_perm x l : Permutation (rinsert x l) (x :: l).
Proof.
  induction l as [|y l IH]; cbn [rinsert]; [apply Permutation_refl|].
  destruct (Rleb x y); [apply Permutation_refl|].
  eapply Permutation_trans; [apply perm_skip; exact IH|apply perm_swap].
Qed.
Lemma rsort_perm l : Permutation (rsort l) l.
Proof.
  induction l as [|x l IH]; cbn [rsort]; [apply Permutation_refl|].
  eapply Permutation_trans; [apply rinsert_perm|apply perm_skip; exact IH].
Qed.
Lemma rinsert_sorted x l : StronglySorted Rle l -> StronglySorted Rle (rinsert x l).
Proof.
  induction l as [|y l IH]; cbn [rinsert]; intros H; [repeat constructor|].
  inversion H as [|a b H1 H2]; subst.
  destruct (Rleb x y) eqn:E.
  - apply Rleb_true in E. constructor; [exact H|]. constructor; [exact E|].
    eapply Forall_impl; [|exact H2]. cbn; intros; lra.
  - apply Rleb_false in E. constructor; [apply IH; exact H1|].
    apply Forall_forall. intros z Hz. apply (Permutation_in _ (rinsert_perm x l)) in Hz.
    destruct Hz as [<-|Hz]; [lra|]. rewrite Forall_forall in H2. apply H2; exact Hz.
Qed.
Lemma rsort_sorted l : StronglySorted Rle (rsort l).
Proof. induction l as [|x l IH]; cbn [rsort]; [constructor|apply rinsert_sorted; exact IH]. Qed.
Lemma rsort_in x l : In x (rsort l) <-> In x l.
Proof. split; apply Permutation_in; [|apply Permutation_sym]; apply rsort_perm. Qed.
Lemma rsort_length l : length (rsort l) = length l.
Proof. apply Permutation_length, rsort_perm. Qed.
Lemma sorted_perm_eq l m : StronglySorted Rle l -> StronglySorted Rle m -> Permutation l m -> l = m.
Proof.
  revert m; induction l as [|x l IH]; intros m Hl Hm Hp.
  - apply Permutation_nil in Hp; subst; reflexivity.
  - destruct m as [|y m]; [apply Permutation_sym, Permutation_nil in Hp; discriminate|].
    inversion Hl as [|a b L1 L2]; inversion Hm as [|c d M1 M2]; subst.
    assert (x = y).
    { rewrite Forall_forall in L2, M2.
      assert (Hx : In x (y :: m)) by (eapply Permutation_in; [exact Hp|left; reflexivity]).
      assert (Hy : In y (x :: l)) by (eapply Permutation_in; [apply Permutation_sym; exact Hp|left; reflexivity]).
      destruct Hx as [Hx|Hx]; [auto|]. destruct Hy as [Hy|Hy]; [auto|]. apply M2 in Hx. apply L2 in Hy. lra. }
    subst. f_equal. apply IH; auto. eapply Permutation_cons_inv; exact Hp.
Qed.
Lemma rsort_unique l m : Permutation l m -> rsort l = rsort m.
Proof.
  intros H. apply sorted_perm_eq; try apply rsort_sorted.
  eapply Permutation_trans; [apply rsort_perm|]. eapply Permutation_trans; [exact H|]. apply Permutation_sym, rsort_perm.
Qed.
Lemma rsort_id l : StronglySorted Rle l -> rsort l = l.
Proof. intros H. apply sorted_perm_eq; [apply rsort_sorted|exact H|apply rsort_perm]. Qed.
Lemma sorted_nth l i j d : StronglySorted Rle l -> (i <= j)%nat -> (j < length l)%nat -> nth i l d <= nth j l d.
Proof.
  revert i j; induction l as [|x l IH]; cbn [length]; intros i j H Hij Hj; [lia|].
  inversion H as [|a b H1 H2]; subst. destruct i as [|i], j as [|j]; cbn [nth]; try lra; try lia.
  - rewrite Forall_forall in H2. apply H2. apply nth_In. lia.
  - apply IH; auto; lia.
Qed.
