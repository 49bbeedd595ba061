(** The value of the likelihood when it is finite. *)
From Verif Require Import Py PyFacts Base Expressions Norms Sample Channels Params Core CoreFacts.
Local Open Scope string_scope.
Local Open Scope list_scope.

Lemma esum_fin n f g : (forall i, (i < n)%nat -> f i = Fin (g i)) -> esum n f = Fin (rsum n g).
Proof.
  induction n as [|n IH]; intros H; cbn [esum rsum]; [reflexivity|]. rewrite IH by (intros; apply H; lia). rewrite (H n) by lia. reflexivity.
Qed.
Lemma eadd_fin a b x : eadd a b = Fin x -> exists y z, a = Fin y /\ b = Fin z /\ x = y + z.
Proof. destruct a, b; cbn; intros H; inversion H; eauto. Qed.
Lemma esum_fin_inv n f x : esum n f = Fin x -> forall i, (i < n)%nat -> exists y, f i = Fin y.
Proof.
  revert x; induction n as [|n IH]; intros x H i Hi; [lia|]. cbn [esum] in H. apply eadd_fin in H as (y & z & H1 & H2 & _).
  destruct (Nat.eq_dec i n) as [->|]; [eauto|]. apply (IH y H1). lia.
Qed.
Lemma esum_ext n f g : (forall i, (i < n)%nat -> f i = g i) -> esum n f = esum n g.
Proof. induction n as [|n IH]; intros H; cbn; [reflexivity|]. rewrite IH by (intros; apply H; lia). rewrite (H n) by lia. reflexivity. Qed.
(** a sum of values that are finite or +infinity or NaN: the sum is such a value, and finite only if all are *)
Definition up (a : ext) : Prop := match a with MInf => False | _ => True end.
Lemma esum_up n f : (forall i, (i < n)%nat -> up (f i)) -> up (esum n f).
Proof.
  induction n as [|n IH]; intros H; cbn; [exact I|]. assert (A := IH (fun i Hi => H i (Nat.lt_lt_succ_r _ _ Hi))). assert (B := H n (Nat.lt_succ_diag_r n)).
  destruct (esum n f), (f n); cbn in *; tauto.
Qed.
Lemma elog_pos x : 0 < x -> elog x = Fin (ln x).
Proof. intros H. unfold elog. rewrite (proj2 (Rltb_true 0 x)) by exact H. reflexivity. Qed.
Lemma ediv_nz a b : b <> 0 -> ediv a b = Fin (a / b).
Proof. intros H. unfold ediv. rewrite (proj2 (Reqb_false b 0)) by exact H. reflexivity. Qed.

(** a Poisson term that is finite has a positive expected yield *)
Lemma pois_term_pos t n x : eadd (Fin t) (emulr (- n) (elog t)) = Fin x -> 0 < t.
Proof.
  intros H. apply eadd_fin in H as (y & z & _ & H & _). unfold elog in H. destruct (Rltb 0 t) eqn:E; [apply Rltb_true; exact E|].
  destruct (Rltb t 0); cbn in H; [discriminate|]. destruct (Rltb 0 (- n)), (Rltb (- n) 0); discriminate.
Qed.
Lemma pois_term_fin t n : 0 < t -> eadd (Fin t) (emulr (- n) (elog t)) = Fin (t - n * ln t).
Proof. intros H. rewrite (elog_pos t H). cbn. f_equal. ring. Qed.
Lemma ln_div a b : 0 < a -> 0 < b -> ln (a / b) = ln a - ln b.
Proof. intros Ha Hb. unfold Rdiv. rewrite ln_mult by (try apply Rinv_0_lt_compat; assumption). rewrite ln_Rinv by exact Hb. ring. Qed.
Lemma pois_term_off t r n : 0 < t -> 0 < r -> eadd (Fin (t - r)) (emulr (- n) (eloge (ediv t r))) = Fin (t - n * ln t - (r - n * ln r)).
Proof.
  intros Ht Hr. rewrite ediv_nz by lra. cbn [eloge]. rewrite elog_pos by (apply Rdiv_lt_0_compat; assumption). cbn. f_equal. rewrite ln_div by assumption. ring.
Qed.
Lemma div_neg t r : 0 < r -> t < 0 -> t / r < 0.
Proof. intros Hr Ht. unfold Rdiv. pose proof (Rinv_0_lt_compat r Hr). nra. Qed.
Lemma pois_term_off_pos t r n x : 0 < r -> eadd (Fin (t - r)) (emulr (- n) (eloge (ediv t r))) = Fin x -> 0 < t.
Proof.
  intros Hr H. apply eadd_fin in H as (y & z & _ & H & _). rewrite ediv_nz in H by lra. cbn [eloge] in H. unfold elog in H.
  destruct (Rlt_dec 0 t) as [|Hn]; [assumption|exfalso].
  destruct (Req_dec t 0) as [->|Hz].
  - unfold Rdiv in H. rewrite Rmult_0_l in H. rewrite (proj2 (Rltb_false 0 0)) in H by lra. cbn in H.
    destruct (Rltb 0 (- n)), (Rltb (- n) 0); discriminate.
  - assert (t / r < 0) by (apply div_neg; lra). rewrite (proj2 (Rltb_false 0 (t / r))) in H by lra.
    rewrite (proj2 (Rltb_true (t / r) 0)) in H by lra. discriminate.
Qed.

(** the terms of the likelihood *)
Definition pois_sum (I : Internal) (n t : nat -> R) : R := rsum (i_nbins_p I) (fun b => t b - n b * ln (t b)).
Definition gauss_sum (I : Internal) (n t : nat -> R) : R :=
  1 / 2 * qform (i_nbins_g I) (i_poi_hess I) (fun i => t (i_nbins_p I + i)%nat - n (i_nbins_p I + i)%nat) (fun i => t (i_nbins_p I + i)%nat - n (i_nbins_p I + i)%nat).
Definition cons_sum (I : Internal) (aux ns : list R) : R :=
  1 / 2 * rsum (length (pm_nps (i_pm I))) (fun p => nth p (i_cons I) 0 * (nth p aux 0 - nth p ns 0) * (nth p aux 0 - nth p ns 0)).

Lemma cons_qform I d : qform (length (pm_nps (i_pm I))) (cons_hess I) d d = rsum (length (pm_nps (i_pm I))) (fun p => nth p (i_cons I) 0 * d p * d p).
Proof.
  unfold qform. apply rsum_ext. intros i Hi. rewrite (rsum_single _ i); [|exact Hi|].
  - unfold cons_hess. rewrite Nat.eqb_refl. ring.
  - intros j Hj Hne. unfold cons_hess. destruct (Nat.eqb_spec i j); [congruence|ring].
Qed.

Definition sym_on (n : nat) (h : mat) : Prop := forall i j, (i < n)%nat -> (j < n)%nat -> h i j = h j i.
Lemma qform_plus_l n h a b c : qform n h (fun i => a i + b i) c = qform n h a c + qform n h b c.
Proof. unfold qform. rewrite <- rsum_plus. apply rsum_ext. intros i Hi. rewrite <- rsum_plus. apply rsum_ext. intros; ring. Qed.
Lemma qform_minus_r n h a b c : qform n h a (fun i => b i - c i) = qform n h a b - qform n h a c.
Proof. unfold qform. rewrite <- rsum_minus. apply rsum_ext. intros i Hi. rewrite <- rsum_minus. apply rsum_ext. intros; ring. Qed.
Lemma qform_sym n h a b : sym_on n h -> qform n h a b = qform n h b a.
Proof. intros H. unfold qform. rewrite rsum_swap. apply rsum_ext. intros i Hi. apply rsum_ext. intros j Hj. rewrite (H j i Hj Hi). ring. Qed.
Lemma qform_offset n h d r : sym_on n h -> qform n h (fun i => d i + r i) (fun i => d i - r i) = qform n h d d - qform n h r r.
Proof. intros H. rewrite qform_plus_l, !qform_minus_r. rewrite (qform_sym n h d r H). ring. Qed.

(** value of the likelihood without offset *)
Lemma nll_noff m I ps ns data floor nc t ref : tot_bin_exp m I ps ns floor = Ok t -> ref_yields m I = Ok ref ->
  (forall b, (b < i_nbins_p I)%nat -> 0 < t b) ->
  nll m I ps ns data false floor nc = Ok (Fin (pois_sum I (fun b => nth b (d_counts data) 0) t + gauss_sum I (fun b => nth b (d_counts data) 0) t
     + if nc then 0 else cons_sum I (d_aux data) ns)).
Proof.
  intros Ht Hr Hp. unfold nll. rewrite Ht, Hr. cbn [bind].
  rewrite (esum_fin _ _ (fun b => t b - nth b (d_counts data) 0 * ln (t b))) by (intros i Hi; apply pois_term_fin, Hp, Hi).
  cbn [eadd]. do 3 f_equal. destruct nc; [reflexivity|]. unfold cons_sum. rewrite cons_qform. reflexivity.
Qed.
Lemma nll_off m I ps ns data floor nc t ref : tot_bin_exp m I ps ns floor = Ok t -> ref_yields m I = Ok ref ->
  (forall b, (b < i_nbins_p I)%nat -> 0 < t b) -> (forall b, (b < i_nbins_p I)%nat -> 0 < ref b) -> sym_on (i_nbins_g I) (i_poi_hess I) ->
  nll m I ps ns data true floor nc = Ok (Fin (pois_sum I (fun b => nth b (d_counts data) 0) t + gauss_sum I (fun b => nth b (d_counts data) 0) t
     + (if nc then 0 else cons_sum I (d_aux data) ns)
     - (pois_sum I (fun b => nth b (d_counts data) 0) ref + 1 / 2 * qform (i_nbins_g I) (i_poi_hess I) (fun i => ref (i_nbins_p I + i)%nat) (fun i => ref (i_nbins_p I + i)%nat)))).
Proof.
  intros Ht Hr Hp Hrp Hs. unfold nll. rewrite Ht, Hr. cbn [bind].
  rewrite (esum_fin _ _ (fun b => (t b - nth b (d_counts data) 0 * ln (t b)) - (ref b - nth b (d_counts data) 0 * ln (ref b)))) by (intros i Hi; apply pois_term_off; [apply Hp|apply Hrp]; exact Hi).
  rewrite rsum_minus. cbn [eadd]. do 2 f_equal. rewrite (qform_offset _ _ (fun i => t (i_nbins_p I + i)%nat - nth (i_nbins_p I + i) (d_counts data) 0) _ Hs).
  unfold pois_sum, gauss_sum. destruct nc; [ring|]. unfold cons_sum. rewrite cons_qform. ring.
Qed.

(** a finite likelihood means that everything was computed and all Poisson yields are positive *)
Lemma nll_fin_inv m I ps ns data off floor nc x : nll m I ps ns data off floor nc = Ok (Fin x) ->
  exists t ref, tot_bin_exp m I ps ns floor = Ok t /\ ref_yields m I = Ok ref /\
    (off = false \/ (forall b, (b < i_nbins_p I)%nat -> 0 < ref b) -> forall b, (b < i_nbins_p I)%nat -> 0 < t b).
Proof.
  unfold nll. intros H. apply bind_Ok in H as (t & Ht & H). apply bind_Ok in H as (ref & Hr & H). exists t, ref. repeat split; auto.
  intros Hoff b Hb. inversion H as [H1]. clear H.
  match type of H1 with (match ?r with _ => _ end) = _ => destruct r as [y| | |] eqn:E; try discriminate end. inversion H1; subst.
  apply eadd_fin in E as (y1 & z1 & E & _ & _). apply eadd_fin in E as (y2 & z2 & E & _ & _). apply (esum_fin_inv _ _ _ E) in Hb as Hf. destruct Hf as (w & Hw).
  destruct off.
  - destruct Hoff as [?|Hrp]; [discriminate|]. eapply pois_term_off_pos; [apply Hrp; exact Hb|exact Hw].
  - eapply pois_term_pos; exact Hw.
Qed.
