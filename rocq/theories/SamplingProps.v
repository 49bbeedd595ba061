(** C40-C43, C46: sampling p-values, quantiles, cuts, files and CLs (sampling.py). *)
From Coq Require Import Sorted Permutation.
From Verif Require Import Py PyFacts RSort Sampling SamplingFacts.
Local Open Scope string_scope.
Local Open Scope list_scope.
Local Open Scope R_scope.

(** * C40 *)
(** Specification: the fraction of pseudo-experiments strictly below the tested value, plus half of those equal to it. *)
Definition mid_p (samples : list R) (x p : R) : Prop :=
  p * INR (length samples) = INR (count (fun y => Rltb y x) samples) + INR (count (fun y => Reqb y x) samples) / 2.

Lemma len_pos {A} (a : A) l : 0 < INR (length (a :: l)).
Proof. apply lt_0_INR. cbn. lia. Qed.
Lemma sd_pv_ok s x : s <> [] -> sd_pv s x = Ok (sd_nbelow s x / INR (length s)) /\ 0 < INR (length s).
Proof. destruct s as [|a s]; [congruence|]. intros _. split; [reflexivity|apply len_pos]. Qed.
Lemma sort_nil s : s <> [] -> rsort s <> [].
Proof. intros H E. apply H, length_zero_iff_nil. rewrite <- (rsort_length s), E. reflexivity. Qed.

(** whatever the order of the pseudo-experiments, the p-value is the mid p-value *)
Theorem C40_mid_p : forall samples x, samples <> [] ->
  exists p, sd_pv (sd_init samples) x = Ok p /\ mid_p samples x p /\ 0 <= p <= 1.
Proof.
  intros s x H. unfold sd_init. destruct (sd_pv_ok (rsort s) x (sort_nil s H)) as [-> L]. eexists. split; [reflexivity|]. rewrite rsort_length in *. split.
  - unfold mid_p. rewrite nbelow_sorted by apply rsort_sorted. rewrite !(count_perm _ _ _ (rsort_perm s)). field. lra.
  - pose proof (nbelow_range (rsort s) x) as [A B]. rewrite rsort_length in B. split; [apply Rmult_le_pos; [lra|left; now apply Rinv_0_lt_compat]|].
    apply (Rmult_le_reg_r (INR (length s))); [exact L|]. unfold Rdiv. rewrite Rmult_assoc, Rinv_l by lra. lra.
Qed.
Print Assumptions C40_mid_p.
(** it never decreases with the tested value, and depends only on the multiset of samples *)
Theorem C40_monotone : forall samples x y p q, x <= y -> sd_pv (sd_init samples) x = Ok p -> sd_pv (sd_init samples) y = Ok q -> p <= q.
Proof.
  intros s x y p q Hxy Hp Hq. assert (N : rsort s <> []) by (intros E; unfold sd_init in Hp; rewrite E in Hp; discriminate).
  unfold sd_init in *. destruct (sd_pv_ok (rsort s) x N) as [Ex L]. destruct (sd_pv_ok (rsort s) y N) as [Ey _]. rewrite Ex in Hp. rewrite Ey in Hq. injection Hp as <-. injection Hq as <-.
  apply Rmult_le_compat_r; [left; now apply Rinv_0_lt_compat|]. unfold sd_nbelow. rewrite !search_left_sorted, !search_right_sorted by apply rsort_sorted.
  assert (A : (count (fun z => Rltb z x) (rsort s) <= count (fun z => Rltb z y) (rsort s))%nat) by (apply count_mono; intros a Ha; apply Rltb_true in Ha; apply Rltb_true; lra).
  assert (B : (count (fun z => Rleb z x) (rsort s) <= count (fun z => Rleb z y) (rsort s))%nat) by (apply count_mono; intros a Ha; apply Rleb_true in Ha; apply Rleb_true; lra).
  apply le_INR in A, B. lra.
Qed.
Print Assumptions C40_monotone.
Theorem C40_order_independent : forall s1 s2 x, Permutation s1 s2 -> sd_pv (sd_init s1) x = sd_pv (sd_init s2) x.
Proof. intros s1 s2 x H. unfold sd_init. now rewrite (rsort_unique _ _ H). Qed.
Print Assumptions C40_order_independent.
(** p-values with errors: same value, and an error that is positive *)
Theorem C40_error : forall s x, s <> [] -> exists p e, sd_pv s x = Ok p /\ sd_pv_err s x = Ok (p, e) /\ 0 < e.
Proof.
  intros s x H. destruct s as [|a s]; [congruence|]. set (t := a :: s). exists (sd_nbelow t x / INR (length t)). eexists. split; [reflexivity|]. split; [reflexivity|].
  pose proof (len_pos a s) as L. fold t in L. pose proof (nbelow_range t x) as [A B].
  assert (P : 0 < (sd_nbelow t x + 1) * (INR (length t) - sd_nbelow t x + 1) / INR (length t)).
  { apply Rmult_lt_0_compat; [|now apply Rinv_0_lt_compat]. apply Rmult_lt_0_compat; lra. }
  apply Rmult_lt_0_compat; [now apply sqrt_lt_R0|now apply Rinv_0_lt_compat].
Qed.
Print Assumptions C40_error.
(** the samples saved with sort_before_saving=False are not sorted when loaded: the binary search gives a wrong p-value
    that depends on the order *)
Theorem C40_unsorted_file_refuted : exists s1 s2 x, Permutation s1 s2 /\
  let load s := sd_load (fst (sd_save [] "toys" s false)) [] "toys.npy" in
  load s1 = Ok s1 /\ load s2 = Ok s2 /\ sd_pv s1 x = Ok 1 /\ sd_pv s2 x = Ok (1 / 2) /\ sd_pv (sd_init s1) x = Ok (1 / 2).
Proof.
  exists [1; 0], [0; 1], (1 / 2). split; [constructor|]. cbv zeta. split; [reflexivity|]. split; [reflexivity|].
  assert (A : sd_pv [0; 1] (1 / 2) = Ok (1 / 2)).
  { unfold sd_pv, sd_nbelow, search_left, search_right. cbn [length bsearch Nat.ltb Nat.leb Nat.sub Nat.div Nat.divmod fst Nat.add nth].
    rewrite (proj2 (Rltb_false 1 (1 / 2))), (proj2 (Rleb_false 1 (1 / 2))) by lra. rewrite (proj2 (Rltb_true 0 (1 / 2))), (proj2 (Rleb_true 0 (1 / 2))) by lra.
    cbn [Nat.leb INR]. f_equal. lra. }
  split; [|split; [exact A|]].
  - unfold sd_pv, sd_nbelow, search_left, search_right. cbn [length bsearch Nat.ltb Nat.leb Nat.sub Nat.div Nat.divmod fst Nat.add nth].
    rewrite (proj2 (Rltb_true 0 (1 / 2))), (proj2 (Rleb_true 0 (1 / 2))) by lra. cbn [Nat.leb INR]. f_equal. lra.
  - unfold sd_init. rewrite (rsort_unique [1; 0] [0; 1]) by constructor. rewrite rsort_id; [exact A|]. repeat constructor; lra.
Qed.
Print Assumptions C40_unsorted_file_refuted.
(** with the default options the file is sorted, and the p-value read back is the mid p-value *)
Theorem C40_saved_mid_p : forall fs f samples x fs' s', samples <> [] -> sd_save fs f samples true = (fs', s') ->
  exists t p, sd_load fs' [] (npy_name f) = Ok t /\ sd_pv t x = Ok p /\ sd_pv s' x = Ok p /\ mid_p samples x p.
Proof.
  intros fs f s x fs' s' H E. unfold sd_save in E. injection E as <- <-. exists (rsort s). destruct (C40_mid_p s x H) as (p & Hp & M & _). exists p.
  unfold sd_load. rewrite dget_dset_eq. cbn. auto.
Qed.
Print Assumptions C40_saved_mid_p.
Example C40_nonvacuous : sd_init [1; 0; 1] = [0; 1; 1] /\ mid_p [1; 0; 1] 1 (2 / 3) /\ npy_name "toys_0.5" = "toys_0.5.npy".
Proof.
  split; [|split; [|reflexivity]].
  - unfold sd_init. rewrite (rsort_unique [1; 0; 1] [0; 1; 1]) by constructor. apply rsort_id. repeat constructor; lra.
  - unfold mid_p, count. cbn [filter]. rewrite (proj2 (Rltb_false 1 1)), (proj2 (Rltb_true 0 1)) by lra. rewrite (proj2 (Reqb_true 1 1) eq_refl), (proj2 (Reqb_false 0 1)) by lra. cbn. lra.
Qed.

(** * C41 *)
(** the quantile is a sample, at most a fraction f of the samples are below it, and more than f are at most equal to it *)
Theorem C41_quantile : forall cdf samples f, samples <> [] -> 0 <= f < 1 -> exists v,
  sd_quantile cdf (sd_init samples) (Some f) None = Ok v /\ In v samples /\
  INR (count (fun y => Rltb y v) samples) <= f * INR (length samples) < INR (count (fun y => Rleb y v) samples).
Proof.
  intros cdf s f H Hf. unfold sd_quantile, sd_init. cbn [bind]. rewrite (proj2 (Rltb_false f 0)), (proj2 (Rltb_false 1 f)) by lra. cbn [orb].
  assert (L : 0 < INR (length s)) by (apply lt_0_INR; destruct s; [congruence|cbn; lia]). rewrite rsort_length.
  assert (Hx : 0 <= INR (length s) * f) by (apply Rmult_le_pos; lra). assert (Hy : INR (length s) * f < INR (length s)) by nra.
  pose proof (int_of_spec _ Hx) as Sp. pose proof (int_of_lt _ _ Hx Hy) as Lt. set (k := int_of (INR (length s) * f)) in *.
  destruct (nth_error_length (rsort s) k) as (v & Hv); [now rewrite rsort_length|]. rewrite Hv. exists v. split; [reflexivity|].
  assert (Vn : nth k (rsort s) 0 = v) by (now apply nth_error_nth). split; [apply rsort_in, nth_error_In with k; exact Hv|].
  assert (A : (count (fun y => Rltb y v) s <= k)%nat).
  { rewrite <- (count_perm _ _ _ (rsort_perm s)). destruct (sorted_count_prefix (fun y => Rltb y v) (rsort s) (rsort_sorted s)) as [A _].
    { intros a b Hab E. apply Rltb_true in E. apply Rltb_true. lra. }
    destruct (Nat.le_gt_cases (count (fun y => Rltb y v) (rsort s)) k) as [|C]; [assumption|]. specialize (A k C). cbv beta in A. rewrite Vn in A. apply Rltb_true in A. lra. }
  assert (B : (k < count (fun y => Rleb y v) s)%nat).
  { rewrite <- (count_perm _ _ _ (rsort_perm s)). destruct (sorted_count_prefix (fun y => Rleb y v) (rsort s) (rsort_sorted s)) as [_ A'].
    { intros a b Hab E. apply Rleb_true in E. apply Rleb_true. lra. }
    destruct (Nat.lt_ge_cases k (count (fun y => Rleb y v) (rsort s))) as [|C]; [assumption|]. specialize (A' k). cbv beta in A'. rewrite Vn, rsort_length in A'. rewrite (proj2 (Rleb_true v v)) in A' by lra.
    discriminate A'. lia. }
  apply le_INR in A. assert (B' : INR k + 1 <= INR (count (fun y => Rleb y v) s)) by (rewrite <- S_INR; apply le_INR; lia). lra.
Qed.
Print Assumptions C41_quantile.
(** the quantiles increase with the fraction, and with the number of sigmas *)
Theorem C41_monotone : forall cdf samples f g v w, f <= g -> sd_quantile cdf (sd_init samples) (Some f) None = Ok v ->
  sd_quantile cdf (sd_init samples) (Some g) None = Ok w -> v <= w.
Proof.
  intros cdf s f g v w Hfg Hv Hw. unfold sd_quantile, sd_init in *. cbn [bind] in *.
  destruct (Rltb f 0 || Rltb 1 f) eqn:E; [discriminate|]. destruct (Rltb g 0 || Rltb 1 g) eqn:E2; [discriminate|]. apply orb_false_iff in E as [E _]. apply Rltb_false in E.
  destruct (nth_error (rsort s) (int_of (INR (length (rsort s)) * f))) as [v'|] eqn:Nv; [|discriminate]. destruct (nth_error (rsort s) (int_of (INR (length (rsort s)) * g))) as [w'|] eqn:Nw; [|discriminate].
  injection Hv as ->. injection Hw as ->. rewrite <- (nth_error_nth _ _ 0 Nv), <- (nth_error_nth _ _ 0 Nw). pose proof (pos_INR (length (rsort s))). apply sorted_nth; [apply rsort_sorted| |].
  - apply int_of_mono; nra.
  - apply nth_error_Some. congruence.
Qed.
Print Assumptions C41_monotone.
Lemma quantile_nsigmas : forall cdf s n, sd_quantile cdf s None (Some n) = sd_quantile cdf s (Some (cdf n)) None.
Proof. reflexivity. Qed.
(** fractions outside [0,1] are rejected, but so is 1 *)
Theorem C41_fraction_one_refuted : forall cdf samples, sd_quantile cdf (sd_init samples) (Some 1) None = Err IndexError.
Proof.
  intros cdf s. unfold sd_quantile. cbn [bind]. rewrite (proj2 (Rltb_false 1 0)), (proj2 (Rltb_false 1 1)) by lra. cbn [orb]. rewrite Rmult_1_r.
  assert (E : int_of (INR (length (sd_init s))) = length (sd_init s)).
  { pose proof (int_of_spec _ (pos_INR (length (sd_init s)))) as [A B]. apply INR_le in A. assert (C : INR (length (sd_init s)) < INR (int_of (INR (length (sd_init s))) + 1)) by (rewrite plus_INR; cbn; lra). apply INR_lt in C. lia. }
  rewrite E, (proj2 (nth_error_None _ _)) by lia. reflexivity.
Qed.
Print Assumptions C41_fraction_one_refuted.
Theorem C41_invalid_fraction : forall cdf s f, f < 0 \/ 1 < f -> sd_quantile cdf s (Some f) None = Err ValueError.
Proof.
  intros cdf s f H. unfold sd_quantile. cbn [bind]. replace (Rltb f 0 || Rltb 1 f) with true; [reflexivity|]. symmetry. apply orb_true_iff. destruct H; [left|right]; now apply Rltb_true.
Qed.
Print Assumptions C41_invalid_fraction.
Example C41_nonvacuous : exists v, sd_quantile (fun x => x) (sd_init [3; 1; 2]) (Some (1 / 2)) None = Ok v.
Proof. destruct (C41_quantile (fun x => x) [3; 1; 2] (1 / 2)) as (v & H & _); [discriminate|lra|]. now exists v. Qed.

(** * C42 *)
Definition within (lo hi : option R) (x : R) : bool :=
  (match lo with Some v => Rleb v x | None => true end) && (match hi with Some v => Rleb x v | None => true end).
Lemma filter_true {A} (l : list A) : filter (fun _ => true) l = l.
Proof. induction l as [|a l IH]; cbn; [reflexivity|]. now rewrite IH. Qed.
Lemma filter_filter' {A} (P Q : A -> bool) l : filter Q (filter P l) = filter (fun x => P x && Q x) l.
Proof. induction l as [|a l IH]; cbn; [reflexivity|]. destruct (P a); cbn; [|exact IH]. destruct (Q a); now rewrite IH. Qed.
(** for bounds that are not zero: exactly the values within the bounds are kept, in the same order *)
Theorem C42_cut : forall s lo hi, lo <> Some 0 -> hi <> Some 0 -> sd_cut s lo hi = filter (within lo hi) s.
Proof.
  intros s lo hi Hl Hh. assert (T : forall x, x <> Some 0 -> truthy x = x) by (intros [v|] Hv; cbn; [|reflexivity]; rewrite (proj2 (Reqb_false v 0)) by congruence; reflexivity).
  unfold sd_cut. rewrite !T by assumption. unfold within. destruct lo as [a|], hi as [b|]; cbn.
  - now rewrite filter_filter'.
  - apply filter_ext. intros x. now rewrite andb_true_r.
  - reflexivity.
  - now rewrite filter_true.
Qed.
Print Assumptions C42_cut.
(** a bound of zero is ignored *)
Theorem C42_zero_bound_refuted : forall s b, sd_cut s (Some 0) b = sd_cut s None b /\ sd_cut s b (Some 0) = sd_cut s b None.
Proof. intros s b. unfold sd_cut, truthy. rewrite (proj2 (Reqb_true 0 0) eq_refl). split; reflexivity. Qed.
Print Assumptions C42_zero_bound_refuted.
Example C42_zero_bound_case : sd_cut [-1; 1] (Some 0) None = [-1; 1] /\ filter (within (Some 0) None) [-1; 1] = [1].
Proof.
  destruct (C42_zero_bound_refuted [-1; 1] None) as [-> _]. split; [reflexivity|]. unfold within. cbn [filter]. now rewrite (proj2 (Rleb_false 0 (-1))), (proj2 (Rleb_true 0 1)) by lra.
Qed.

(** * C43 *)
Theorem C43_roundtrip : forall fs f s sort fs' s', sd_save fs f s sort = (fs', s') ->
  Permutation s' s /\ (sort = false -> s' = s) /\ (sort = true -> StronglySorted Rle s') /\
  sd_load fs' [] (npy_name f) = Ok s' /\ (forall g, g <> npy_name f -> sd_load fs' [] g = sd_load fs [] g).
Proof.
  intros fs f s sort fs' s' E. unfold sd_save in E. injection E as <- <-. split; [destruct sort; [apply rsort_perm|apply Permutation_refl]|]. split; [intros ->; reflexivity|]. split; [intros ->; apply rsort_sorted|].
  unfold sd_load. split; [now rewrite dget_dset_eq|]. intros g Hg. now rewrite dget_dset_neq.
Qed.
Print Assumptions C43_roundtrip.
(** loading with a requested number: exactly that many, taken from the beginning of the file, or an error *)
Theorem C43_requested_number : forall fs n f a, (0 < n)%nat -> dget f fs = Some a ->
  ((n <= length a)%nat -> exists t, sd_load fs (sd_zeros n) f = Ok t /\ length t = n /\ exists rest, a = t ++ rest) /\
  ((length a < n)%nat -> sd_load fs (sd_zeros n) f = Err IOError).
Proof.
  intros fs n f a Hn Ha. unfold sd_load, sd_zeros. rewrite Ha, repeat_length, (proj2 (Nat.ltb_lt 0 n) Hn). cbn [andb]. split; intros H.
  - rewrite (proj2 (Nat.ltb_ge (length a) n) H). destruct (n <? length a)%nat eqn:E.
    + apply Nat.ltb_lt in E. eexists. split; [reflexivity|]. split; [rewrite firstn_length; lia|]. exists (skipn n a). symmetry. apply firstn_skipn.
    + apply Nat.ltb_ge in E. exists a. split; [reflexivity|]. split; [lia|]. exists []. now rewrite app_nil_r.
  - now rewrite (proj2 (Nat.ltb_lt (length a) n) H).
Qed.
Print Assumptions C43_requested_number.
Lemma firstn_sorted n (l : list R) : StronglySorted Rle l -> StronglySorted Rle (firstn n l).
Proof.
  intros S. revert n. induction S as [|a l S0 IH F]; intros [|n]; cbn; try constructor; auto. rewrite Forall_forall in *. intros x Hx. apply F. rewrite <- (firstn_skipn n l). apply in_or_app. now left.
Qed.
Lemma count_app {A} (P : A -> bool) l m : count P (l ++ m) = (count P l + count P m)%nat.
Proof. unfold count. now rewrite filter_app, app_length. Qed.
Lemma count_cons {A} (P : A -> bool) a l : count P (a :: l) = ((if P a then 1 else 0) + count P l)%nat.
Proof. unfold count. cbn. destruct (P a); reflexivity. Qed.
Lemma count_firstn_sorted P n l : StronglySorted Rle l -> (forall x y, x <= y -> P y = true -> P x = true) -> (n <= length l)%nat ->
  count P (firstn n l) = Nat.min (count P l) n.
Proof.
  intros S D. revert n. induction S as [|a l S0 IH F]; intros [|n] Hn; cbn [firstn length] in *; try (unfold count; cbn; lia).
  rewrite !count_cons, IH by lia. destruct (P a) eqn:E; [lia|].
  assert (Z : count P l = 0%nat).
  { unfold count. rewrite (proj2 (length_zero_iff_nil _)); [reflexivity|]. clear IH S0 Hn. induction l as [|b l IHl]; [reflexivity|]. inversion F; subst. cbn. destruct (P b) eqn:Eb; [|auto]. rewrite (D a b) in E by assumption. discriminate. }
  rewrite Z. lia.
Qed.
(** since files are sorted, the values kept are the smallest ones: every p-value is at least that of the full sample *)
Theorem C43_truncation_bias : forall fs f samples n x, (0 < n <= length samples)%nat ->
  let fs' := fst (sd_save fs f samples true) in
  exists t p q, sd_load fs' (sd_zeros n) (npy_name f) = Ok t /\ sd_pv t x = Ok q /\ sd_pv (sd_init samples) x = Ok p /\ p <= q.
Proof.
  intros fs f s n x Hn fs'. assert (D : dget (npy_name f) fs' = Some (rsort s)) by (unfold fs', sd_save; cbn; apply dget_dset_eq).
  assert (E : sd_load fs' (sd_zeros n) (npy_name f) = Ok (firstn n (rsort s))).
  { unfold sd_load, sd_zeros. rewrite D, repeat_length, rsort_length, (proj2 (Nat.ltb_lt 0 n)) by lia. rewrite (proj2 (Nat.ltb_ge (length s) n)) by lia. cbn [andb]. destruct (n <? length s)%nat eqn:E; [reflexivity|].
    apply Nat.ltb_ge in E. rewrite firstn_all2; [reflexivity|]. rewrite rsort_length. lia. }
  rewrite E. assert (L : length (firstn n (rsort s)) = n) by (rewrite firstn_length, rsort_length; lia).
  assert (N1 : firstn n (rsort s) <> []) by (intros Z; rewrite Z in L; cbn in L; lia). assert (N2 : rsort s <> []) by (apply sort_nil; intros ->; cbn in Hn; lia).
  destruct (sd_pv_ok _ x N1) as [E1 L1]. destruct (sd_pv_ok _ x N2) as [E2 L2]. exists (firstn n (rsort s)). rewrite E1. unfold sd_init. rewrite E2. eexists. eexists. split; [reflexivity|]. split; [reflexivity|]. split; [reflexivity|].
  rewrite L, rsort_length in *. unfold sd_nbelow. rewrite !search_left_sorted, !search_right_sorted by (try apply firstn_sorted; apply rsort_sorted).
  assert (A : forall P, (forall a b, a <= b -> P b = true -> P a = true) -> INR (count P (rsort s)) * INR n <= INR (count P (firstn n (rsort s))) * INR (length s)).
  { intros P HP. rewrite count_firstn_sorted; [|apply rsort_sorted|exact HP|rewrite rsort_length; lia]. rewrite <- !mult_INR. apply le_INR. pose proof (count_le P (rsort s)) as Hc. rewrite rsort_length in Hc.
    destruct (Nat.le_gt_cases (count P (rsort s)) n); [rewrite Nat.min_l by assumption; apply Nat.mul_le_mono_l; lia|rewrite Nat.min_r by lia; rewrite (Nat.mul_comm n); apply Nat.mul_le_mono_r; lia]. }
  pose proof (A (fun y => Rltb y x)) as A1. pose proof (A (fun y => Rleb y x)) as A2.
  specialize (A1 ltac:(intros a b Hab H; apply Rltb_true in H; apply Rltb_true; lra)). specialize (A2 ltac:(intros a b Hab H; apply Rleb_true in H; apply Rleb_true; lra)).
  apply (Rmult_le_reg_r (INR (length s) * INR n)); [apply Rmult_lt_0_compat; lra|].
  replace ((INR (count (fun y => Rltb y x) (rsort s)) + INR (count (fun y => Rleb y x) (rsort s))) / 2 / INR (length s) * (INR (length s) * INR n))
    with ((INR (count (fun y => Rltb y x) (rsort s)) * INR n + INR (count (fun y => Rleb y x) (rsort s)) * INR n) / 2) by (field; lra).
  replace ((INR (count (fun y => Rltb y x) (firstn n (rsort s))) + INR (count (fun y => Rleb y x) (firstn n (rsort s)))) / 2 / INR n * (INR (length s) * INR n))
    with ((INR (count (fun y => Rltb y x) (firstn n (rsort s))) * INR (length s) + INR (count (fun y => Rleb y x) (firstn n (rsort s))) * INR (length s)) / 2) by (field; lra).
  lra.
Qed.
Print Assumptions C43_truncation_bias.
(** strictly: of the samples 0 and 1, the one kept is 0, with p-value 1 at 1/2 instead of 1/2 *)
Theorem C43_truncation_refuted : forall fs f, exists t,
  sd_load (fst (sd_save fs f [0; 1] true)) (sd_zeros 1) (npy_name f) = Ok t /\ t = [0] /\ sd_pv t (1 / 2) = Ok 1 /\ mid_p [0; 1] (1 / 2) (1 / 2).
Proof.
  intros fs f. exists [0]. unfold sd_load, sd_save. cbn [fst]. rewrite dget_dset_eq. unfold sd_sort. rewrite rsort_id by (repeat constructor; lra). cbn. split; [reflexivity|]. split; [reflexivity|]. split.
  - unfold sd_nbelow, search_left, search_right. cbn. rewrite (proj2 (Rltb_true 0 (1 / 2))), (proj2 (Rleb_true 0 (1 / 2))) by lra. f_equal. cbn. lra.
  - unfold mid_p, count. cbn [filter]. rewrite (proj2 (Rltb_true 0 (1 / 2))), (proj2 (Rltb_false 1 (1 / 2))) by lra. rewrite !(proj2 (Reqb_false _ (1 / 2))) by lra. cbn. lra.
Qed.
Print Assumptions C43_truncation_refuted.
Example C43_nonvacuous : sd_load (fst (sd_save [] "t" [2] false)) (sd_zeros 1) "t.npy" = Ok [2] /\ sd_load [] [] "t.npy" = Err IOError.
Proof. split; reflexivity. Qed.

(** * C46 *)
Theorem C46_cls : forall C h x a b, sm_pv (cs_clsb C) h x = Ok a -> sm_pv (cs_cl_b C) h x = Ok b ->
  exists c, cs_pv C h x = Ok c /\ (0 < b -> c * b = a) /\ (b <= 0 -> c = 1) /\ 0 <= c /\ (a <= b -> c <= 1) /\ (0 < b -> a <= c).
Proof.
  intros C h x a b Ha Hb. assert (R01 : forall S y, sm_pv S h x = Ok y -> 0 <= y <= 1).
  { intros S y H. unfold sm_pv in H. apply bind_Ok in H as (s & _ & H). destruct s as [|z s]; [discriminate|]. unfold sd_pv in H. injection H as <-. pose proof (nbelow_range (z :: s) x) as [N1 N2]. pose proof (len_pos z s) as L.
    split; [apply Rmult_le_pos; [lra|left; now apply Rinv_0_lt_compat]|]. apply (Rmult_le_reg_r (INR (length (z :: s)))); [exact L|]. unfold Rdiv. rewrite Rmult_assoc, Rinv_l by lra. lra. }
  pose proof (R01 _ _ Ha). pose proof (R01 _ _ Hb). unfold cs_pv. rewrite Ha, Hb. cbn [bind]. eexists. split; [reflexivity|].
  destruct (Rltb 0 b) eqn:E; [apply Rltb_true in E|apply Rltb_false in E].
  - pose proof (Rinv_0_lt_compat b E) as Ib. assert (M : a / b * b = a) by (field; lra). split; [auto|]. split; [intros; lra|]. split; [apply Rmult_le_pos; lra|]. split; [intros; apply (Rmult_le_reg_r b); lra|].
    intros _. apply (Rmult_le_reg_r b); [exact E|]. rewrite M. nra.
  - repeat split; intros; lra.
Qed.
Print Assumptions C46_cls.
(** the value does not depend on whether the error is requested, and the error is not negative *)
Theorem C46_error : forall C h x c, cs_pv C h x = Ok c -> exists e, cs_pv_err C h x = Ok (c, e) /\ 0 <= e.
Proof.
  intros C h x c H. unfold cs_pv, sm_pv in H. apply bind_Ok in H as (a & Ha & H). apply bind_Ok in H as (b & Hb & H). injection H as <-.
  apply bind_Ok in Ha as (sa & Ga & Ha). apply bind_Ok in Hb as (sb & Gb & Hb). unfold cs_pv_err, sm_pv_err. rewrite Ga, Gb. cbn [bind].
  destruct (C40_error sa x) as (a' & ea & A1 & A2 & A3); [intros ->; discriminate|]. destruct (C40_error sb x) as (b' & eb & B1 & B2 & B3); [intros ->; discriminate|].
  rewrite Ha in A1. injection A1 as <-. rewrite Hb in B1. injection B1 as <-. rewrite A2, B2. cbn [bind].
  destruct (Rltb 0 b) eqn:E; [apply Rltb_true in E|apply Rltb_false in E].
  - rewrite (proj2 (Rleb_false b 0)) by lra. pose proof (Rinv_0_lt_compat b E). destruct (Rleb a 0) eqn:E2; [apply Rleb_true in E2|apply Rleb_false in E2].
    + assert (a = 0) as ->. { apply Rle_antisym; [exact E2|]. destruct sa as [|z sa]; [discriminate|]. cbn in Ha. injection Ha as <-. pose proof (nbelow_range (z :: sa) x). apply Rmult_le_pos; [lra|]. left. apply Rinv_0_lt_compat. apply (len_pos z sa). }
      exists (ea / b). split; [f_equal; f_equal; lra|]. apply Rmult_le_pos; lra.
    + eexists. split; [reflexivity|]. apply Rmult_le_pos; [apply Rmult_le_pos; lra|apply sqrt_pos].
  - rewrite (proj2 (Rleb_true b 0)) by lra. exists 1. split; [reflexivity|lra].
Qed.
Print Assumptions C46_error.
Lemma mapM_nth {A B} (f : A -> res B) l r i : mapM f l = Ok r -> forall a, nth_error l i = Some a -> exists b, nth_error r i = Some b /\ f a = Ok b.
Proof.
  intros H. apply mapM_Forall2 in H. revert i. induction H as [|a b l r Hab _ IH]; intros [|i] x Hx; cbn in *; try discriminate; [injection Hx as <-; eauto|auto].
Qed.
(** the bands are ordered: at every hypothesis, a band of lower order is not above a band of higher order *)
Theorem C46_bands_ordered : forall cdf C n bands i j qi qj k v w, (forall x y, x <= y -> cdf x <= cdf y) ->
  cs_bands cdf C n = Ok bands -> In (i, qi) bands -> In (j, qj) bands -> (i <= j)%Z -> nth_error qi k = Some v -> nth_error qj k = Some w -> v <= w.
Proof.
  intros cdf C n bands i j qi qj k v w Hc H Hi Hj Hij Hv Hw. unfold cs_bands in H. apply bind_Ok in H as (dists & Hd & H).
  destruct (sm_hypos (cs_clsb C)) as [|h0 hs] eqn:EH; [discriminate|]. rewrite <- EH in *. set (hypos := sm_hypos (cs_clsb C)) in *. clear EH h0 hs.
  assert (SD : forall h s, dget h dists = Some s -> exists t, s = rsort t).
  { assert (G : forall l d d', (forall h s, dget h d = Some s -> exists t, s = rsort t) ->
      foldM (fun d h => let! s := dgetE h (sm_dists (cs_cl_b C)) in let! v := mapM (cs_pv C h) s in Ok (dset h (sd_sort v) d)) l d = Ok d' -> forall h s, dget h d' = Some s -> exists t, s = rsort t).
    { induction l as [|a l IH]; intros d d' Hd0 Hf; cbn in Hf; [injection Hf as <-; exact Hd0|]. apply bind_Ok in Hf as (d1 & Hd1 & Hf). apply bind_Ok in Hd1 as (s & _ & Hd1). apply bind_Ok in Hd1 as (v' & _ & Hd1).
      injection Hd1 as <-. eapply IH; [|exact Hf]. intros h s' Hs. destruct (String.string_dec h a) as [->|Ne]; [rewrite dget_dset_eq in Hs; injection Hs as <-; now exists v'|rewrite dget_dset_neq in Hs by assumption; eauto]. }
    apply (G hypos [] dists); [discriminate|exact Hd]. }
  unfold sm_bands in H. apply mapM_Forall2 in H. cbn [sm_hypos] in H.
  assert (Q : forall i qi, In (i, qi) bands -> mapM (fun h => sm_quantile cdf (mkSamples hypos dists) h None (Some (IZR i))) hypos = Ok qi).
  { intros i' qi' Hin. clear -H Hin. induction H as [|a b l r Hab _ IH]; [destruct Hin|]. destruct Hin as [->|Hin]; [|auto]. apply bind_Ok in Hab as (qs & Hq & Hab). injection Hab as <- <-. exact Hq. }
  apply Q in Hi, Hj. assert (Hh : exists h, nth_error hypos k = Some h).
  { apply mapM_Ok_length in Hi. destruct (nth_error_length hypos k) as (h & Hh); [rewrite <- Hi; apply nth_error_Some; congruence|now exists h]. }
  destruct Hh as (h & Hh). destruct (mapM_nth _ _ _ _ Hi _ Hh) as (v' & Ev & Fv). destruct (mapM_nth _ _ _ _ Hj _ Hh) as (w' & Ew & Fw). rewrite Hv in Ev. injection Ev as <-. rewrite Hw in Ew. injection Ew as <-.
  unfold sm_quantile in Fv, Fw. cbn [sm_dists] in *. unfold dgetE in *. destruct (dget h dists) as [s|] eqn:G; [|discriminate]. cbn [bind] in *. destruct (SD h s G) as (t & ->).
  apply (C41_monotone cdf t (cdf (IZR i)) (cdf (IZR j))); auto. apply Hc, IZR_le, Hij.
Qed.
Print Assumptions C46_bands_ordered.
Example C46_nonvacuous : exists C c, cs_pv C "h" (1 / 2) = Ok c /\ exists b, cs_bands (fun _ => 1 / 2) C 0 = Ok b.
Proof.
  exists (mkCLs (mkSamples ["h"] [("h", [1 / 2])]) (mkSamples ["h"] [("h", [1 / 2])])). unfold cs_pv, sm_pv, dgetE. cbn. unfold cs_bands, sm_bands, band_orders. cbn. eexists. split; [reflexivity|].
  unfold sd_quantile. cbn. rewrite (proj2 (Rltb_false (1 / 2) 0)), (proj2 (Rltb_false 1 (1 / 2))) by lra. cbn. rewrite Rmult_1_l.
  assert (int_of (1 / 2) = 0%nat) as ->. { pose proof (int_of_lt (1 / 2) 1). cbn in H. specialize (H ltac:(lra) ltac:(lra)). lia. }
  cbn. eauto.
Qed.
