(** Properties of models: layout of the bins, expected yields, impact factors (core.py). *)
From Verif Require Import Py PyFacts Base Expressions Norms Sample SampleFacts Channels Params Core CoreFacts CoreExample.
Local Open Scope string_scope.
Local Open Scope list_scope.

(** C16: bin [b] of the model belongs to channel [k]: it lies within the channel's number of bins from its offset *)
Definition bin_of_channel (I : Internal) (k : string) (b : nat) : Prop :=
  exists off c, dget k (i_offsets I) = Some off /\ dget k (i_channels I) = Some c /\ (off <= b < off + nbins c)%nat.

(** channels keep their order and kind, every bin belongs to exactly one channel, the Poisson bins come first *)
Theorem C16_bins_partitioned_among_channels : forall E m I, set_internal_vars E m = Ok I -> NoDup (keys (m_channels m)) ->
  Forall2 (fun kc kc' => fst kc' = fst kc /\ ch_kind (snd kc') = ch_kind (snd kc)) (m_channels m) (i_channels I) /\
  i_nbins I = (i_nbins_p I + i_nbins_g I)%nat /\
  (forall k b, bin_of_channel I k b -> (b < i_nbins I)%nat) /\
  (forall b, (b < i_nbins I)%nat -> exists k, bin_of_channel I k b /\ forall k', bin_of_channel I k' b -> k' = k) /\
  (forall k b c, bin_of_channel I k b -> dget k (m_channels m) = Some c -> (is_gaussian c = false <-> (b < i_nbins_p I)%nat)).
Proof.
  intros E m I H HN. apply siv_built in H as B. pose proof (built_poisson_first _ _ _ HN B) as HP.
  pose proof (built_channels _ _ _ B) as HF. rewrite HP in HF.
  assert (HNi : NoDup (keys (i_channels I))) by (rewrite (built_keys _ _ _ B); exact HN).
  assert (Hr : forall k b, bin_of_channel I k b <-> range_in (i_channels I) 0 k b).
  { intros k b. unfold bin_of_channel, range_in. rewrite (bt_off _ _ _ B). reflexivity. }
  split; [eapply Forall2_impl_in; [|exact HF]; tauto|]. split; [apply (built_nbins _ _ _ B)|]. split; [|split].
  - intros k b Hb. apply Hr, range_bounds in Hb. rewrite (bt_nb _ _ _ B). lia.
  - intros b Hb. rewrite (bt_nb _ _ _ B) in Hb. destruct (range_cover (i_channels I) 0 b HNi) as (k & Hk); [lia|].
    exists k. split; [apply Hr, Hk|]. intros k' Hk'. apply Hr in Hk'. apply (range_unique _ _ _ _ _ HNi Hk' Hk).
  - intros k b c Hb Hc. apply Hr in Hb. destruct (built_split _ _ _ B) as (chp & chg & HI & Gp & Gg & Tp & _).
    rewrite HI in Hb, HNi. pose proof (range_poisson _ _ _ _ HNi Hb) as Hiff. rewrite Tp in Hiff. rewrite Hiff.
    assert (Hc' : exists c', dget k (i_channels I) = Some c' /\ is_gaussian c' = is_gaussian c).
    { apply dget_In in Hc. destruct (Forall2_in_l _ _ _ _ HF Hc) as ([k' c'] & Hin & H1 & H2 & _). cbn in *. subst k'.
      exists c'. rewrite HI in *. split; [apply In_dget; assumption|apply gauss_kind; exact H2]. }
    destruct Hc' as (c' & Hc' & <-). rewrite HI, dget_app in Hc'. split.
    + intros Hg. destruct (dget k chp) as [c2|] eqn:Ep.
      * apply dget_In in Ep. change k with (fst (k, c2)). now apply in_map.
      * exfalso. apply dget_In, Gg in Hc'. cbn in Hc'. congruence.
    + intros Hin. destruct (dget k chp) as [c2|] eqn:Ep.
      * inversion Hc'; subst. apply dget_In, Gp in Ep. exact Ep.
      * exfalso. apply dget_None in Ep. contradiction.
Qed.
Print Assumptions C16_bins_partitioned_among_channels.

(** cutting a channel out of a vector over all bins gives back the block of that channel *)
Theorem C16_channel_slice_is_its_block : forall E m I bl, set_internal_vars E m = Ok I -> NoDup (keys (m_channels m)) ->
  Forall2 (fun kc (b : list R) => length b = nbins (snd kc)) (m_channels m) bl ->
  length (concat bl) = i_nbins I /\
  forall i k c b, nth_error (m_channels m) i = Some (k, c) -> nth_error bl i = Some b -> channel_slice I k (concat bl) = Ok b.
Proof.
  intros E m I bl H HN HB. apply siv_built in H as B. pose proof (built_poisson_first _ _ _ HN B) as HP.
  pose proof (built_channels _ _ _ B) as HF. rewrite HP in HF.
  assert (HNi : NoDup (keys (i_channels I))) by (rewrite (built_keys _ _ _ B); exact HN).
  assert (HBi : Forall2 (fun kc (b : list R) => length b = nbins (snd kc)) (i_channels I) bl).
  { clear - HF HB. revert bl HB. induction HF as [|a a' l r Ha Hr IH]; intros bl HB; inversion HB; subst; constructor; auto.
    rewrite H1. apply nbins_kind. symmetry. tauto. }
  split; [rewrite (concat_length_bins _ _ HBi); symmetry; apply (bt_nb _ _ _ B)|].
  intros i k c b Hi Hb.
  assert (Hi' : exists c', nth_error (i_channels I) i = Some (k, c')).
  { clear - HF Hi. revert i Hi. induction HF as [|a a' l r Ha Hr IH]; intros [|i] Hi; cbn in *; try discriminate; auto.
    inversion Hi; subst. destruct a' as [k' c']. cbn in Ha. destruct Ha as (-> & _). eauto. }
  destruct Hi' as (c' & Hi').
  assert (Hd : dget k (i_channels I) = Some c') by (apply In_dget; [exact HNi|eapply nth_error_In; exact Hi']).
  destruct (slice_block _ _ _ _ HNi HBi Hd) as (off & b' & H1 & H2 & H3 & H4).
  unfold channel_slice. rewrite (bt_off _ _ _ B). unfold off_of in H1. unfold dgetE. rewrite H1, Hd. cbn [bind]. rewrite H3. f_equal.
  apply In_nth_error in H2 as (j & Hj). assert (Hc : nth_error (i_channels I) j = Some (k, c') /\ nth_error bl j = Some b').
  { clear - Hj. revert bl j Hj. induction (i_channels I) as [|x l IH]; intros [|y bl] [|j] Hj; cbn in *; try discriminate; auto.
    inversion Hj; subst; auto. }
  destruct Hc as [Hc1 Hc2]. assert (i = j).
  { apply (proj1 (NoDup_nth_error (keys (i_channels I))) HNi).
    - unfold keys. rewrite map_length. apply nth_error_Some. congruence.
    - unfold keys. rewrite !nth_error_map, Hi', Hc1. reflexivity. }
  subst j. congruence.
Qed.
Print Assumptions C16_channel_slice_is_its_block.

Example C16_nonvacuous : exists I, set_internal_vars ex_env ex_model = Ok I /\ NoDup (keys (m_channels ex_model)) /\
  i_nbins I = 3%nat /\ channel_slice I "CR" [1; 2; 3] = Ok [2; 3].
Proof.
  destruct ex_built as (I & H). exists I. split; [exact H|].
  assert (HN : NoDup (keys (m_channels ex_model))) by (cbn; repeat constructor; cbn; intuition discriminate). split; [exact HN|].
  destruct (C16_channel_slice_is_its_block _ _ _ [[1]; [2; 3]] H HN) as (L & A); [repeat constructor|].
  split; [symmetry; exact L|]. change [1; 2; 3] with (concat [[1]; [2; 3]]).
  apply (A 1%nat "CR" (mkChannel "CR" (KMulti ["b1"; "b2"]) [("Control", ex_cr)])); reflexivity.
Qed.

(** A model with a Gaussian channel before a Poisson channel, which the code means to reorder, cannot be built *)
Theorem C16_reordering_refuted : forall E m a b c1 c2 k1 k2 k3, NoDup (keys (m_channels m)) ->
  m_channels m = a ++ (k1, c1) :: k2 ++ (k3, c2) :: b -> is_gaussian c1 = true -> is_gaussian c2 = false ->
  exists e, set_internal_vars E m = Err e.
Proof.
  intros E m a b c1 c2 k1 k2 k3 HN Hm G1 G2. destruct (set_internal_vars E m) as [I|e] eqn:H; [exfalso|eauto].
  destruct (C16_bins_partitioned_among_channels E m I H HN) as (HF & _). apply siv_built in H as B.
  pose proof (built_poisson_first _ _ _ HN B) as HP. unfold poisson_first in HP. rewrite Hm in HP.
  remember (filter (fun c => negb (is_gaussian (snd c))) _) as p eqn:Ep in HP.
  remember (filter (fun c => is_gaussian (snd c)) _) as g eqn:Eg in HP.
  assert (Hp : forall x, In x p -> is_gaussian (snd x) = false) by (intros x Hx; subst p; apply filter_In in Hx as [_ Hx]; now destruct (is_gaussian (snd x))).
  assert (Hg : forall x, In x g -> is_gaussian (snd x) = true) by (intros x Hx; subst g; now apply filter_In in Hx as [_ Hx]).
  clear Ep Eg HF H B Hm. revert a HP. induction p as [|x p IH]; intros a HP; cbn in HP.
  - assert (In (k3, c2) g) as Hin by (rewrite HP; apply in_or_app; right; right; apply in_or_app; right; now left).
    apply Hg in Hin. cbn in Hin. congruence.
  - destruct a as [|y a]; cbn in HP.
    + inversion HP; subst x. specialize (Hp (k1, c1) (or_introl eq_refl)). cbn in Hp. congruence.
    + inversion HP; subst. apply (IH (fun z Hz => Hp z (or_intror Hz)) a). assumption.
Qed.
Print Assumptions C16_reordering_refuted.
