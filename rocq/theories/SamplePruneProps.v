(** C57: pruning samples. *)
From Coquelicot Require Import Coquelicot.
From Verif Require Import Py PyFacts Base Expressions Norms Sample SampleFacts Channels ChannelFacts Params ParamsFacts Core CoreFacts CoreSpec CoreCoefs CoreYields CoreExample ModelIO ModelIOFacts ModelTools ModelToolsFacts.
Local Open Scope string_scope.
Local Open Scope list_scope.
Local Open Scope R_scope.

(** * Specification: the Asimov significance of a sample above the rest of its channel *)
Definition yield (s : Sample) (b : nat) : R := match s_yields s with Some y => nth b y 0 | None => 0 end.
Definition total_yield (c : Channel) (b : nat) : R := lsum (map (fun ks => yield (snd ks) b) (ch_samples c)).
Definition asimov (t s : R) : R := 2 * (t * ln (t / (t - s)) - s).
Definition significance (c : Channel) (s : Sample) : R := sqrt (rsum (nbins c) (fun b => asimov (total_yield c b) (yield s b))).
(** the rest of the channel is positive in every bin *)
Definition computable (c : Channel) (s : Sample) : Prop := forall b, (b < nbins c)%nat -> 0 < total_yield c b /\ yield s b < total_yield c b.
Definition negligible (min_signif : R) (c : Channel) (s : Sample) : Prop := computable c s /\ significance c s < min_signif.

(** * facts *)
Lemma zipwith_seq (f : R -> R -> R) : forall l m, length l = length m -> zipwith f l m = map (fun b => f (nth b l 0) (nth b m 0)) (seq 0 (length l)).
Proof.
  induction l as [|x l IH]; intros [|y m] H; cbn in H; try discriminate; [reflexivity|]. cbn [zipwith length seq map nth]. f_equal.
  rewrite <- seq_shift, map_map. rewrite IH by lia. reflexivity.
Qed.
Lemma asimov_nonneg t s : 0 < t -> s < t -> 0 <= asimov t s.
Proof.
  intros Ht Hs. unfold asimov.
  assert (H : ln ((t - s) / t) <= (t - s) / t - 1).
  { assert (P : 0 < (t - s) / t) by (apply Rdiv_lt_0_compat; lra). pose proof (exp_ineq1_le (ln ((t - s) / t))) as X. rewrite exp_ln in X by exact P. lra. }
  replace (t / (t - s)) with (/ ((t - s) / t)) by (field; lra). rewrite ln_Rinv by (apply Rdiv_lt_0_compat; lra).
  assert (t * ln ((t - s) / t) <= t * ((t - s) / t - 1)) by (apply Rmult_le_compat_l; lra).
  replace (t * ((t - s) / t - 1)) with (- s) in H0 by (field; lra). lra.
Qed.
Lemma ln_lower u : 0 <= u < 1 -> u + u * u / 2 <= - ln (1 - u).
Proof.
  intros [H0 H1]. destruct (MVT_gen (fun x => - ln (1 - x) - x - x * x / 2) 0 u (fun x => 1 / (1 - x) - 1 - x)) as (c & Hc & E).
  - intros x Hx. rewrite Rmin_left, Rmax_right in Hx by lra. auto_derive; [lra|]. field. lra.
  - intros x Hx. rewrite Rmin_left, Rmax_right in Hx by lra. apply derivable_continuous_pt.
    exists (1 / (1 - x) - 1 - x). apply is_derive_Reals. auto_derive; [lra|]. field. lra.
  - rewrite Rmin_left, Rmax_right in Hc by lra. replace (1 - 0) with 1 in E by ring. rewrite ln_1 in E.
    assert (0 <= (1 / (1 - c) - 1 - c) * (u - 0)).
    { apply Rmult_le_pos; [|lra]. replace (1 / (1 - c) - 1 - c) with (c * c / (1 - c)) by (field; lra). apply Rle_mult_inv_pos; [nra|lra]. }
    lra.
Qed.
Lemma asimov_lower t s : 0 <= s < t -> s * s / t <= asimov t s.
Proof.
  intros [H0 H1]. unfold asimov. assert (Hu : 0 <= s / t < 1).
  { split; [apply Rle_mult_inv_pos; lra|]. apply (Rmult_lt_reg_r t); [lra|]. unfold Rdiv. rewrite Rmult_assoc, Rinv_l by lra. lra. }
  pose proof (ln_lower _ Hu) as L. replace (t / (t - s)) with (/ (1 - s / t)) by (field; lra). rewrite ln_Rinv by lra.
  assert (t * (s / t + s / t * (s / t) / 2) <= t * - ln (1 - s / t)) by (apply Rmult_le_compat_l; lra).
  replace (t * (s / t + s / t * (s / t) / 2)) with (s + s * s / t / 2) in H by (field; lra). lra.
Qed.

Lemma rsum_ge_term n (f : nat -> R) b : (b < n)%nat -> (forall i, (i < n)%nat -> 0 <= f i) -> f b <= rsum n f.
Proof.
  induction n as [|q IH]; intros Hb Hpos; [lia|]. cbn [rsum]. destruct (Nat.eq_dec b q) as [->|Hne].
  - assert (0 <= rsum q f); [|lra]. clear - Hpos. induction q as [|q IH]; cbn [rsum]; [lra|]. pose proof (Hpos q ltac:(lia)). assert (0 <= rsum q f) by (apply IH; intros i Hi; apply Hpos; lia). lra.
  - pose proof (Hpos q ltac:(lia)). assert (f b <= rsum q f) by (apply IH; [lia|intros i Hi; apply Hpos; lia]). lra.
Qed.

(** the total computed by the code *)
Lemma fold_total l : forall acc t,
  foldM (fun acc s => match s_yields s with
                      | Some y => if (length y =? length acc)%nat then Ok (zipwith Rplus acc y) else Err ValueError
                      | None => Err TypeError
                      end) l acc = Ok t ->
  length t = length acc /\ (forall s, In s l -> exists y, s_yields s = Some y /\ length y = length acc) /\
  forall b, (b < length acc)%nat -> nth b t 0 = nth b acc 0 + lsum (map (fun s => yield s b) l).
Proof.
  induction l as [|s l IH]; intros acc t H; cbn [foldM] in H.
  - inversion H; subst. split; [reflexivity|]. split; [intros s []|]. intros b _. cbn. ring.
  - apply bind_Ok in H as (a & Ha & H). destruct (s_yields s) as [y|] eqn:Ey; [|discriminate].
    destruct (length y =? length acc)%nat eqn:El; [|discriminate]. apply Nat.eqb_eq in El. inversion Ha; subst a; clear Ha.
    assert (Lz : length (zipwith Rplus acc y) = length acc) by (rewrite zipwith_length; lia).
    destruct (IH _ _ H) as (A & B & C). rewrite Lz in A, B, C. split; [exact A|]. split.
    + intros s' [<-|Hs']; [eauto|apply B, Hs'].
    + intros b Hb. rewrite (C b Hb). cbn [map lsum]. rewrite zipwith_seq by lia. rewrite (nth_map_lt _ _ _ 0%nat) by (rewrite seq_length; exact Hb).
      rewrite seq_nth by exact Hb. cbn [Nat.add]. unfold yield at 2. rewrite Ey. ring.
Qed.
Lemma channel_total_spec c t : channel_total c = Ok t -> length t = nbins c /\
  (forall n s, In (n, s) (ch_samples c) -> exists y, s_yields s = Some y /\ length y = nbins c) /\
  forall b, (b < nbins c)%nat -> nth b t 0 = total_yield c b.
Proof.
  unfold channel_total. intros H. destruct (fold_total _ _ _ H) as (A & B & C). rewrite repeat_length in A, B, C. split; [exact A|]. split.
  - intros n s Hs. apply B. change s with (snd (n, s)). now apply in_map.
  - intros b Hb. rewrite (C b Hb), nth_repeat. unfold total_yield, values. rewrite map_map. ring.
Qed.
Lemma existsb_seq (f : nat -> bool) n : existsb f (seq 0 n) = false <-> forall b, (b < n)%nat -> f b = false.
Proof.
  split.
  - intros H b Hb. destruct (f b) eqn:E; [|reflexivity]. rewrite <- H. symmetry. apply existsb_exists. exists b. split; [apply in_seq; lia|exact E].
  - intros H. destruct (existsb f (seq 0 n)) eqn:E; [|reflexivity]. apply existsb_exists in E as (b & Hb & E). apply in_seq in Hb. rewrite H in E by lia. discriminate.
Qed.
Lemma existsb_map' {A B} (g : A -> B) f l : existsb f (map g l) = existsb (fun x => f (g x)) l.
Proof. induction l; cbn; congruence. Qed.
Lemma list_seq (l : list R) : l = map (fun b => nth b l 0) (seq 0 (length l)).
Proof.
  induction l as [|x l IH]; [reflexivity|]. cbn [length seq map nth]. f_equal. rewrite <- seq_shift, map_map. exact IH.
Qed.
Lemma insignificant_spec thr c t n s : channel_total c = Ok t -> In (n, s) (ch_samples c) ->
  insignificant thr t s = true <-> negligible thr c s.
Proof.
  intros Ht Hs. destruct (channel_total_spec _ _ Ht) as (Lt & Hy & Hn). destruct (Hy n s Hs) as (y & Ey & Ly).
  unfold insignificant, total_significance, negligible, significance, computable. rewrite Ey.
  rewrite (zipwith_seq Rminus) by lia. rewrite existsb_map'. rewrite (zipwith_seq (fun t s => 2 * (t * ln (t / (t - s)) - s))) by lia. rewrite lsum_seq, Lt.
  assert (Yb : forall b, yield s b = nth b y 0) by (intros b; unfold yield; now rewrite Ey).
  rewrite (rsum_ext (nbins c) _ (fun b => asimov (total_yield c b) (yield s b))) by (intros b Hb; rewrite (Hn b Hb), Yb; reflexivity).
  destruct (existsb (fun x => Rleb (nth x t 0 - nth x y 0) 0) (seq 0 (nbins c))) eqn:E1.
  - split; [discriminate|]. intros (Hc & _). exfalso. assert (existsb (fun x => Rleb (nth x t 0 - nth x y 0) 0) (seq 0 (nbins c)) = false); [|congruence].
    apply existsb_seq. intros b Hb. apply Rleb_false. destruct (Hc b Hb). rewrite (Hn b Hb), <- Yb. lra.
  - pose proof (proj1 (existsb_seq _ _) E1) as E1'. rewrite (list_seq t), existsb_map', Lt.
    destruct (existsb (fun x => Rleb (nth x t 0) 0) (seq 0 (nbins c))) eqn:E2.
    + split; [discriminate|]. intros (Hc & _). exfalso. assert (existsb (fun x => Rleb (nth x t 0) 0) (seq 0 (nbins c)) = false); [|congruence].
      apply existsb_seq. intros b Hb. apply Rleb_false. destruct (Hc b Hb). rewrite (Hn b Hb). lra.
    + pose proof (proj1 (existsb_seq _ _) E2) as E2'.
      assert (Hc : forall b, (b < nbins c)%nat -> 0 < total_yield c b /\ yield s b < total_yield c b).
      { intros b Hb. specialize (E1' b Hb). specialize (E2' b Hb). apply Rleb_false in E1'. apply Rleb_false in E2'. rewrite Yb, <- (Hn b Hb). lra. }
      assert (Hp : 0 <= rsum (nbins c) (fun b => asimov (total_yield c b) (yield s b))).
      { clear - Hc. induction (nbins c) as [|k IH]; cbn [rsum]; [lra|]. destruct (Hc k ltac:(lia)). pose proof (asimov_nonneg _ _ H H0).
        assert (0 <= rsum k (fun b => asimov (total_yield c b) (yield s b))) by (apply IH; intros b Hb; apply Hc; lia). lra. }
      match goal with |- context [if Rltb ?x 0 then _ else _] => change (match (if Rltb (rsum (nbins c) (fun b => asimov (total_yield c b) (yield s b))) 0 then None else Some (sqrt (rsum (nbins c) (fun b => asimov (total_yield c b) (yield s b))))) with Some z => Rltb z thr | None => false end = true <->
          (forall b, (b < nbins c)%nat -> 0 < total_yield c b /\ yield s b < total_yield c b) /\ sqrt (rsum (nbins c) (fun b => asimov (total_yield c b) (yield s b))) < thr) end.
      rewrite (proj2 (Rltb_false _ _)) by exact Hp. rewrite Rltb_true. tauto.
Qed.

Lemma filter_length_all {A} (f : A -> bool) l : length (filter f l) = length l -> filter f l = l.
Proof.
  induction l as [|x l IH]; cbn [filter length]; [reflexivity|]. destruct (f x).
  - cbn [length]. intros H. f_equal. apply IH. lia.
  - intros H. assert (length (filter f l) <= length l)%nat by (clear; induction l as [|x l IH]; cbn; [lia|]; destruct (f x); cbn; lia). lia.
Qed.
(** what pruning does to one channel *)
Definition pruned_channel (thr : R) (c c' : Channel) : Prop :=
  ch_name c' = ch_name c /\ ch_kind c' = ch_kind c /\
  exists keep : string * Sample -> bool, ch_samples c' = filter keep (ch_samples c) /\
    forall n s, In (n, s) (ch_samples c) -> keep (n, s) = false <-> negligible thr c s.
Lemma prune_channel_spec thr c c' : prune_channel thr c = Ok c' -> pruned_channel thr c c'.
Proof.
  unfold prune_channel. intros H. apply bind_Ok in H as (t & Ht & H). inversion H; subst c'; clear H. split; [reflexivity|]. split; [reflexivity|].
  exists (fun ks => negb (insignificant thr t (snd ks))). split; [reflexivity|]. intros n s Hs. cbn [snd].
  rewrite <- (insignificant_spec thr c t n s Ht Hs). destruct (insignificant thr t s); cbn; split; congruence.
Qed.
Lemma prune_result E m I thr m' I' : object E m I -> NoDup (keys (m_channels m)) -> prune_samples E (m, I) thr = Ok (m', I') ->
  m' = with_channels m (m_channels m') /\ object E m' I' /\
  Forall2 (fun kc kc' => fst kc' = fst kc /\ pruned_channel thr (snd kc) (snd kc')) (m_channels m) (m_channels m').
Proof.
  intros Ob Hd H. unfold prune_samples in H. cbn [fst snd] in H. apply bind_Ok in H as (chs & Hchs & H). apply mapM_Forall2 in Hchs.
  assert (HF : Forall2 (fun kc kc' => fst kc' = fst kc /\ pruned_channel thr (snd kc) (snd kc')) (m_channels m) chs).
  { eapply Forall2_impl_in; [|exact Hchs]. intros [k c] [k' c'] _ Hx. cbn [fst snd] in *. apply bind_Ok in Hx as (c2 & Hc2 & Hx). inversion Hx; subst. split; [reflexivity|]. now apply prune_channel_spec. }
  destruct (forallb _ _) eqn:EA in H.
  - inversion H; subst m' I'; clear H. split; [now rewrite with_channels_same|]. split; [exact Ob|].
    assert (Ec : chs = m_channels m); [|now rewrite Ec in HF].
    clear - EA HF. induction HF as [|[k c] [k' c'] l r (H1 & H2 & H3 & keep & H4 & H5) HF IH]; [reflexivity|]. cbn [combine forallb fst snd] in EA.
    apply andb_true_iff in EA as [E1 E2]. cbn [fst snd] in *. rewrite (IH E2). f_equal. subst k'. f_equal. apply Nat.eqb_eq in E1.
    destruct c as [cn ck cs], c' as [cn' ck' cs']; cbn [ch_name ch_kind ch_samples] in *. subst cn' ck'. f_equal. rewrite H4 in *. apply filter_length_all. lia.
  - pose proof (finish_object _ _ _ _ H) as Ob'.
    unfold finish in H. apply bind_Ok in H as (it & Hit & H). inversion H; subst m' it; clear H.
    assert (Hk : keys chs = keys (m_channels m)).
    { clear - HF. induction HF as [|a b l r (H1 & _) HF IH]; [reflexivity|]. unfold keys in *; cbn [map]. now rewrite H1, IH. }
    assert (Hi : i_channels I' = chs).
    { apply (built_fixed E (with_channels m chs) I' (siv_built _ _ _ Hit)); [change (m_channels (with_channels m chs)) with chs; rewrite Hk; exact Hd|].
      intros k c n s Hc Hs. cbn in Hc. destruct (Forall2_in_right _ _ _ _ HF Hc) as ([k0 c0] & Hin0 & _ & _ & _ & keep & H4 & _). cbn [snd] in *.
      rewrite H4 in Hs. apply filter_In in Hs as [Hs _]. exact (object_done E m I Ob k0 c0 n s Hin0 Hs). }
    cbn [with_channels m_channels]. rewrite Hi in *. split; [reflexivity|]. split; [exact Ob'|exact HF].
Qed.

(** * C57 *)

(** Pruning changes nothing but the samples of the channels; in each channel the samples that are left out are exactly
    those of significance below the threshold, and the others are kept as they are, in the same order. *)
Theorem C57_prunes_exactly_the_negligible : forall E m0 m I thr m' I', finish E m0 = Ok (m, I) -> NoDup (keys (m_channels m)) ->
  prune_samples E (m, I) thr = Ok (m', I') ->
  m' = with_channels m (m_channels m') /\
  Forall2 (fun kc kc' => fst kc' = fst kc /\ pruned_channel thr (snd kc) (snd kc')) (m_channels m) (m_channels m').
Proof. intros E m0 m I thr m' I' HF Hd H. destruct (prune_result E m I thr m' I' (finish_object _ _ _ _ HF) Hd H) as (A & _ & B). split; assumption. Qed.
Print Assumptions C57_prunes_exactly_the_negligible.

(** A sample with non-negative yields that reach thr * sqrt(total) in some bin is kept. *)
Theorem C57_large_sample_kept : forall E m0 m I thr m' I' k c n s b, finish E m0 = Ok (m, I) -> NoDup (keys (m_channels m)) ->
  prune_samples E (m, I) thr = Ok (m', I') -> In (k, c) (m_channels m) -> In (n, s) (ch_samples c) ->
  (b < nbins c)%nat -> 0 <= yield s b -> thr * sqrt (total_yield c b) <= yield s b ->
  exists c', In (k, c') (m_channels m') /\ In (n, s) (ch_samples c').
Proof.
  intros E m0 m I thr m' I' k c n s b HF Hd H Hk Hs Hb H0 Hy.
  destruct (prune_result E m I thr m' I' (finish_object _ _ _ _ HF) Hd H) as (_ & _ & B).
  destruct (Forall2_in_l _ _ _ _ B Hk) as ([k' c'] & Hk' & E1 & E2 & E3 & keep & E4 & E5). cbn [fst snd] in *. subst k'. exists c'. split; [exact Hk'|].
  rewrite E4. apply filter_In. split; [exact Hs|]. destruct (keep (n, s)) eqn:Ek; [reflexivity|]. exfalso. apply (E5 n s Hs) in Ek as (Hc & Hz).
  destruct (Hc b Hb) as (Ht & Hlt). pose proof (asimov_lower (total_yield c b) (yield s b) (conj H0 Hlt)) as L.
  assert (Hsum : asimov (total_yield c b) (yield s b) <= rsum (nbins c) (fun b => asimov (total_yield c b) (yield s b))).
  { assert (Hpos : forall i, (i < nbins c)%nat -> 0 <= asimov (total_yield c i) (yield s i)) by (intros i Hi; destruct (Hc i Hi); now apply asimov_nonneg).
    exact (rsum_ge_term (nbins c) (fun i => asimov (total_yield c i) (yield s i)) b Hb Hpos). }
  assert (Hsig : yield s b / sqrt (total_yield c b) <= significance c s).
  { unfold significance. rewrite <- (sqrt_square (yield s b / sqrt (total_yield c b))).
    - apply sqrt_le_1_alt. replace (yield s b / sqrt (total_yield c b) * (yield s b / sqrt (total_yield c b))) with (yield s b * yield s b / total_yield c b).
      + lra.
      + rewrite <- (sqrt_sqrt (total_yield c b)) at 1 by lra. field. apply Rgt_not_eq, sqrt_lt_R0, Ht.
    - apply Rle_mult_inv_pos; [exact H0|apply sqrt_lt_R0, Ht]. }
  assert (Hq : 0 < sqrt (total_yield c b)) by (apply sqrt_lt_R0, Ht).
  assert (thr <= yield s b / sqrt (total_yield c b)); [|lra].
  apply (Rmult_le_reg_r (sqrt (total_yield c b))); [exact Hq|]. unfold Rdiv. rewrite Rmult_assoc, Rinv_l by lra. lra.
Qed.
Print Assumptions C57_large_sample_kept.

(** The total expected yield of every bin loses exactly the pruned samples. *)
Theorem C57_predictions : forall E m0 m I thr m' I' k c off b ps ns t t', finish E m0 = Ok (m, I) -> NoDup (keys (m_channels m)) -> names_ok m ->
  prune_samples E (m, I) thr = Ok (m', I') ->
  tables_ok E m (m_channels m) -> tables_ok E m' (m_channels m') -> length ps = length (m_pois m) ->
  tot_bin_exp m I ps ns None = Ok t -> tot_bin_exp m' I' ps ns None = Ok t' ->
  In (k, c) (m_channels m) -> dget k (i_offsets I) = Some off -> (b < nbins c)%nat ->
  exists keep, (forall n s, In (n, s) (ch_samples c) -> keep (n, s) = false <-> negligible thr c s) /\
    t' (off + b)%nat = t (off + b)%nat -
      lsum (map (fun ks => spec_yield m ps (snd ks) b * cut (m_cutoff m) (np_factor E m (snd ks) b ns)) (filter (fun x => negb (keep x)) (ch_samples c))).
Proof.
  intros E m0 m I thr m' I' k c off b ps ns t t' HF Hd HN H HT HT' HL Ht Ht' Hk Hoff Hb.
  pose proof (finish_object _ _ _ _ HF) as (HS & HC).
  destruct (prune_result E m I thr m' I' (conj HS HC) Hd H) as (Em & (HS' & HC') & B).
  pose proof (siv_built _ _ _ HS) as Bt. pose proof (siv_built _ _ _ HS') as Bt'.
  assert (Hi : exists i, nth_error (m_channels m) i = Some (k, c)) by (apply In_nth_error; exact Hk). destruct Hi as (i & Hi).
  assert (Hi' : exists c', nth_error (m_channels m') i = Some (k, c') /\ pruned_channel thr c c').
  { clear - B Hi. revert i Hi. induction B as [|[k0 c0] [k1 c1] l r (H1 & H2) B IH]; intros [|i] Hi; cbn in *; try discriminate; eauto. inversion Hi; subst. eauto. }
  destruct Hi' as (c' & Hi' & E1 & E2 & keep & E3 & E4).
  assert (Htb : total_bins (firstn i (m_channels m')) = total_bins (firstn i (m_channels m))).
  { apply total_bins_kind. clear - B. revert i. induction B as [|x y l r (_ & _ & H2 & _) B IH]; intros [|i]; cbn; constructor; auto. }
  assert (Ho : off = total_bins (firstn i (m_channels m))).
  { rewrite (bt_off _ _ _ Bt), <- HC, (off_at _ _ _ _ Hd Hi) in Hoff. congruence. }
  exists keep. split; [exact E4|]. subst off.
  rewrite HC in *. rewrite HC' in *.
  rewrite (tot_bin_at E m I ps ns t i k c b Bt HN HT HL Ht Hi Hb). rewrite <- Htb.
  assert (HN' : names_ok m') by (rewrite Em; exact HN). assert (HL' : length ps = length (m_pois m')) by (rewrite Em; exact HL).
  assert (Hb' : (b < nbins c')%nat) by (rewrite (nbins_kind c' c E2); exact Hb).
  rewrite (tot_bin_at E m' I' ps ns t' i k c' b Bt' HN' HT' HL' Ht' Hi' Hb').
  assert (Hsp : forall s, spec_yield m' ps s b * cut (m_cutoff m') (np_factor E m' s b ns) = spec_yield m ps s b * cut (m_cutoff m) (np_factor E m s b ns)) by (intros s; rewrite Em; reflexivity).
  unfold values. rewrite !map_map. rewrite E3. rewrite (map_ext _ _ (fun ks => Hsp (snd ks))). clear.
  induction (ch_samples c) as [|x l IH]; cbn [filter map lsum]; [ring|]. destruct (keep x); cbn [negb map lsum]; rewrite IH; ring.
Qed.
Print Assumptions C57_predictions.

(** the region SR of the example: 3 signal events over 10 background events.  The signal has a significance below 2 and
    is left out, the background one above 2 *)
Lemma ln_le x : 0 < x -> ln x <= x - 1.
Proof. intros H. pose proof (exp_ineq1_le (ln x)) as X. rewrite exp_ln in X by exact H. lra. Qed.
Lemma ex_sr_total : channel_total (mkChannel "SR" KSingle [("Signal", ex_signal'); ("Background", ex_bkg)]) = Ok [0 + 3 + 10].
Proof. reflexivity. Qed.
Lemma ex_signal_negligible : negligible 2 (mkChannel "SR" KSingle [("Signal", ex_signal'); ("Background", ex_bkg)]) ex_signal'.
Proof.
  split.
  - intros [|b] Hb; [|cbn in Hb; lia]. cbn. lra.
  - unfold significance. cbn [nbins ch_kind rsum].
    assert (Et : total_yield (mkChannel "SR" KSingle [("Signal", ex_signal'); ("Background", ex_bkg)]) 0 = 13) by (cbn; lra).
    assert (Es : yield ex_signal' 0 = 3) by reflexivity. rewrite Et, Es.
    pose proof (asimov_nonneg 13 3 ltac:(lra) ltac:(lra)) as P.
    assert (U : asimov 13 3 < 4).
    { unfold asimov. assert (L : ln (13 / (13 - 3)) <= 3 / 10) by (eapply Rle_trans; [apply ln_le; lra|lra]). lra. }
    rewrite <- (sqrt_square 2) by lra. apply sqrt_lt_1_alt. lra.
Qed.
Lemma ex_bkg_kept : ~ negligible 2 (mkChannel "SR" KSingle [("Signal", ex_signal'); ("Background", ex_bkg)]) ex_bkg.
Proof.
  intros (_ & H). unfold significance in H. cbn [nbins ch_kind rsum] in H. cbn -[ln sqrt asimov] in H.
  pose proof (asimov_lower (3 + (10 + 0)) 10 ltac:(lra)) as L.
  assert (2 * 2 < asimov (3 + (10 + 0)) 10) by lra.
  assert (sqrt (2 * 2) < sqrt (0 + asimov (3 + (10 + 0)) 10)) by (apply sqrt_lt_1_alt; lra). rewrite sqrt_square in H1 by lra. lra.
Qed.
Lemma ex_cr_kept : ~ negligible 2 (mkChannel "CR" (KMulti ["b1"; "b2"]) [("Control", ex_cr)]) ex_cr.
Proof. intros (H & _). destruct (H 0%nat) as (_ & X); [cbn; lia|]. cbn in X. lra. Qed.
Example C57_nonvacuous : exists m I m' I', finish ex_env ex_model = Ok (m, I) /\ NoDup (keys (m_channels m)) /\ prune_samples ex_env (m, I) 2 = Ok (m', I') /\
  m_channels m' = [("SR", mkChannel "SR" KSingle [("Background", ex_bkg)]); ("CR", mkChannel "CR" (KMulti ["b1"; "b2"]) [("Control", ex_cr)])].
Proof.
  destruct ex_built_full as (I & HI & Hc & _). exists (with_channels ex_model (i_channels I)), I.
  assert (HF : finish ex_env ex_model = Ok (with_channels ex_model (i_channels I), I)) by (unfold finish; now rewrite HI).
  rewrite Hc in *.
  assert (P1 : prune_channel 2 (mkChannel "SR" KSingle [("Signal", ex_signal'); ("Background", ex_bkg)]) = Ok (mkChannel "SR" KSingle [("Background", ex_bkg)])).
  { unfold prune_channel. rewrite ex_sr_total. cbn [bind with_samples ch_samples ch_name ch_kind filter snd].
    rewrite (proj2 (insignificant_spec 2 _ _ "Signal" ex_signal' ex_sr_total (or_introl eq_refl)) ex_signal_negligible).
    destruct (insignificant 2 [0 + 3 + 10] ex_bkg) eqn:Eb.
    - exfalso. apply ex_bkg_kept. apply (proj1 (insignificant_spec 2 _ _ "Background" ex_bkg ex_sr_total (or_intror (or_introl eq_refl)))). exact Eb.
    - reflexivity. }
  assert (P2 : prune_channel 2 (mkChannel "CR" (KMulti ["b1"; "b2"]) [("Control", ex_cr)]) = Ok (mkChannel "CR" (KMulti ["b1"; "b2"]) [("Control", ex_cr)])).
  { unfold prune_channel. assert (Et : channel_total (mkChannel "CR" (KMulti ["b1"; "b2"]) [("Control", ex_cr)]) = Ok [0 + 20; 0 + 40]) by reflexivity. rewrite Et.
    cbn [bind with_samples ch_samples ch_name ch_kind filter snd]. destruct (insignificant 2 [0 + 20; 0 + 40] ex_cr) eqn:Eb; [|reflexivity].
    exfalso. apply ex_cr_kept. apply (proj1 (insignificant_spec 2 _ _ "Control" ex_cr Et (or_introl eq_refl))). exact Eb. }
  assert (HP : exists m' I', prune_samples ex_env (with_channels ex_model ex_channels', I) 2 = Ok (m', I')).
  { unfold prune_samples, ex_channels'. cbn [fst snd with_channels m_channels mapM]. rewrite P1, P2. cbn [bind fst snd combine forallb ch_samples length Nat.eqb andb].
    unfold finish. match goal with |- context [set_internal_vars ?e ?mm] => assert (X : exists it, set_internal_vars e mm = Ok it) by (eexists; unfold ex_model; ev; reflexivity) end.
    destruct X as (it & ->). cbn [bind]. eauto. }
  destruct HP as (m' & I' & HP). exists m', I'. split; [exact HF|]. split; [repeat constructor; cbn; intuition congruence|]. split; [exact HP|].
  destruct (C57_prunes_exactly_the_negligible _ _ _ _ _ _ _ HF ltac:(repeat constructor; cbn; intuition congruence) HP) as (_ & B).
  change (m_channels (with_channels ex_model ex_channels')) with ex_channels' in B. unfold ex_channels' in B.
  inversion B as [|x [k1 c1] l r (A1 & A2 & A3 & keep & A4 & A5) B2]; subst. inversion B2 as [|x2 [k2 c2] l2 r2 (A1' & A2' & A3' & keep2 & A4' & A5') B3]; subst. inversion B3; subst.
  cbn [fst snd] in *. subst k1 k2. destruct c1 as [n1 d1 s1], c2 as [n2 d2 s2]; cbn [ch_name ch_kind ch_samples] in *. subst.
  cbn [filter]. rewrite (proj2 (A5 "Signal" ex_signal' (or_introl eq_refl)) ex_signal_negligible).
  destruct (keep ("Background", ex_bkg)) eqn:K1; [|exfalso; apply ex_bkg_kept, (A5 "Background" ex_bkg); [right; left; reflexivity|exact K1]].
  destruct (keep2 ("Control", ex_cr)) eqn:K2; [|exfalso; apply ex_cr_kept, (A5' "Control" ex_cr); [left; reflexivity|exact K2]]. reflexivity.
Qed.

(** C57: the threshold is applied sample by sample: for every threshold there is a model all of whose samples are
    pruned, and the tool then raises ValueError instead of returning a model *)
Definition twin (y : R) : Model :=
  mkModel "twin" None [] [] [] [("SR", mkChannel "SR" KSingle
    [("A", mkSample "A" (NumberNorm (Some 1)) (Some 1) (Some [y]) []); ("B", mkSample "B" (NumberNorm (Some 1)) (Some 1) (Some [y]) [])])] [] true false true false 0.
Theorem C57_all_samples_pruned_refuted : forall thr, 0 < thr -> exists y I, 0 < y /\
  finish ex_env (twin y) = Ok (twin y, I) /\ prune_samples ex_env (twin y, I) thr = Err ValueError.
Proof.
  intros thr Ht. set (y := thr * thr / 4). assert (Hy : 0 < y) by (unfold y; nra). exists y.
  assert (X : exists it, set_internal_vars ex_env (twin y) = Ok it /\ i_channels it = m_channels (twin y)) by (eexists; split; reflexivity).
  destruct X as (it & X & Xc). exists it. split; [exact Hy|]. split; [unfold finish; rewrite X; cbn [bind]; rewrite Xc; reflexivity|].
  unfold prune_samples, twin. cbn [fst snd m_channels mapM]. unfold prune_channel.
  set (c := mkChannel "SR" KSingle _).
  assert (Et : channel_total c = Ok [0 + y + y]) by reflexivity. rewrite Et. cbn [bind].
  assert (Hneg : forall n s, In (n, s) (ch_samples c) -> insignificant thr [0 + y + y] s = true).
  { intros n s Hs. apply (insignificant_spec thr c _ n s Et Hs).
    assert (Hys : yield s 0 = y) by (destruct Hs as [E|[E|[]]]; inversion E; reflexivity).
    assert (Htot : total_yield c 0 = y + (y + 0)) by reflexivity.
    split; [intros [|b] Hb; [rewrite Hys, Htot; lra|cbn in Hb; lia]|].
    unfold significance. cbn [c nbins ch_kind rsum]. rewrite Hys, Htot. unfold asimov.
    assert (L : ln ((y + (y + 0)) / (y + (y + 0) - y)) <= 1) by (replace ((y + (y + 0)) / (y + (y + 0) - y)) with 2 by (field; lra); eapply Rle_trans; [apply ln_le; lra|lra]).
    rewrite <- (sqrt_square thr) by lra. apply sqrt_lt_1_alt. split.
    - pose proof (asimov_nonneg (y + (y + 0)) y ltac:(lra) ltac:(lra)) as P. unfold asimov in P. lra.
    - assert (thr * thr = 4 * y) by (unfold y; field). nra. }
  assert (Hfil : filter (fun ks : string * Sample => negb (insignificant thr [0 + y + y] (snd ks))) (ch_samples c) = []).
  { cbn [c ch_samples filter snd]. rewrite (Hneg "A" _ (or_introl eq_refl)). rewrite (Hneg "B" _ (or_intror (or_introl eq_refl))). reflexivity. }
  rewrite Hfil. reflexivity.
Qed.
Print Assumptions C57_all_samples_pruned_refuted.
