(** Expected yields: the code's arrays agree with the specification of CoreSpec.v. *)
From Verif Require Import Py PyFacts Base Expressions ExprSpec ExprFacts ExprGrad Norms Sample SampleFacts Channels ChannelFacts Params ParamsFacts Core CoreFacts CoreSpec CoreCoefs.
Local Open Scope string_scope.
Local Open Scope list_scope.

Lemma pmodel_names m pm : pmodel_of m = Ok pm -> pm_pois pm = keys (m_pois m) /\ np_names pm = keys (m_nps m) /\
  Forall2 (fun kp q => exists x, np_nominal (snd kp) = Some x /\ q = (fst kp, x, np_variation (snd kp))) (m_nps m) (pm_nps pm).
Proof.
  unfold pmodel_of. intros H. apply bind_Ok in H as (l & Hl & H). inversion H; subst; clear H. cbn [pm_pois pm_nps].
  apply mapM_Forall2 in Hl.
  assert (G : Forall2 (fun kp q => exists x, np_nominal (snd kp) = Some x /\ q = (fst kp, x, np_variation (snd kp))) (m_nps m) l).
  { eapply Forall2_impl_in; [|exact Hl]. intros a b _ Ha. cbn in Ha. destruct (np_nominal (snd a)) as [x|]; [|discriminate]. inversion Ha. eauto. }
  split; [reflexivity|]. split; [|exact G]. unfold np_names, keys. cbn [pm_nps]. clear Hl.
  induction G as [|a b l' r Ha Hr IH]; cbn; [reflexivity|]. destruct Ha as (x & _ & ->). cbn. f_equal. exact IH.
Qed.

Lemma keys_dict_of l : forall d, NoDup (keys d ++ map fst l) -> keys (dict_of l d) = keys d ++ map fst l.
Proof.
  unfold dict_of. induction l as [|[k v] l IH]; intros d HN; cbn [fold_left map fst snd]; [now rewrite app_nil_r|].
  assert (Hk : ~ In k (keys d)).
  { cbn in HN. apply NoDup_remove_2 in HN. intros H. apply HN. apply in_or_app. now left. }
  rewrite IH; rewrite dset_app_new by exact Hk; unfold keys in *; rewrite map_app; cbn; rewrite <- app_assoc; cbn; [reflexivity|exact HN].
Qed.

Lemma base_dict m pm ps : pmodel_of m = Ok pm -> NoDup (keys (m_pois m) ++ keys (m_nps m)) -> length ps = length (m_pois m) ->
  exists d, pars_dict (mkPars ps (repeat 0 (length (pm_nps pm))) (Some pm)) true true false = Ok d /\
    keys d = keys (m_pois m) ++ keys (m_nps m) /\ forall x, env_of d x = par_env m ps x.
Proof.
  intros Hpm HN HL. destruct (pmodel_names _ _ Hpm) as (Hp & Hn & HF).
  unfold pars_dict, pars_init. cbn [pmod pois nps bind]. rewrite Hp. unfold keys at 1. rewrite map_length, HL, Nat.eqb_refl. cbn [bind].
  rewrite repeat_length, Nat.eqb_refl. cbn [bind pois nps].
  eexists; split; [reflexivity|]. unfold pars_dict_plain. rewrite Hp, Hn.
  assert (HLu : length (keys (m_nps m)) = length (unscaled_nps pm (repeat 0 (length (pm_nps pm))))).
  { unfold unscaled_nps. rewrite zipwith_length, repeat_length, <- Hn, np_names_length. lia. }
  assert (HLp : length (keys (m_pois m)) = length ps) by (unfold keys; rewrite map_length; congruence).
  assert (HK1 : keys (dict_of (combine (keys (m_pois m)) ps) []) = keys (m_pois m)).
  { rewrite keys_dict_of; cbn [keys map app]; rewrite map_fst_combine by exact HLp; [reflexivity|]. apply (NoDup_app_l _ _ HN). }
  split.
  - rewrite keys_dict_of; rewrite HK1, map_fst_combine by exact HLu; [reflexivity|exact HN].
  - intros x. unfold env_of, par_env.
    rewrite dget_dict_of by (rewrite map_fst_combine by exact HLu; apply (NoDup_app_r _ _ HN)).
    destruct (index x (keys (m_pois m))) as [i|] eqn:Ei.
    + rewrite dget_combine_None by (apply (NoDup_app_disj _ _ x HN), index_In; eauto).
      rewrite dget_dict_of by (rewrite map_fst_combine by exact HLp; apply (NoDup_app_l _ _ HN)).
      rewrite (dget_combine _ _ _ i) by (auto; apply (NoDup_app_l _ _ HN)).
      apply index_lt in Ei. rewrite (nth_error_nth' ps 0) by lia. reflexivity.
    + destruct (index x (keys (m_nps m))) as [j|] eqn:Ej.
      * rewrite (dget_combine _ _ _ j) by (auto; apply (NoDup_app_r _ _ HN)).
        pose proof (index_nth _ _ _ Ej) as Hj. unfold keys in Hj. rewrite nth_error_map in Hj.
        destruct (nth_error (m_nps m) j) as [[k p]|] eqn:Hj'; [|discriminate]. cbn in Hj. inversion Hj; subst k.
        assert (Hq : exists q, nth_error (pm_nps pm) j = Some q /\ exists v, np_nominal p = Some v /\ q = (x, v, np_variation p)).
        { clear - HF Hj'. revert j Hj'. induction HF as [|a b l r Ha Hr IH]; intros [|j] Hj'; cbn in *; try discriminate; [|apply IH; exact Hj'].
          inversion Hj'; subst. cbn in Ha. eauto. }
        destruct Hq as (q & Hq & v & Hv & ->). rewrite (nth_error_unscaled pm _ j x v (np_variation p) 0); [|apply repeat_length|exact Hq|].
        2:{ apply nth_error_repeat. apply nth_error_Some. congruence. }
        rewrite (In_dget x p) by (try apply (NoDup_app_r _ _ HN); eapply nth_error_In; exact Hj'). rewrite Hv. unfold unscaled_value. ring.
      * apply index_None in Ei, Ej. rewrite dget_combine_None by exact Ej.
        rewrite dget_dict_of by (rewrite map_fst_combine by exact HLp; apply (NoDup_app_l _ _ HN)).
        rewrite dget_combine_None by exact Ei. cbn. rewrite (proj2 (dget_None x (m_nps m)) Ej). reflexivity.
Qed.

Lemma names_ok_base m : names_ok m -> NoDup (keys (m_pois m) ++ keys (m_nps m)).
Proof. unfold names_ok. rewrite app_assoc. apply NoDup_app_l. Qed.

(** the dictionary of real values *)
Lemma real_vals_spec m pm ps rv : names_ok m -> pmodel_of m = Ok pm -> length ps = length (m_pois m) -> model_real_vals m pm ps = Ok rv ->
  (forall n v, dget n rv = Some v -> v = model_env m ps n).
Proof.
  intros HN Hpm HL H n v Hn. destruct (base_dict m pm ps Hpm (names_ok_base _ HN) HL) as (d & Hd & Hk & He).
  unfold model_real_vals in H. rewrite Hd in H. cbn [bind] in H. unfold model_env.
  rewrite (value_agrees (values (m_exprs m)) d rv H) with (n := n) (v := v); auto.
  - apply env_den_ext. exact He.
  - rewrite Hk, <- app_assoc. exact HN.
Qed.

Lemma norm_value_den n rv rho v : (forall k x, dget k rv = Some x -> x = rho k) -> norm_value n rv = Ok v -> v = norm_den n rho.
Proof.
  intros H Hn. unfold norm_value in Hn. destruct n as [[x|]|s]; cbn [norm_den] in *; [congruence|discriminate|].
  destruct (String.eqb s ""); [congruence|]. unfold dgetE in Hn. destruct (dget s rv) eqn:E; [|discriminate]. inversion Hn; subst. apply H; exact E.
Qed.

Lemma sample_yields_spec m pm ps rv sm l : names_ok m -> pmodel_of m = Ok pm -> length ps = length (m_pois m) -> model_real_vals m pm ps = Ok rv ->
  sample_yields sm rv = Ok l -> (forall y, s_yields sm = Some y -> length l = length y) /\ forall b, (b < length l)%nat -> nth b l 0 = spec_yield m ps sm b.
Proof.
  intros HN Hpm HL Hrv H. unfold sample_yields, normalization in H. apply bind_Ok in H as (w & Hw & H). apply bind_Ok in Hw as (v & Hv & Hw).
  unfold spec_yield. destruct (s_nominal_norm sm) as [nn|]; [|discriminate]. destruct (Reqb nn 0) eqn:E0; [discriminate|]. inversion Hw; subst w; clear Hw.
  destruct (s_yields sm) as [y|]; [|discriminate]. inversion H; subst l; clear H. split.
  - intros y' [= <-]. apply map_length.
  - intros b Hb. rewrite map_length in Hb. rewrite (nth_map_lt _ _ _ 0) by exact Hb. f_equal. f_equal.
    eapply norm_value_den; [|exact Hv]. apply (real_vals_spec m pm ps rv HN Hpm HL Hrv).
Qed.

Lemma nominal_row_at m I ps rv s row i k c b : names_ok m -> pmodel_of m = Ok (i_pm I) -> length ps = length (m_pois m) ->
  model_real_vals m (i_pm I) ps = Ok rv -> all_fit (i_channels I) -> nominal_row I rv s = Ok row ->
  nth_error (i_channels I) i = Some (k, c) -> (b < nbins c)%nat ->
  nth (total_bins (firstn i (i_channels I)) + b) row 0 = match sample_at c s with Some sm => spec_yield m ps sm b | None => 0 end.
Proof.
  intros HN Hpm HL Hrv HFit H Hi Hb. unfold nominal_row in H. apply bind_Ok in H as (bl & Hbl & H). inversion H; subst row; clear H.
  apply mapM_Forall2 in Hbl.
  assert (HF : Forall2 (fun kc (r : list R) => length r = nbins (snd kc)) (i_channels I) bl).
  { eapply Forall2_impl_in; [|exact Hbl]. intros [k' c'] r Hin Hr. cbn [snd] in *. destruct (sample_at c' s) as [sm|] eqn:Es.
    - destruct (sample_at_In _ _ _ Es) as (ks & Hks). destruct (HFit k' c' ks sm Hin Hks) as ((y & Hy & Ly) & _).
      destruct (sample_yields_spec m (i_pm I) ps rv sm r HN Hpm HL Hrv Hr) as (A & _). rewrite (A y Hy). exact Ly.
    - inversion Hr; subst. apply repeat_length. }
  assert (Hx : exists x, nth_error bl i = Some x /\ match sample_at c s with Some sm => sample_yields sm rv | None => Ok (repeat 0 (nbins c)) end = Ok x).
  { clear - Hbl Hi. revert i Hi. induction Hbl as [|a t l r Ha Hr IH]; intros [|i] Hi; cbn in *; try discriminate; eauto. inversion Hi; subst. cbn in Ha. eauto. }
  destruct Hx as (x & Hx & Hx2). rewrite (nth_concat_block _ _ 0 i k c x b HF Hi Hx Hb).
  destruct (sample_at c s) as [sm|] eqn:Es.
  - destruct (sample_at_In _ _ _ Es) as (ks & Hks). destruct (HFit k c ks sm (nth_error_In _ _ Hi) Hks) as ((y & Hy & Ly) & _).
    destruct (sample_yields_spec m (i_pm I) ps rv sm x HN Hpm HL Hrv Hx2) as (A & B). apply B. rewrite (A y Hy). lia.
  - inversion Hx2; subst. apply nth_repeat.
Qed.

Lemma n_exp_at m I ps ns n i k c s b : names_ok m -> pmodel_of m = Ok (i_pm I) -> length ps = length (m_pois m) ->
  all_fit (i_channels I) -> n_exp m I ps ns = Ok n -> nth_error (i_channels I) i = Some (k, c) -> (b < nbins c)%nat -> (s < i_nsamples I)%nat ->
  exists K, k_exp m I ns = Ok K /\
  n s (total_bins (firstn i (i_channels I)) + b)%nat =
    match sample_at c s with Some sm => spec_yield m ps sm b | None => 0 end * cut (m_cutoff m) (K s (total_bins (firstn i (i_channels I)) + b)%nat).
Proof.
  intros HN Hpm HL HFit H Hi Hb Hs. unfold n_exp in H. apply bind_Ok in H as (rv & Hrv & H). apply bind_Ok in H as (rows & Hrows & H).
  destruct (i_nsamples I =? 0)%nat; [discriminate|]. destruct (negb _); [discriminate|]. apply bind_Ok in H as (ck & Hck & H). inversion H; subst n; clear H.
  unfold cut_k_exp in Hck. apply bind_Ok in Hck as (K & HK & Hck). inversion Hck; subst ck; clear Hck. exists K. split; [exact HK|]. f_equal.
  pose proof (mapM_nth _ _ _ s 0%nat ([] : list R) Hrows) as Hrow. rewrite seq_length in Hrow. specialize (Hrow Hs). rewrite seq_nth in Hrow by exact Hs. cbn [Nat.add] in Hrow.
  apply (nominal_row_at m I ps rv s _ i k c b HN Hpm HL Hrv HFit Hrow Hi Hb).
Qed.

(** symmetric mode *)
Lemma sym_impact_length E c sm par r : fits c sm -> sym_impact (e_fmt E) sm par = Ok (Some r) -> length r = nbins c.
Proof.
  intros HF H. unfold sym_impact in H.
  destruct (impact (e_fmt E) sm par 1) as [[x|]|e] eqn:E1; cbn [bind] in H; try discriminate.
  - destruct (impact (e_fmt E) sm par (-1)) as [[y|]|e] eqn:E2; cbn [bind] in H.
    + pose proof (fits_impact E c sm par _ _ HF E1) as L1. pose proof (fits_impact E c sm par _ _ HF E2) as L2.
      unfold np_sub in H. rewrite L1, L2, Nat.eqb_refl in H. cbn [bind] in H. inversion H; subst. rewrite map_length, zipwith_length. lia.
    + inversion H; subst. eapply fits_impact; eauto.
    + inversion H; subst. eapply fits_impact; eauto.
  - destruct (impact (e_fmt E) sm par (-1)) as [o|e] eqn:E2; cbn [bind] in H; discriminate.
Qed.

Lemma sym_at E m I i k c s sm p par b : built E m I -> all_fit (i_channels I) ->
  nth_error (i_channels I) i = Some (k, c) -> sample_at c s = Some sm -> (b < nbins c)%nat -> nth_error (np_names (i_pm I)) p = Some par ->
  exists im, sym_impact (e_fmt E) sm par = Ok (Some im) /\ i_sym I s (total_bins (firstn i (i_channels I)) + b)%nat p = nth b im 0.
Proof.
  intros Bt HFit Hi Hs Hb Hp. pose proof (bt_coef _ _ _ Bt) as HL.
  assert (HS : (s < i_nsamples I)%nat).
  { rewrite (bt_ns _ _ _ Bt). pose proof (sample_at_lt _ _ _ Hs). pose proof (max_samples_le (i_channels I) k c (nth_error_In _ _ Hi)). lia. }
  destruct (coef_loop_sym _ _ _ _ _ _ s (total_bins (firstn i (i_channels I)) + b) p par _ _ HL (NoDup_keys_enum _ _)) as (row & Hrow & _ & Hsym).
  { apply in_list_prod_enum. auto. }
  cbn [cs_sym] in Hsym. apply sym_row_spec in Hrow as (bl & -> & HF).
  assert (HF2 : Forall2 (fun kc (r : list R) => length r = nbins (snd kc)) (i_channels I) bl).
  { eapply Forall2_impl_in; [|exact HF]. intros [k' c'] r Hin Hr. cbn [snd] in *. destruct (sample_at c' s) as [sm'|] eqn:Es.
    - destruct (sample_at_In _ _ _ Es) as (ks & Hks). eapply sym_impact_length; [eapply HFit; eauto|exact Hr].
    - subst. apply repeat_length. }
  assert (Hx : exists x, nth_error bl i = Some x /\ sym_impact (e_fmt E) sm par = Ok (Some x)).
  { clear - HF Hi Hs. revert i Hi. induction HF as [|a t l r Ha Hr IH]; intros [|i] Hi; cbn in *; try discriminate; eauto. inversion Hi; subst. cbn in Ha. rewrite Hs in Ha. eauto. }
  destruct Hx as (x & Hx & Hx2). exists x. split; [exact Hx2|]. rewrite Hsym. apply (nth_concat_block _ _ 0 i k c x b HF2 Hi Hx Hb).
Qed.

Lemma k_exp_sym E m I ns K i k c s sm b : built E m I -> m_asym m = false -> all_fit (i_channels I) ->
  nth_error (i_channels I) i = Some (k, c) -> sample_at c s = Some sm -> (b < nbins c)%nat -> k_exp m I ns = Ok K ->
  K s (total_bins (firstn i (i_channels I)) + b)%nat =
  factor (m_linear m) (rsum (length (np_names (i_pm I))) (fun p => sym_effect E (m_linear m) sm (nth p (np_names (i_pm I)) "") b (nth p ns 0))).
Proof.
  intros Bt HA HFit Hi Hs Hb HK. unfold k_exp in HK. rewrite HA in HK. unfold factor. rewrite np_names_length.
  assert (Hterm : forall p, (p < length (pm_nps (i_pm I)))%nat -> exists im, sym_impact (e_fmt E) sm (nth p (np_names (i_pm I)) "") = Ok (Some im) /\
     i_sym I s (total_bins (firstn i (i_channels I)) + b)%nat p = nth b im 0).
  { intros p Hp. apply (sym_at E m I i k c s sm p _ b Bt HFit Hi Hs Hb). apply nth_error_nth'. rewrite np_names_length. exact Hp. }
  destruct (m_linear m).
  - inversion HK; subst K. f_equal. apply rsum_ext. intros p Hp. destruct (Hterm p Hp) as (im & H1 & H2). unfold sym_effect. rewrite H1, H2. reflexivity.
  - destruct (forallb _ _) in HK; [|discriminate]. inversion HK; subst K. f_equal. apply rsum_ext. intros p Hp. destruct (Hterm p Hp) as (im & H1 & H2). unfold sym_effect. rewrite H1, H2. reflexivity.
Qed.

(** both modes *)
Lemma k_exp_at E m I ns K i k c s sm b : built E m I -> tables_ok E m (i_channels I) ->
  nth_error (i_channels I) i = Some (k, c) -> sample_at c s = Some sm -> (b < nbins c)%nat -> k_exp m I ns = Ok K ->
  K s (total_bins (firstn i (i_channels I)) + b)%nat = np_factor E m sm b ns.
Proof.
  intros Bt (HFit & HT) Hi Hs Hb HK. destruct (pmodel_names _ _ (bt_pm _ _ _ Bt)) as (_ & Hn & _). unfold np_factor.
  assert (HL : length (m_nps m) = length (np_names (i_pm I))) by (rewrite Hn; unfold keys; now rewrite map_length).
  rewrite HL. destruct (m_asym m) eqn:HA.
  - destruct (HT eq_refl) as (H1 & H2). rewrite <- Hn in H1, H2. rewrite (k_exp_asym E m I ns K i k c s sm b); auto.
    f_equal. apply rsum_ext. intros p _. rewrite Hn. reflexivity.
  - rewrite (k_exp_sym E m I ns K i k c s sm b); auto. f_equal. apply rsum_ext. intros p _. rewrite Hn. reflexivity.
Qed.

Lemma rsum_lsum_list {A} (l : list A) (f : A -> R) N : (length l <= N)%nat ->
  rsum N (fun s => match nth_error l s with Some a => f a | None => 0 end) = lsum (map f l).
Proof.
  revert N; induction l as [|a l IH]; intros N HN; cbn [map lsum].
  - apply rsum_eq0. intros [|i] _; reflexivity.
  - destruct N as [|N]; [cbn in HN; lia|]. cbn [length] in HN. rewrite rsum_shift. cbn [nth_error]. rewrite IH by lia. reflexivity.
Qed.

Lemma tot_bin_at E m I ps ns t i k c b : built E m I -> names_ok m -> tables_ok E m (i_channels I) -> length ps = length (m_pois m) ->
  tot_bin_exp m I ps ns None = Ok t -> nth_error (i_channels I) i = Some (k, c) -> (b < nbins c)%nat ->
  t (total_bins (firstn i (i_channels I)) + b)%nat =
  lsum (map (fun sm => spec_yield m ps sm b * cut (m_cutoff m) (np_factor E m sm b ns)) (values (ch_samples c))).
Proof.
  intros Bt HN HT HL H Hi Hb. unfold tot_bin_exp in H. apply bind_Ok in H as (n & Hn & H). inversion H; subst t; clear H.
  rewrite <- (rsum_lsum_list _ _ (i_nsamples I)).
  - apply rsum_ext. intros s Hs. destruct (n_exp_at m I ps ns n i k c s b HN (bt_pm _ _ _ Bt) HL (proj1 HT) Hn Hi Hb Hs) as (K & HK & ->).
    fold (sample_at c s). destruct (sample_at c s) as [sm|] eqn:Es; [|ring]. rewrite (k_exp_at E m I ns K i k c s sm b Bt HT Hi Es Hb HK). reflexivity.
  - unfold values. rewrite map_length, (bt_ns _ _ _ Bt). apply (max_samples_le _ k). eapply nth_error_In; exact Hi.
Qed.
