(** C111: compute_limits, the results of a run with toys.  Concrete cases that meet the hypotheses: LimitsRunExProps.v. *)
From Coq Require Import Permutation Sorted.
From Verif Require Import Py PyFacts RSort Base BaseFacts Expressions Norms Sample Channels Params ParamsFacts Core CoreFacts NpMin PoiMin PoiMinFacts PoiHistProps TestStat FitData FitDataFacts FitDataProps RasterProps
  ParamsProps UtilFacts Calculators CalcFacts CalcProps Scans ScansProps ModelIO ModelTools UtilTools LimitTools FileIO FileIOProps Commands Sampling SamplingFacts SamplingProps FileName FileNameProps ScanFacts ScanCommand ScanCommandProps SamplesRun SamplesRunProps
  LimitCommand LimitFacts LimitCommandProps LimitToysProps LimitsRun LimitsRunProps.
Local Open Scope string_scope.
Local Open Scope list_scope.
Local Open Scope R_scope.

(** ** Specification *)
(** twice the difference of the likelihoods of the two fits of a point *)
Definition twice_difference (p : PLR) (t : R) : Prop := exists a b, fr_nll (plr_fixed p) = Some a /\ fr_nll (plr_free p) = Some b /\ t = 2 * (a - b).
(** a point made of the fits of a hypothesis to the data and to the Asimov dataset *)
Definition from_fits (data asimov p : PLR) : Prop :=
  plr_free p = plr_free data /\ plr_fixed p = plr_fixed data /\
  (exists t, dget "tmu" (plr_ts p) = Some (VNum t) /\ twice_difference data t) /\ exists t, dget "tmu_A0" (plr_ts p) = Some (VNum t) /\ twice_difference asimov t.
(** a stored sample: the first [n] values of the file *)
Definition stored (dk : disk) (file : string) (n : nat) (a : list R) : Prop := exists fa, dget file (dk_npy dk) = Some fa /\ (n <= length fa)%nat /\ a = firstn n fa.
(** what the stored samples say about a hypothesis *)
Definition seen_stored (o : FullOpts) (dk : disk) (n : string) (hp : Hypo * PLR) (s : Seen) : Prop :=
  dget n (fst hp) = Some (se_x s) /\ dget "pv" (plr_pvs (snd hp)) = Some (VNum (se_apv s)) /\
  (exists a, stored dk (so_file (fo_out o) (fst hp) ".npy") (fo_ntoys o) a /\ se_a s = kept (shared_opts o) a) /\
  (exists b, stored dk (so_file (fo_out o ++ "_clb") (fst hp) ".npy") (fo_ntoys o) b /\ se_b s = kept (shared_opts o) b) /\
  sample_pv (se_a s) (se_apv s) (se_sb s) /\ sample_pv (se_b s) (se_apv s) (se_clb s).

(** ** hypotheses as keys *)
Lemma same_single hash n (h h' : Hypo) : keys h = [n] -> same_key hash h h' = true -> h = h'.
Proof.
  intros K E. destruct h as [|[n1 x] [|]]; try discriminate. cbn in K. injection K as ->. unfold same_key, hypo_eqb in E. apply andb_prop in E as [_ E]. apply andb_prop in E as [E1 E2]. destruct h' as [|[n2 y] [|]]; try discriminate.
  cbn in E2. destruct (String.eqb_spec n n2) as [->|]; [|discriminate]. rewrite andb_true_r in E2. apply Reqb_true in E2. congruence.
Qed.
Lemma single_distinct hash n hypos : distinct_hypos [n] hypos -> distinct hash hypos.
Proof.
  intros DH. split; [intros h Hh; rewrite (dh_keys _ _ DH h Hh); repeat constructor; auto|]. induction hypos as [|h hs IH]; constructor; [|apply IH, (dh_tail _ _ _ DH)].
  apply Forall_forall. intros x Hx. destruct (same_key hash h x) eqn:E; [|reflexivity]. apply (same_single hash n) in E; [|apply (dh_keys _ _ DH); now left]. subst x. destruct (head_differs _ _ _ _ DH Hx). reflexivity.
Qed.
Lemma In_hset {V} hash h (v : V) d h' v' : In (h', v') (hset hash h v d) -> In (h', v') d \/ (v' = v /\ (h' = h \/ same_key hash h' h = true)).
Proof.
  induction d as [|[h0 v0] d IH]; cbn [hset]; intros H.
  - destruct H as [H|[]]. injection H as <- <-. auto.
  - destruct (same_key hash h0 h) eqn:E; destruct H as [H|H].
    + injection H as <- <-. auto.
    + left. now right.
    + injection H as <- <-. left. now left.
    + destruct (IH H) as [X|X]; [left; now right|now right].
Qed.

(** ** the fits file *)
Lemma loaded_points hash C f file name m n r : load_raster hash C f file name m = Ok r -> (forall h p, In (h, p) (ra_points r) -> keys h = [n]) ->
  raster_set_pois (ra_points r) (Some m) = Ok (ra_pois r) /\
  forall h p, In (h, p) (ra_points r) -> plr_hypo p = h /\ (forall q, plr_full p = Some q -> wf q m) /\ plr_model p = Some m /\ exists t, dget "tmu" (plr_ts p) = Some (VNum t) /\ twice_difference p t.
Proof.
  intros H HK. unfold load_raster in H. apply bind_Ok in H as (sd & _ & H). apply bind_Ok in H as (v & _ & H). apply bind_Ok in H as (l & _ & H). unfold raster_load in H.
  apply bind_Ok in H as (pts & Hp & H). apply bind_Ok in H as (pois & Hs & H). apply bind_Ok in H as (pts1 & Hg & H). apply bind_Ok in H as (pts2 & Ht & H). injection H as <-. cbn [ra_points ra_pois] in *.
  assert (pts1 = pts) as ->. { unfold set_global_best_fit in Hg. destruct pts as [|? [|? ?]]; try (injection Hg as <-; reflexivity). destruct (forallb _ _); [injection Hg as <-; reflexivity|discriminate]. }
  unfold raster_compute_tmu in Ht. apply mapM_Forall2 in Ht.
  assert (T : Forall2 (fun hp hp' => fst hp' = fst hp /\ exists a b, fr_nll (plr_fixed (snd hp)) = Some a /\ fr_nll (plr_free (snd hp)) = Some b /\ snd hp' = with_ts (snd hp) (dset "tmu" (VNum (2 * (a - b))) (plr_ts (snd hp)))) pts pts2).
  { clear - Ht. induction Ht as [|[h p] [h' p'] l l' E _ IH]; constructor; [|exact IH]. cbn [fst snd] in *. apply bind_Ok in E as (q & Eq & E). injection E as <- <-. split; [reflexivity|]. unfold compute_tmu in Eq.
    destruct (fr_nll (plr_fixed p)) as [a|]; [|discriminate]. destruct (fr_nll (plr_free p)) as [b|]; [|discriminate]. injection Eq as <-. exists a, b. auto. }
  assert (K : map fst pts2 = map fst pts) by (clear - T; induction T as [|? ? ? ? [E _] _ IH]; cbn; congruence).
  split; [unfold raster_set_pois in *; rewrite K; exact Hs|].
  assert (INV : forall h p, In (h, p) pts -> (h = plr_hypo p \/ same_key hash h (plr_hypo p) = true) /\ (forall q, plr_full p = Some q -> wf q m) /\ plr_model p = Some m).
  { clear - Hp. remember (@nil (Hypo * PLR)) as d eqn:Ed. assert (HI : forall h p, In (h, p) d -> (h = plr_hypo p \/ same_key hash h (plr_hypo p) = true) /\ (forall q, plr_full p = Some q -> wf q m) /\ plr_model p = Some m) by (subst d; intros ? ? []). clear Ed. revert d Hp HI.
    induction l as [|j l IH]; intros d Hp HI; cbn [foldM] in Hp; [injection Hp as <-; exact HI|]. apply bind_Ok in Hp as (d1 & H1 & Hp). apply bind_Ok in H1 as (ob & _ & H1). apply bind_Ok in H1 as (p & Hl & H1). injection H1 as <-. apply (IH _ Hp).
    intros h p' Hin. apply In_hset in Hin as [Hin|(-> & Hin)]; [now apply HI|]. split; [tauto|]. unfold plr_load in Hl. apply bind_Ok in Hl as (jh & _ & Hl). apply bind_Ok in Hl as (hy & _ & Hl). apply bind_Ok in Hl as (full & Hfu & Hl).
    repeat (apply bind_Ok in Hl as (? & _ & Hl)). assert (X : plr_full p = full /\ plr_model p = Some m).
    { cbn [plr_ts] in Hl. destruct (dmem _ _); [injection Hl as <-; auto|]. unfold compute_tmu in Hl. cbn [plr_fixed plr_free] in Hl. repeat (match type of Hl with context [fr_nll ?z] => destruct (fr_nll z); [|discriminate] end). injection Hl as <-. auto. }
    destruct X as [-> ->]. split; [|reflexivity]. intros q ->. destruct (dget "full_hypo" ob); [|discriminate]. apply bind_Ok in Hfu as (d2 & _ & Hfu). apply bind_Ok in Hfu as (d3 & _ & Hfu). apply bind_Ok in Hfu as (q2 & Hq & Hfu). injection Hfu as ->. apply (init_dict_full _ _ _ Hq). }
  intros h p Hin. pose proof (HK h p Hin) as Kh. destruct (Forall2_in_r _ _ _ _ T Hin) as ([h0 p0] & Hin0 & E & a & b & Ea & Eb & Ep). cbn [fst snd] in *. subst h0. destruct (INV _ _ Hin0) as (A & B & M). subst p. cbn [with_ts plr_hypo plr_full plr_ts plr_model].
  split; [|split; [exact B|split; [exact M|]]].
  - destruct A as [A|A]; [now symmetry|symmetry; now apply (same_single hash n)].
  - exists (2 * (a - b)). split; [apply dget_dset_eq|]. exists a, b. auto.
Qed.
Lemma zipM_spec {A B X} (g : A -> B -> res X) : forall l k c, length l = length k -> zipM g l k = Ok c -> Forall2 (fun ab x => g (fst ab) (snd ab) = Ok x) (combine l k) c.
Proof.
  induction l as [|a l IH]; intros [|b k] c E H; try discriminate; cbn in H; [injection H as <-; constructor|]. apply bind_Ok in H as (x & Hx & H). apply bind_Ok in H as (xs & Hxs & H). injection H as <-. constructor; [exact Hx|]. apply IH; [now injection E|exact Hxs].
Qed.
Lemma fits_points hash C f file m n rd ra r D k r' : load_raster hash C f file "data" m = Ok rd -> load_raster hash C f file "asimov" m = Ok ra -> (forall h, In h (map fst (ra_points rd)) -> keys h = [n]) -> (forall h, In h (map fst (ra_points ra)) -> keys h = [n]) ->
  fits_raster hash C f file m = Ok r -> k <> CalcTMu -> fill_all_pv D k r = Ok r' ->
  Forall2 (fun da hp => fst hp = fst (fst da) /\ from_fits (snd (fst da)) (snd (snd da)) (snd hp) /\ plr_hypo (snd hp) = fst hp /\ plr_full (snd hp) = plr_full (snd (fst da)) /\ consistent D k (snd hp)) (combine (ra_points rd) (ra_points ra)) (ra_points r') /\
  length (ra_points rd) = length (ra_points ra) /\ ra_pois r' = have_compatible_pois (map fst (ra_points rd)) /\ map fst (ra_points r') = map fst (ra_points rd) /\
  (forall h p, In (h, p) (ra_points r') -> forall q, plr_full p = Some q -> wf q m).
Proof.
  intros Hd Ha KD KA H Hk Hf. unfold fits_raster in H. rewrite Hd, Ha in H. cbn [bind] in H. apply bind_Ok in H as (r1 & H1 & H).
  destruct (loaded_points _ _ _ _ _ _ n _ Hd ltac:(intros h p Hin; apply KD, (in_map fst _ _ Hin))) as (_ & PD). destruct (loaded_points _ _ _ _ _ _ n _ Ha ltac:(intros h p Hin; apply KA, (in_map fst _ _ Hin))) as (_ & PA).
  unfold raster_set_asimov in H1. destruct (length (ra_points rd) =? length (ra_points ra))%nat eqn:El; [|discriminate]. apply Nat.eqb_eq in El. apply bind_Ok in H1 as (pts & Hz & H1). injection H1 as <-. cbn [ra_points] in H.
  apply zipM_spec in Hz; [|exact El]. pose proof H as Hnew. destruct (raster_points _ _ _ _ H) as [T2 _]. pose proof (fill_all_points _ _ _ _ Hf) as T3.
  pose proof (Forall2_compose _ _ _ _ _ (Forall2_compose _ _ _ _ _ Hz T2) T3) as T.
  assert (T' : Forall2 (fun da hp => fst hp = fst (fst da) /\ from_fits (snd (fst da)) (snd (snd da)) (snd hp) /\ plr_hypo (snd hp) = fst hp /\ plr_full (snd hp) = plr_full (snd (fst da)) /\ consistent D k (snd hp)) (combine (ra_points rd) (ra_points ra)) (ra_points r')).
  { eapply Forall2_impl_in; [|exact T]. intros [[hd pd] [ha pa]] [h p] Hin ([h2 p2] & ([h1 p1] & E1 & (E2 & a & b & Ea & Eb & Ep)) & (E3 & Efill)). cbn [fst snd] in *.
    apply bind_Ok in E1 as (q & Eq & E1). injection E1 as <- <-. subst h2 h. unfold plr_set_asimov in Eq. destruct (PA ha pa (in_combine_r _ _ _ _ Hin)) as (_ & _ & _ & ta & Ta & Ta'). destruct (PD hd pd (in_combine_l _ _ _ _ Hin)) as (HP & _ & _ & _).
    unfold dgetE in Eq. rewrite Ta in Eq. cbn [bind] in Eq. injection Eq as <-. cbn [plr_fixed plr_free plr_ts] in *. subst p2. destruct (fill_pv_consistent _ _ _ _ Hk Efill) as (C0 & C1 & C2 & C3 & C4 & C5). cbn [with_ts plr_ts plr_hypo plr_free plr_fixed] in C1, C2, C3, C4, C5.
    split; [reflexivity|]. split; [|split; [congruence|split; [|exact C0]]].
    - split; [exact C4|]. split; [exact C5|]. split.
      + exists (2 * (a - b)). rewrite C1. split; [apply dget_dset_eq|exists a, b; auto].
      + exists ta. rewrite C2. rewrite dget_dset_neq by discriminate. split; [apply dget_dset_eq|exact Ta'].
    - clear - Efill Hk. destruct k; [contradiction| |]; cbn [fill_pv] in Efill; repeat (apply bind_Ok in Efill as (? & _ & Efill)); destruct x4 as [[[? ?] ?] ?]; injection Efill as <-; reflexivity. }
  assert (KK : map fst (ra_points r') = map fst (ra_points rd)).
  { assert (X : map fst (ra_points r') = map (fun da => fst (fst da)) (combine (ra_points rd) (ra_points ra))) by (clear - T'; induction T' as [|? ? ? ? [E _] _ IH]; cbn; congruence). rewrite X, <- (map_map fst fst). f_equal. apply map_fst_combine, El. }
  split; [exact T'|]. split; [exact El|]. split; [|split; [exact KK|]].
  - unfold raster_new in Hnew. apply bind_Ok in Hnew as (q1 & _ & Hnew). apply bind_Ok in Hnew as (q2 & _ & Hnew). apply bind_Ok in Hnew as (ps & Hps & Hnew). injection Hnew as <-. apply set_pois_incl in Hps. unfold fill_all_pv in Hf. apply bind_Ok in Hf as (l & _ & Hf). injection Hf as <-. cbn [ra_pois ra_points] in *. rewrite Hps. f_equal. rewrite <- KK.
    clear - T3. induction T3 as [|? ? ? ? [E _] _ IH]; cbn; congruence.
  - intros h p Hin q Eq. destruct (Forall2_in_r _ _ _ _ T' Hin) as ([[hd pd] [ha pa]] & Hin0 & (_ & _ & _ & Ef & _)). cbn [fst snd] in *. rewrite Ef in Eq. apply (PD hd pd (in_combine_l _ _ _ _ Hin0)), Eq.
Qed.

(** ** the raster of the linear model *)
Lemma full_hypos_wf hash r m : (forall h p, In (h, p) (ra_points r) -> forall q, plr_full p = Some q -> wf q m) -> forall h q, In (h, q) (full_hypos_of hash r) -> wf q m.
Proof.
  unfold full_hypos_of. intros HW. assert (HI : forall h q, In (h, q) (@nil (Hypo * Params)) -> wf q m) by (intros ? ? []). revert HI HW. generalize (@nil (Hypo * Params)) as d. generalize (ra_points r) as l. clear r. induction l as [|[h p] l IH]; intros d HI HW h' q Hin; cbn [fold_left] in Hin; [now apply (HI h')|].
  eapply IH; [| |exact Hin]; [|intros; eapply HW; [right|]; eassumption]. intros h2 q2 Hin2. cbn [fst snd] in Hin2. destruct (plr_full p) as [q0|] eqn:Ef; [|now apply (HI h2)]. apply In_hset in Hin2 as [X|(-> & _)]; [now apply (HI h2)|]. eapply HW; [now left|exact Ef].
Qed.
Lemma fast_points L m it data s k r fast s' n hypos : k <> CalcTMu -> fits_evaluate L m it -> map fst (ra_points r) = hypos -> distinct_hypos [n] hypos -> (forall h p, In (h, p) (ra_points r) -> forall q, plr_full p = Some q -> wf q (i_pm it)) ->
  recompute_raster (sl_hash (ll_scan L)) (sl_dist (ll_scan L)) k (ll_solver L) m it (sl_fit (ll_scan L) m it) data s r = Ok (fast, s') ->
  map fst (ra_points fast) = hypos /\ ra_pois fast = have_compatible_pois hypos /\
  forall h p, In (h, p) (ra_points fast) -> plr_hypo p = h /\ consistent (sl_dist (ll_scan L)) k p /\ exists t, dget "tmu" (plr_ts p) = Some (VNum t) /\ twice_difference p t.
Proof.
  intros Hk HE HM DH HW H. unfold recompute_raster in H. rewrite HM in H. pose proof (C77_pvalues_consistent _ _ _ _ _ _ _ _ _ _ _ _ _ Hk H) as HC.
  destruct (fast_results_ok _ _ _ _ _ _ _ _ _ _ _ _ _ Hk HE (single_distinct _ _ _ DH) ltac:(intros h q _ Hq; apply hget_In in Hq as [h' Hin]; eapply full_hypos_wf; eassumption) H) as (A & _ & B & P).
  split; [exact A|]. split; [rewrite <- A; now apply set_pois_incl in B|]. intros h p Hin. destruct (HC h p Hin) as (Q & a & b & Ea & Eb & Et). split; [apply (P h p Hin)|]. split; [exact Q|]. exists (2 * (a - b)). split; [exact Et|]. exists a, b. auto.
Qed.
Lemma consistent_curves D k r n : (forall h p, In (h, p) (ra_points r) -> plr_hypo p = h /\ consistent D k p) -> (forall h, In h (map fst (ra_points r)) -> keys h = [n]) -> exists psb ps, curve r n "pv" psb /\ curve r n "cls" ps.
Proof.
  intros HP HK. assert (X : forall h p, In (h, p) (ra_points r) -> (exists v, dget n h = Some v) /\ (exists y, dget "pv" (plr_pvs p) = Some (VNum y)) /\ exists y, dget "cls" (plr_pvs p) = Some (VNum y)).
  { intros h p Hin. destruct (HP h p Hin) as (_ & (n0 & h0 & t & b & a & q & pv & cls & clb & fp & _ & _ & _ & _ & _ & _ & _ & _ & E1 & E2 & _)). split; [|eauto]. specialize (HK h (in_map fst _ _ Hin)). destruct h as [|[n1 x] [|]]; try discriminate. cbn in HK. injection HK as ->. exists x. cbn. now rewrite String.eqb_refl. }
  destruct (raster_curve r n "pv") as [psb H1]; [intros h p Hin; destruct (X h p Hin) as (A & B & _); auto|]. destruct (raster_curve r n "cls") as [ps H2]; [intros h p Hin; destruct (X h p Hin) as (A & _ & B); auto|]. eauto.
Qed.
Lemma compatible_single n hypos : (forall h : Hypo, In h hypos -> keys h = [n]) -> have_compatible_pois hypos <> [] -> have_compatible_pois hypos = [n].
Proof.
  intros HK. unfold have_compatible_pois. destruct hypos as [|h0 [|h1 hs]]; try congruence. destruct (existsb _ _); [congruence|]. intros _. apply HK. now left.
Qed.
(** the samplers *)
Lemma full_samplers_hypos dataset m : forall pts gens fasts sl, length gens = length pts -> length fasts = length pts -> (forall h p, In (h, p) pts -> plr_hypo p = h) -> mapM (full_samplers dataset m) (combine (combine (map snd pts) gens) fasts) = Ok sl ->
  map sp_hypo (map fst sl) = map fst pts /\ map sp_hypo (map snd sl) = map fst pts.
Proof.
  induction pts as [|[h p] pts IH]; intros [|g gens] [|q fasts] sl E1 E2 HP H; try discriminate; cbn [map combine mapM fst snd] in H; [injection H as <-; split; reflexivity|].
  apply bind_Ok in H as (ss & Hs & H). apply bind_Ok in H as (sl' & Hm & H). injection H as <-. destruct (IH gens fasts sl' ltac:(now injection E1) ltac:(now injection E2) ltac:(intros; apply HP; now right) Hm) as [A B]. unfold full_samplers in Hs. repeat (apply bind_Ok in Hs as (? & _ & Hs)). injection Hs as <-.
  cbn [map fst snd sp_hypo full_sampler]. rewrite A, B, (HP h p (or_introl eq_refl)). split; reflexivity.
Qed.
(** a stored sample is found *)
Lemma produced_stored hash root ntoys brk d d' dists h s : produced hash root ntoys true d d' dists (h, s) -> file_ok root ntoys brk d (h, s) -> fails ntoys s -> exists a, hget hash h dists = Some a /\ stored d (so_file root h ".npy") ntoys a.
Proof.
  unfold produced, file_ok. cbn [fst snd]. intros P F [e Ee]. destruct (dget (so_file root h ".npy") (dk_npy d)) as [fa|] eqn:Ef.
  - destruct P as [P _]. exists (firstn ntoys fa). split; [exact P|]. exists fa. auto.
  - destruct F as (_ & a & Ha). congruence.
Qed.
Lemma gen_pars_length r gens : gen_pars r = Ok gens -> length gens = length (ra_points r).
Proof. unfold gen_pars. intros H. apply mapM_Forall2 in H. symmetry. eapply Forall2_length, H. Qed.
Lemma fill_all_length D k r r' : fill_all_pv D k r = Ok r' -> length (ra_points r') = length (ra_points r).
Proof. intros H. apply fill_all_points in H. symmetry. eapply Forall2_length, H. Qed.
Lemma full_stat_spec r st k : full_stat r st = Ok k -> ((st = "q~mu" /\ k = CalcQMuTilda) \/ (st = "q_mu" /\ k = CalcQMu)) /\ k <> CalcTMu.
Proof.
  unfold full_stat. destruct (String.eqb_spec st "q~mu") as [E|_]; [|destruct (String.eqb_spec st "q_mu") as [E|_]; [|discriminate]]; rewrite ?E; destruct (1 <? length (ra_pois r))%nat; try discriminate; intros [= <-]; (split; [auto|discriminate]).
Qed.
(** curves of p-values that the samples do not change *)
Lemma on_points_other hash c r r1 n key l : key <> "sampling_pv" -> key <> "sampling_clb" -> key <> "sampling_cls" -> on_points (sampling_point hash c) r = Ok r1 -> vcurve r n key l -> vcurve r1 n key l.
Proof.
  intros N1 N2 N3 H. unfold on_points in H. apply bind_Ok in H as (pts & Hm & H). injection H as <-. unfold vcurve. cbn [ra_points]. apply mapM_Forall2 in Hm. revert l. generalize dependent (ra_points r). intros pts0 Hm. induction Hm as [|[h p] [h' p'] l0 l1 E _ IH]; intros l HC; inversion HC as [|? ? ? ? [A B] HC']; subst; constructor; [|now apply IH].
  cbn [fst snd] in *. apply bind_Ok in E as (q & Hq & E). injection E as <- <-. unfold sampling_point in Hq. repeat (apply bind_Ok in Hq as (? & _ & Hq)). injection Hq as <-. cbn [with_pvs plr_pvs]. rewrite !dget_dset_neq by assumption. auto.
Qed.
Lemma curve_vcurve r n key l : curve r n key l -> vcurve r n key (nums l).
Proof. unfold curve, vcurve, nums. intros H. induction H as [|hp xy pts l A _ IH]; constructor; [exact A|exact IH]. Qed.

(** A successful run with toys writes no sample: for every hypothesis of the fits file there were two sample files, with enough values.  The test statistics are those of the fits in the file; the asymptotic p-values follow from
    them.  CLs+b and CLb are the mid p-values of the asymptotic p-value in the first values of the sample files, up to the cut of --truncate-dist.  The limits are where the interpolations cross 5%; the _fast limits are those of the
    raster recomputed with the linear model, for the same hypotheses. *)
Theorem C111_results : forall L E C w pf dataset o f dk ops dk' m it n0 p0 rest n rd ra hypos, faithful C ->
  full_model E C o f = Ok (m, it) -> m_pois m = (n0, p0) :: rest -> load_raster (sl_hash (ll_scan L)) C f (fo_fits o) "data" (i_pm it) = Ok rd -> load_raster (sl_hash (ll_scan L)) C f (fo_fits o) "asimov" (i_pm it) = Ok ra ->
  map fst (ra_points rd) = hypos -> distinct_hypos [n] hypos -> (forall h, In h (map fst (ra_points ra)) -> keys h = [n]) -> fits_evaluate L m it -> (forall i j, ll_dec L i = ll_dec L j -> i = j) -> (0 < fo_ntoys o)%nat -> stored_sorted dk ->
  full_run L E C w pf dataset o f dk = (ops, dk', None) ->
  dk' = dk /\ length (ra_points rd) = length (ra_points ra) /\
  exists k r fast psb ps fsb fs samples lines, let S := sl_spline (ll_scan L) in let D := sl_dist (ll_scan L) in
    asked (shared_opts o) k /\
    Forall2 (fun da hp => fst hp = fst (fst da) /\ from_fits (snd (fst da)) (snd (snd da)) (snd hp) /\ plr_hypo (snd hp) = fst hp /\ consistent D k (snd hp)) (combine (ra_points rd) (ra_points ra)) (ra_points r) /\ curve r n "pv" psb /\ curve r n "cls" ps /\
    map fst (ra_points fast) = hypos /\ (forall h pt, In (h, pt) (ra_points fast) -> plr_hypo pt = h /\ consistent D k pt /\ exists t, dget "tmu" (plr_ts pt) = Some (VNum t) /\ twice_difference pt t) /\ curve fast n "pv" fsb /\ curve fast n "cls" fs /\
    Forall2 (seen_stored o dk n) (ra_points r) samples /\
    map fst lines = orders (shared_opts o) /\ (forall i l, In (i, l) lines -> Forall2 (fun s xy => fst xy = se_x s /\ expected_cls (ll_cdf L (IZR i)) s (snd xy)) samples l) /\
    load_file C (run_ops ops f) (fo_out o ++ "_results.json") (Some "json") =
      Ok ([("cl", JFlt (fo_cl o)); ("poi_name", opt_str (poi_name p0)); ("poi_unit", opt_str (poi_unit p0))]
          ++ sampling_entries S "limit_sampling_CLs" (cls_line samples) ++ [("limit_asymptotics_CLs", in_file (limit95 S ps)); ("limit_asymptotics_CLs_fast", in_file (limit95 S fs))]
          ++ sampling_entries S "limit_sampling_CLsb" (pv_line samples) ++ [("limit_asymptotics_CLsb", in_file (limit95 S psb)); ("limit_asymptotics_CLsb_fast", in_file (limit95 S fsb))]
          ++ map (fun il => band_entry L (fst il) (snd il)) lines).
Proof.
  intros L E C w pf dataset o f dk ops dk' m it n0 p0 rest n rd ra hypos HC Hm Hp Hrd Hra HH DH KA HE Hdec Hn HS H.
  destruct (full_run_cases _ _ _ _ _ _ _ _ _ _ _ _ H) as [(_ & _ & X)|(mi & gens & r & fast & sl & c & HR & _ & Hsl & Hc & _ & [(_ & X)|(-> & c1 & lf & lq & sampling & bands & d & Hg & Hlim & Hres & Hsave)])]; [destruct (X Hn eq_refl)|congruence|].
  split; [reflexivity|]. unfold full_rasters in HR. rewrite Hm in HR. cbn [bind fst snd] in HR. apply bind_Ok in HR as (r0 & Hr0 & HR). apply bind_Ok in HR as (gens' & Hgen & HR). apply bind_Ok in HR as (u1 & _ & HR). apply bind_Ok in HR as (data & Hdata & HR). apply bind_Ok in HR as (bounds & _ & HR).
  apply bind_Ok in HR as (k & Hk & HR). apply bind_Ok in HR as (s & Hs & HR). apply bind_Ok in HR as (r1 & Hfill & HR). apply bind_Ok in HR as ([fast' s'] & Hfast & HR). cbn [fst] in HR. injection HR as <- <- <- <-. cbn [fst snd] in *.
  destruct (full_stat_spec _ _ _ Hk) as (Hask & Hkn). set (hash := sl_hash (ll_scan L)) in *.
  assert (KD : forall h, In h (map fst (ra_points rd)) -> keys h = [n]) by (intros h Hh; rewrite HH in Hh; apply (dh_keys _ _ DH h Hh)).
  destruct (fits_points _ _ _ _ _ n _ _ _ _ _ _ Hrd Hra KD KA Hr0 Hkn Hfill) as (FP & El & Rp & K1 & HW). rewrite HH in Rp, K1.
  destruct (fast_points _ _ _ _ _ _ _ _ _ n hypos Hkn HE K1 DH HW Hfast) as (F1 & F2 & F3).
  split; [exact El|].
  assert (K4 : forall h pt, In (h, pt) (ra_points r1) -> plr_hypo pt = h /\ consistent (sl_dist (ll_scan L)) k pt) by (intros h pt Hin; destruct (Forall2_in_r _ _ _ _ FP Hin) as (da & _ & (_ & _ & A & _ & B)); auto).
  assert (KR : forall h, In h (map fst (ra_points r1)) -> keys h = [n]) by (intros h Hh; rewrite K1 in Hh; apply (dh_keys _ _ DH h Hh)). assert (KF : forall h, In h (map fst (ra_points fast')) -> keys h = [n]) by (intros h Hh; rewrite F1 in Hh; apply (dh_keys _ _ DH h Hh)).
  destruct (consistent_curves _ _ _ _ K4 KR) as (psb & ps & C1 & C2). destruct (consistent_curves _ _ fast' n (fun h p Hin => let X := F3 h p Hin in conj (proj1 X) (proj1 (proj2 X))) KF) as (fsb & fs & C3 & C4).
  unfold full_limits in Hlim. fold hash in Hlim. apply bind_Ok in Hlim as (c2 & Ht & Hlim). apply bind_Ok in Hlim as (u2 & Hpo & Hlim). apply bind_Ok in Hlim as ([[r2 [lsb ls]] lb] & Hlim & Hasy). apply bind_Ok in Hasy as ([asb as_] & Ha & Hasy). apply bind_Ok in Hasy as ([qsb qs] & Hq & Hasy). injection Hasy as <- <- <- <-.
  assert (Rn : ra_pois r1 = [n]) by (rewrite Rp; apply compatible_single; [apply (dh_keys _ _ DH)|rewrite <- Rp; destruct (ra_pois r1); [discriminate|discriminate]]).
  assert (Fn : ra_pois fast' = [n]) by (rewrite F2; congruence).
  (* the samplers *)
  destruct (full_samplers_hypos (dataset (m, it)) m (ra_points r1) gens' (map snd (ra_points fast')) sl) as (SH1 & SH2); [rewrite (gen_pars_length _ _ Hgen); symmetry; eapply fill_all_length, Hfill|rewrite map_length, <- (map_length fst), F1, <- K1, map_length; reflexivity|intros h p Hin; apply (K4 h p Hin)|exact Hsl|].
  apply (fun X => eq_trans X K1) in SH1. apply (fun X => eq_trans X K1) in SH2.
  assert (SK : forall s0, In s0 (map fst sl) \/ In s0 (map snd sl) -> keys (sp_hypo s0) = [n]) by (intros s0 [Hin|Hin]; apply (dh_keys _ _ DH); [rewrite <- SH1|rewrite <- SH2]; now apply in_map).
  destruct (co_generate_keys _ [n] _ _ _ _ _ _ _ _ _ Hc SK Hg) as (G1 & G2 & G3 & G4). rewrite SH1 in G1. rewrite SH2 in G2.
  assert (DH1 : distinct_hypos [n] (so_hypos (co_clsb c1))) by (rewrite G1; exact DH). assert (G21 : so_hypos (co_cl_b c1) = so_hypos (co_clsb c1)) by congruence.
  destruct (truncated_inv _ [n] _ _ _ DH1 G21 G3 G4 Ht) as (T1 & T2 & T3). rewrite G1 in T1, T2, T3.
  destruct (sampling_limits_inv _ _ _ _ _ _ _ _ Hlim) as (r3 & usb & us & HR1 & HB & U1 & U2 & U3 & U4 & U5).
  destruct (on_points_looked hash c2 n r1 r3) as (Rp3 & samples & LK & V1 & V2); [intros h pt Hin; split; [apply (K4 h pt Hin)|]; pose proof (KR h (in_map fst _ _ Hin)) as Kh; destruct h as [|[n1 x] [|]]; try discriminate; cbn in Kh; injection Kh as ->; exists x; cbn; now rewrite String.eqb_refl|exact HR1|].
  assert (HG : forall h, In h (map sp_hypo (map fst sl)) -> hget hash h (so_dists (co_clsb c1)) <> None /\ hget hash h (so_dists (co_cl_b c1)) <> None).
  { intros h Hin. rewrite SH1 in Hin. destruct (T3 h Hin) as (X1 & X2). rewrite <- K1 in Hin. apply in_map_iff in Hin as (hp & <- & Hin). destruct (Forall2_In_l _ _ _ _ LK Hin) as (sn & _ & (_ & _ & A & B & _)).
    rewrite A in X1. rewrite B in X2. split; intros Z; rewrite Z in *; discriminate. }
  assert (DHs : distinct_hypos [n] (map sp_hypo (map fst sl))) by (rewrite SH1; exact DH). assert (SH12 : map sp_hypo (map snd sl) = map sp_hypo (map fst sl)) by congruence.
  destruct (co_generate_inv _ [n] _ _ _ _ _ _ _ _ _ Hc Hn DHs SH12 Hg HG) as (_ & _ & _ & _ & P1 & P2 & _ & Q1 & Q2).
  pose proof (full_samplers_fail _ _ _ Hn _ _ Hsl) as FL.
  assert (SEEN : forall hp sn, In hp (ra_points r1) -> looked hash c2 n hp sn -> seen_stored o dk n hp sn /\ StronglySorted Rle (se_a sn) /\ StronglySorted Rle (se_b sn)).
  { intros hp sn Hin (A1 & A2 & A3 & A4 & A5 & A6). assert (Hhy : In (fst hp) hypos) by (rewrite <- K1; now apply in_map). destruct (T3 _ Hhy) as (X1 & X2). rewrite A3 in X1. rewrite A4 in X2.
    assert (Y1 : exists s0, In s0 (map fst sl) /\ sp_hypo s0 = fst hp) by (rewrite <- SH1 in Hhy; apply in_map_iff in Hhy as (s0 & ? & ?); eauto). assert (Y2 : exists s0, In s0 (map snd sl) /\ sp_hypo s0 = fst hp) by (rewrite <- SH2 in Hhy; apply in_map_iff in Hhy as (s0 & ? & ?); eauto).
    destruct Y1 as (s1 & In1 & E1). destruct Y2 as (s2 & In2 & E2). pose proof (P1 _ In1) as PA. pose proof (Q1 _ In1) as QA. pose proof (P2 _ In2) as PB. pose proof (Q2 _ In2) as QB. rewrite E1 in PA, QA. rewrite E2 in PB, QB.
    destruct (produced_stored _ _ _ _ _ _ _ _ _ PA QA (FL _ (or_introl In1))) as (a & Ha1 & Sa). destruct (produced_stored _ _ _ _ _ _ _ _ _ PB QB (FL _ (or_intror In2))) as (b & Hb1 & Sb).
    rewrite Ha1 in X1. cbn in X1. injection X1 as X1. rewrite Hb1 in X2. cbn in X2. injection X2 as X2.
    assert (SSa : StronglySorted Rle (se_a sn)) by (rewrite X1; apply kept_sorted; destruct Sa as (fa & Efa & _ & ->); apply firstn_sorted, (HS _ _ Efa)). assert (SSb : StronglySorted Rle (se_b sn)) by (rewrite X2; apply kept_sorted; destruct Sb as (fb & Efb & _ & ->); apply firstn_sorted, (HS _ _ Efb)).
    split; [|split; assumption]. split; [exact A1|]. split; [exact A2|]. split; [exists a; auto|]. split; [exists b; auto|]. split; apply pv_err_sorted; assumption. }
  assert (SORT : forall sn, In sn samples -> StronglySorted Rle (se_a sn) /\ StronglySorted Rle (se_b sn)).
  { intros sn Hsn. destruct (Forall2_In_r _ _ _ _ LK Hsn) as (hp & Hin & Hlk). apply (SEEN hp sn Hin Hlk). }
  assert (SN : Forall2 (seen_stored o dk n) (ra_points r1) samples).
  { clear - LK SEEN. remember (ra_points r1) as pts eqn:Ep. assert (HI : forall hp sn, In hp pts -> looked hash c2 n hp sn -> seen_stored o dk n hp sn) by (intros hp sn Hin Hl; apply (SEEN hp sn Hin Hl)). clear SEEN Ep.
    induction LK as [|hp sn pts samples Hl _ IH]; constructor; [apply HI; [now left|exact Hl]|apply IH; intros; apply HI; [now right|assumption]]. }
  assert (O1 : vcurve r3 n "pv" (nums psb)) by (eapply on_points_other; [discriminate..|exact HR1|now apply curve_vcurve]). assert (O2 : vcurve r3 n "cls" (nums ps)) by (eapply on_points_other; [discriminate..|exact HR1|now apply curve_vcurve]).
  assert (LN : exists lines, map fst lines = orders (shared_opts o) /\ (forall i l, In (i, l) lines -> Forall2 (fun s xy => fst xy = se_x s /\ expected_cls (ll_cdf L (IZR i)) s (snd xy)) samples l) /\
      (forall i l, In (i, l) lines -> curve r2 n (band_pv (ll_dec L) i) l) /\ ra_pois r2 = ra_pois r1 /\ vcurve r2 n "sampling_pv" (pairs (pv_line samples)) /\ vcurve r2 n "sampling_cls" (pairs (cls_line samples)) /\ vcurve r2 n "pv" (nums psb) /\ vcurve r2 n "cls" (nums ps)).
  { destruct (bands_of (shared_opts o)) as [kb|] eqn:Ek.
    - destruct HB as (bands & Hbands & ->). assert (DH2 : distinct_hypos [n] (so_hypos (co_clsb c2))) by (rewrite T1; exact DH). eexists.
      destruct (bands_lines L (shared_opts o) [n] c2 r3 n samples bands kb Hdec DH2 Hbands Ek (ra_points r1) LK ltac:(rewrite T1; exact K1) SORT V1) as (Z1 & Z2 & Z3). split; [exact Z1|]. split; [exact Z2|]. split; [exact Z3|].
      split; [rewrite fold_fill_pois; exact Rp3|]. split; [|split; [|split]]; (apply fill_bands_other; [intros b _; unfold band_pv; discriminate|assumption]).
    - subst r2. exists []. rewrite orders_bands, Ek. split; [reflexivity|]. split; [intros ? ? []|]. split; [intros ? ? []|]. auto 10. }
  destruct LN as (lines & N1 & N2 & N3 & N4 & N5 & N6 & N7 & N8). assert (Hn2 : hd_error (ra_pois r2) = Some n) by (rewrite N4, Rn; reflexivity). assert (Hnf : hd_error (ra_pois fast') = Some n) by (rewrite Fn; reflexivity).
  destruct (asymptotic_spec _ _ _ _ _ _ _ _ Ha Hn2 (vcurve_nums _ _ _ _ N7) (vcurve_nums _ _ _ _ N8)) as [-> ->]. destruct (asymptotic_spec _ _ _ _ _ _ _ _ Hq Hnf C3 C4) as [-> ->].
  exists k, r1, fast', psb, ps, fsb, fs, samples, lines. cbn zeta. split; [exact Hask|].
  split; [eapply Forall2_impl_in; [|exact FP]; intros da hp _ (A1 & A2 & A3 & _ & A5); auto|]. split; [exact C1|]. split; [exact C2|]. split; [exact F1|]. split; [exact F3|]. split; [exact C3|]. split; [exact C4|]. split; [exact SN|]. split; [exact N1|]. split; [exact N2|].
  etransitivity; [apply (C89_saved_file_is_loaded _ _ _ _ _ _ f HC Hsave)|]. unfold full_results in Hres. rewrite Hp in Hres. cbn [fst snd] in Hres.
  rewrite (ul_value_err _ _ _ _ _ _ _ "limit_sampling_CLs" U3 _ U4 Hn2 N6), (ul_value_err _ _ _ _ _ _ _ "limit_sampling_CLsb" U1 _ U2 Hn2 N5) in Hres.
  assert (BL : map (fun bl => (("limit_sampling_CLs_expected_band_" ++ signed (ll_dec L) (fst bl))%string, limit_value (snd bl))) lb = map (fun il => band_entry L (fst il) (snd il)) lines).
  { rewrite <- N1 in U5. clear - U5 N3 Hn2. remember (map fst lines) as os eqn:Eo. revert lines Eo N3. induction U5 as [|b bl os lb (u & v & Hu & Hv & ->) _ IH]; intros [|[i li] lines] Eo N3; try discriminate; [reflexivity|]. cbn in Eo. injection Eo as -> Eo. cbn [map fst snd].
    f_equal; [|apply IH; [exact Eo|intros; apply N3; now right]]. unfold band_entry. rewrite (ul_value _ _ _ _ _ _ _ _ Hu Hv Hn2 (N3 i li (or_introl eq_refl))). reflexivity. }
  rewrite BL in Hres. injection Hres as <-. reflexivity.
Qed.
Print Assumptions C111_results.

(** intended: samples that are not stored yet are generated.  Refuted: without one of the sample files of the hypotheses, a run with toys does not succeed. *)
Theorem C111_missing_sample_refuted : forall L E C w pf dataset o f dk ops dk' e m it n0 p0 rest n rd ra hypos h, faithful C ->
  full_model E C o f = Ok (m, it) -> m_pois m = (n0, p0) :: rest -> load_raster (sl_hash (ll_scan L)) C f (fo_fits o) "data" (i_pm it) = Ok rd -> load_raster (sl_hash (ll_scan L)) C f (fo_fits o) "asimov" (i_pm it) = Ok ra ->
  map fst (ra_points rd) = hypos -> distinct_hypos [n] hypos -> (forall h, In h (map fst (ra_points ra)) -> keys h = [n]) -> fits_evaluate L m it -> (forall i j, ll_dec L i = ll_dec L j -> i = j) -> (0 < fo_ntoys o)%nat -> stored_sorted dk ->
  In h hypos -> dget (so_file (fo_out o) h ".npy") (dk_npy dk) = None \/ dget (so_file (fo_out o ++ "_clb") h ".npy") (dk_npy dk) = None ->
  full_run L E C w pf dataset o f dk = (ops, dk', e) -> e <> None /\ dk_npy dk' = dk_npy dk.
Proof.
  intros L E C w pf dataset o f dk ops dk' e m it n0 p0 rest n rd ra hypos h HC Hm Hp Hrd Hra HH DH KA HE Hdec Hn HS Hin Hno H.
  split; [|apply (C111_no_samples_refuted _ _ _ _ _ _ _ _ _ _ _ _ H)]. intros ->.
  destruct (C111_results _ _ _ _ _ _ _ _ _ _ _ _ _ _ _ _ _ _ _ _ HC Hm Hp Hrd Hra HH DH KA HE Hdec Hn HS H) as (_ & El & k & r2 & fast2 & psb & ps & fsb & fs & samples & lines & R). cbn zeta in R. destruct R as (_ & FP & _ & _ & _ & _ & _ & _ & SN & _).
  assert (K1 : map fst (ra_points r2) = hypos). { rewrite <- HH. assert (X : map fst (ra_points r2) = map (fun da => fst (fst da)) (combine (ra_points rd) (ra_points ra))) by (clear - FP; induction FP as [|? ? ? ? [Ee _] _ IH]; cbn; congruence). rewrite X, <- (map_map fst fst). f_equal. apply map_fst_combine, El. }
  rewrite <- K1 in Hin. apply in_map_iff in Hin as (hp & <- & Hin). destruct (Forall2_In_l _ _ _ _ SN Hin) as (sn & _ & (_ & _ & (a & (fa & Ea & _) & _) & (b & (fb & Eb & _) & _) & _)). destruct Hno; congruence.
Qed.
Print Assumptions C111_missing_sample_refuted.

(** intended: the toys of a hypothesis without samples are generated.  Refuted: as soon as the dataset of the first toy of the first hypothesis is generated, the run fails and leaves the lock behind: later runs without
    --break-locks skip the hypothesis. *)
Theorem C111_first_toy_refuted : forall L E C w pf dataset o f dk mi g gens r h p pts fast sl, full_rasters L E C pf o f = Ok (mi, g :: gens, r, fast) -> ra_points r = (h, p) :: pts -> dataset mi g = Ok tt -> (0 < fo_ntoys o)%nat ->
  mapM (full_samplers (dataset mi) (fst mi)) (combine (combine (map snd (ra_points r)) (g :: gens)) (map snd (ra_points fast))) = Ok sl -> ra_points fast <> [] ->
  dget (so_file (fo_out o) (plr_hypo p) ".npy") (dk_npy dk) = None -> fo_break o = true \/ ~ In (so_file (fo_out o) (plr_hypo p) ".lock") (dk_lock dk) ->
  exists dk', full_run L E C w pf dataset o f dk = ([], dk', Some AttributeError) /\ dk_npy dk' = dk_npy dk /\ dk_lock dk' = so_file (fo_out o) (plr_hypo p) ".lock" :: dk_lock dk.
Proof.
  intros L E C w pf dataset o f dk mi g gens r h p pts fast sl HR Hp Hd Hn Hsl Hf Hno Hlk. unfold full_run. rewrite HR. rewrite (proj2 (Nat.eqb_neq (fo_ntoys o) 0)) by lia. rewrite Hsl. cbn [bind].
  destruct (ra_points fast) as [|[fh fp] fpts]; [congruence|]. rewrite Hp in Hsl. cbn [map snd combine mapM] in Hsl. apply bind_Ok in Hsl as (ss & Hs & Hsl). apply bind_Ok in Hsl as (sl' & _ & Hsl). injection Hsl as <-. unfold full_samplers in Hs. repeat (apply bind_Ok in Hs as (? & _ & Hs)). injection Hs as <-.
  cbn [map fst snd]. unfold limit_samples. cbn [so_init bind map sp_hypo full_sampler]. unfold co_generate_and_save, so_generate_and_save. cbn [co_clsb so_samplers so_hypos so_root so_dists combine gen_loop]. unfold gen_one at 1. unfold dmem. rewrite Hno.
  assert (X : (has_lock (so_file (fo_out o) (plr_hypo p) ".lock") dk && negb (fo_break o))%bool = false) by (destruct Hlk as [-> |Hl]; [apply andb_false_r|rewrite has_lock_false by exact Hl; reflexivity]). rewrite X.
  destruct (fo_ntoys o) as [|k]; [lia|]. cbn [sp_generate full_sampler]. rewrite Hd. cbn [bind]. eexists. split; [reflexivity|]. split; reflexivity.
Qed.
Print Assumptions C111_first_toy_refuted.

(** the hypotheses of a computed raster do not depend on the data *)
Fixpoint add_key (hash : list string -> Z) (h : Hypo) (ks : list Hypo) : list Hypo := match ks with [] => [h] | x :: ks' => if same_key hash x h then x :: ks' else x :: add_key hash h ks' end.
Lemma hset_keys {V} hash h (v : V) d : map fst (hset hash h v d) = add_key hash h (map fst d).
Proof. induction d as [|[x y] d IH]; cbn; [reflexivity|]. destruct (same_key hash x h); cbn; [reflexivity|now rewrite IH]. Qed.
Lemma recompute_keys hash D k sv m it env data s r fast : recompute_raster hash D k sv m it env data s r = Ok fast -> map fst (ra_points (fst fast)) = fold_left (fun ks h => add_key hash h ks) (map fst (ra_points r)) [].
Proof.
  unfold recompute_raster, compute_fast_results. intros H. apply bind_Ok in H as ([pts s1] & Hl & H). apply bind_Ok in H as (r0 & Hr & H). apply bind_Ok in H as (r1 & Hf & H). injection H as <-. cbn [fst].
  destruct (raster_points _ _ _ _ Hr) as [T2 _]. apply fill_all_points in Hf. assert (E1 : map fst (ra_points r1) = map fst (ra_points r0)) by (clear - Hf; induction Hf as [|? ? ? ? [E _] _ IH]; cbn; congruence).
  assert (E2 : map fst (ra_points r0) = map fst pts) by (clear - T2; induction T2 as [|? ? ? ? [E _] _ IH]; cbn; congruence). rewrite E1, E2. clear - Hl. change (@nil Hypo) with (map fst (@nil (Hypo * PLR))). generalize dependent (@nil (Hypo * PLR)). revert s. induction (map fst (ra_points r)) as [|h hs IH]; intros s d Hl; cbn [foldM fold_left] in *.
  - now injection Hl as <- <-.
  - apply bind_Ok in Hl as ([d1 s2] & H1 & Hl). apply bind_Ok in H1 as ([p s3] & _ & H1). injection H1 as <- <-. cbn [fst] in Hl. rewrite (IH _ _ Hl), hset_keys. reflexivity.
Qed.

Definition with_data (o : FullOpts) (d : option string) : FullOpts := mkFO (fo_model o) (fo_fits o) (fo_ntoys o) (fo_cl o) (fo_out o) d (fo_asimov o) (fo_linear o) (fo_niter o) (fo_regularize o) (fo_cutoff o) (fo_bounds o) (fo_sethypo o) (fo_stat o) (fo_break o) (fo_bands o) (fo_trunc o).
(** intended: the limits are computed for the dataset of --data-file.  Refuted: two successful runs with toys on different datasets write the same results, except those of the linear model (keys with _fast). *)
Theorem C111_data_refuted : forall L E C w pf dataset o d f dk ops dk' ops2 dk2, faithful C -> (0 < fo_ntoys o)%nat -> full_run L E C w pf dataset o f dk = (ops, dk', None) -> full_run L E C w pf dataset (with_data o d) f dk = (ops2, dk2, None) ->
  exists r r2, load_file C (run_ops ops f) (fo_out o ++ "_results.json") (Some "json") = Ok r /\ load_file C (run_ops ops2 f) (fo_out o ++ "_results.json") (Some "json") = Ok r2 /\
    keys r2 = keys r /\ forall key, key <> "limit_asymptotics_CLs_fast" -> key <> "limit_asymptotics_CLsb_fast" -> dget key r2 = dget key r.
Proof.
  intros L E C w pf dataset o d f dk ops dk' ops2 dk2 HC Hn H1 H2.
  destruct (full_run_cases _ _ _ _ _ _ _ _ _ _ _ _ H1) as [(_ & _ & X)|(mi & gens & r & fast & sl & c & HR & _ & Hsl & Hc & _ & [(_ & X)|(-> & c1 & lf & lq & sampling & bands & d1 & Hg & Hlim & Hres & Hsave)])]; [destruct (X Hn eq_refl)|congruence|].
  destruct (full_run_cases _ _ _ _ _ _ _ _ _ _ _ _ H2) as [(_ & _ & X)|(mi2 & gens2 & r2 & fast2 & sl2 & c2 & HR2 & _ & Hsl2 & Hc2 & _ & [(_ & X)|(-> & c12 & lf2 & lq2 & sampling2 & bands2 & d2 & Hg2 & Hlim2 & Hres2 & Hsave2)])]; [destruct (X Hn eq_refl)|congruence|].
  cbn [with_data fo_ntoys fo_break fo_out] in *. change (full_results_file (with_data o d)) with (full_results_file o) in Hsave2.
  assert (EQ : mi2 = mi /\ gens2 = gens /\ r2 = r /\ map fst (ra_points fast2) = map fst (ra_points fast)).
  { unfold full_rasters in HR, HR2. change (full_model E C (with_data o d) f) with (full_model E C o f) in HR2. destruct (full_model E C o f) as [mi0|]; [|discriminate]. cbn [bind] in HR, HR2. change (fo_fits (with_data o d)) with (fo_fits o) in HR2. destruct (fits_raster _ _ _ _ _) as [r0|]; [|discriminate]. cbn [bind] in HR, HR2.
    destruct (gen_pars r0) as [g0|]; [|discriminate]. cbn [bind] in HR, HR2. apply bind_Ok in HR as (u & _ & HR). apply bind_Ok in HR2 as (u' & _ & HR2). apply bind_Ok in HR as (da & _ & HR). apply bind_Ok in HR2 as (da' & _ & HR2). apply bind_Ok in HR as (b & _ & HR). apply bind_Ok in HR2 as (b' & _ & HR2).
    change (fo_stat (with_data o d)) with (fo_stat o) in HR2. destruct (full_stat r0 (fo_stat o)) as [k|]; [|discriminate]. cbn [bind] in HR, HR2. destruct (full_minimizer mi0) as [s|]; [|discriminate]. cbn [bind] in HR, HR2. destruct (fill_all_pv _ k r0) as [r1|]; [|discriminate]. cbn [bind] in HR, HR2.
    apply bind_Ok in HR as (fa & Hfa & HR). apply bind_Ok in HR2 as (fa' & Hfa' & HR2). injection HR as <- <- <- <-. injection HR2 as <- <- <- <-. rewrite (recompute_keys _ _ _ _ _ _ _ _ _ _ _ Hfa), (recompute_keys _ _ _ _ _ _ _ _ _ _ _ Hfa'). auto. }
  destruct EQ as (-> & -> & -> & EK).
  assert (SL : forall l l1 l2 s1 s2, length l1 = length l2 -> mapM (full_samplers (dataset mi) (fst mi)) (combine l l1) = Ok s1 -> mapM (full_samplers (dataset mi) (fst mi)) (combine l l2) = Ok s2 -> s1 = s2).
  { clear. induction l as [|[p g] l IH]; intros [|q l1] [|q' l2] s1 s2 E1 M1 M2; try discriminate; cbn [combine mapM] in M1, M2; try congruence. apply bind_Ok in M1 as (a1 & A1 & M1). apply bind_Ok in M1 as (t1 & T1 & M1). injection M1 as <-. apply bind_Ok in M2 as (a2 & A2 & M2). apply bind_Ok in M2 as (t2 & T2 & M2). injection M2 as <-.
    f_equal; [|eapply IH; [|exact T1|exact T2]; now injection E1]. unfold full_samplers in A1, A2. apply bind_Ok in A1 as (? & _ & A1). apply bind_Ok in A2 as (? & _ & A2). congruence. }
  assert (sl2 = sl) as -> by (eapply SL; [|exact Hsl2|exact Hsl]; rewrite !map_length, <- !(map_length fst); f_equal; congruence).
  rewrite Hc in Hc2. injection Hc2 as <-. rewrite Hg in Hg2. injection Hg2 as <-.
  assert (EL : lf2 = lf /\ sampling2 = sampling /\ bands2 = bands).
  { unfold full_limits in Hlim, Hlim2. change (shared_opts (with_data o d)) with (mkLO (fo_model o) (fo_fits o) (fo_ntoys o) (fo_cl o) (fo_out o) d (fo_asimov o) (fo_niter o) (fo_regularize o) (fo_cutoff o) (fo_bounds o) (fo_stat o) (fo_break o) false (fo_bands o) (fo_trunc o)) in Hlim2.
    match type of Hlim2 with context [truncated ?h ?oo ?cc] => change (truncated h oo cc) with (truncated h (shared_opts o) cc) in Hlim2 end. destruct (truncated _ _ _) as [cc|]; [|discriminate]. cbn [bind] in Hlim, Hlim2. apply bind_Ok in Hlim as (u & _ & Hlim). apply bind_Ok in Hlim2 as (u' & _ & Hlim2).
    match type of Hlim2 with context [sampling_limits ?h ?oo ?cc ?rr] => change (sampling_limits h oo cc rr) with (sampling_limits h (shared_opts o) cc rr) in Hlim2 end. destruct (sampling_limits _ _ _ _) as [[[r3 sa] ba]|]; [|discriminate]. cbn [bind] in Hlim, Hlim2. change (fo_cl (with_data o d)) with (fo_cl o) in Hlim2.
    destruct (asymptotic_limits _ r3 _) as [x|]; [|discriminate]. cbn [bind] in Hlim, Hlim2. apply bind_Ok in Hlim as (y & _ & Hlim). apply bind_Ok in Hlim2 as (y' & _ & Hlim2). injection Hlim as <- <- <- <-. injection Hlim2 as <- <- <- <-. auto. }
  destruct EL as (-> & -> & ->). exists d1, d2. split; [apply (C89_saved_file_is_loaded _ _ _ _ _ _ f HC Hsave)|]. split; [apply (C89_saved_file_is_loaded _ _ _ _ _ _ f HC Hsave2)|].
  unfold full_results in Hres, Hres2. destruct (m_pois (fst mi)) as [|[n p] rest]; [discriminate|]. cbn [with_data fo_cl] in Hres2. injection Hres as <-. injection Hres2 as <-. destruct sampling as [[[[? ?] ?]|] [[[? ?] ?]|]]; (split; [reflexivity|]); intros key N1 N2; apply String.eqb_neq in N1; apply String.eqb_neq in N2; unfold triple_values; cbn [app dget fst snd]; rewrite N1, N2; reflexivity.
Qed.
Print Assumptions C111_data_refuted.

(** A run with an unknown statistic, or with several parameters in the hypotheses, is refused. *)
Theorem C111_refused : forall L E C w pf dataset o f dk mi r gens data bounds, full_model E C o f = Ok mi -> fits_raster (sl_hash (ll_scan L)) C f (fo_fits o) (i_pm (snd mi)) = Ok r -> gen_pars r = Ok gens -> fo_sethypo o = "" ->
  full_data C o f mi = Ok data -> full_bounds pf o = Ok bounds -> (fo_stat o <> "q~mu" /\ fo_stat o <> "q_mu") \/ (2 <= length (ra_pois r))%nat -> full_run L E C w pf dataset o f dk = ([], dk, Some ValueError).
Proof.
  intros L E C w pf dataset o f dk mi r gens data bounds Hm Hr Hg Hs Hd Hb Hk. unfold full_run, full_rasters. rewrite Hm. cbn [bind snd]. rewrite Hr. cbn [bind]. rewrite Hg. cbn [bind]. unfold set_hypo. rewrite Hs. cbn [String.eqb bind]. rewrite Hd. cbn [bind]. rewrite Hb. cbn [bind].
  assert (X : full_stat r (fo_stat o) = Err ValueError).
  { unfold full_stat. destruct Hk as [[N1 N2]|Hl]; [rewrite (proj2 (String.eqb_neq _ _) N1), (proj2 (String.eqb_neq _ _) N2); reflexivity|]. rewrite (proj2 (Nat.ltb_lt 1 (length (ra_pois r)))) by lia. destruct (String.eqb (fo_stat o) "q~mu"); [reflexivity|]. destruct (String.eqb (fo_stat o) "q_mu"); reflexivity. }
  rewrite X. reflexivity.
Qed.
Print Assumptions C111_refused.
(** intended: limits of a fits file.  Refuted: with a single hypothesis in the file, a run with toys does not succeed. *)
Theorem C111_single_hypothesis_refuted : forall L E C w pf dataset o f dk mi r ops dk' e, full_model E C o f = Ok mi -> fits_raster (sl_hash (ll_scan L)) C f (fo_fits o) (i_pm (snd mi)) = Ok r -> (length (ra_points r) <= 1)%nat -> (0 < fo_ntoys o)%nat ->
  full_run L E C w pf dataset o f dk = (ops, dk', e) -> e <> None /\ ops = [].
Proof.
  intros L E C w pf dataset o f dk mi r ops dk' e Hm Hr Hl Hn H.
  destruct (full_run_cases _ _ _ _ _ _ _ _ _ _ _ _ H) as [(-> & _ & X)|(mi2 & gens & r1 & fast & sl & c & HR & _ & Hsl & Hc & _ & [(-> & X)|(-> & c1 & lf & lq & sampling & bands & d1 & Hg & Hlim & Hres & Hsave)])]; [auto|auto|exfalso].
  unfold full_rasters in HR. rewrite Hm in HR. cbn [bind] in HR. rewrite Hr in HR. cbn [bind] in HR. repeat (let z := fresh in apply bind_Ok in HR as (? & z & HR)). injection HR as <- <- <- <-.
  assert (X : ra_pois r = []). { unfold fits_raster in Hr. apply bind_Ok in Hr as (? & _ & Hr). apply bind_Ok in Hr as (? & _ & Hr). apply bind_Ok in Hr as (q & _ & Hr). pose proof Hr as Hr'. apply raster_points in Hr' as [T _]. unfold raster_new in Hr. apply bind_Ok in Hr as (q1 & _ & Hr). apply bind_Ok in Hr as (q2 & _ & Hr). apply bind_Ok in Hr as (ps & Hps & Hr). injection Hr as <-. cbn [ra_points ra_pois] in *.
    apply set_pois_incl in Hps. rewrite Hps. destruct q2 as [|? [|? ?]]; [reflexivity|reflexivity|cbn in Hl; lia]. }
  match goal with Hf : fill_all_pv _ _ r = Ok _ |- _ => unfold fill_all_pv in Hf; apply bind_Ok in Hf as (pp & _ & Hf); injection Hf as <- end.
  unfold full_limits in Hlim. apply bind_Ok in Hlim as (? & _ & Hlim). cbn [ra_pois] in Hlim. rewrite X in Hlim. cbn in Hlim. discriminate.
Qed.
Print Assumptions C111_single_hypothesis_refuted.
