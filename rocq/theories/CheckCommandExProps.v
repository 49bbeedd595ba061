(** Concrete cases of the theorems of CheckCommandProps.v: runs of check_model on the model and the fits file of LimitsRunExProps.v. *)
From Coq Require Import Permutation Sorted.
From Verif Require Import Py PyFacts RSort Base BaseFacts Expressions Norms Sample Channels Params ParamsFacts Core CoreExample CoreFacts NpMin PoiMin PoiMinFacts PoiMinProps PoiHistProps TestStat FitData FitDataFacts FitDataProps RasterProps
  ParamsProps UtilFacts Calculators CalcFacts CalcProps Scans ScansProps ModelIO ModelTools UtilTools LimitTools FileIO FileIOProps Commands Sampling SamplingFacts SamplingProps FileName FileNameProps ScanFacts ScanCommand ScanCommandProps ScanCommandExProps SamplesRun SamplesRunProps
  CommandChannelProps CommandReparamProps CommandMergeProps ReparamProps LimitCommand LimitFacts LimitCommandProps LimitCommandExProps LimitToysProps LimitToysExProps LimitsRun LimitsRunProps LimitsResultProps LimitsRunExProps CheckCommand CheckCommandProps.
Local Open Scope string_scope.
Local Open Scope list_scope.
Local Open Scope R_scope.

Definition c_s : Mini := PoiMin.with_pois (mini_init "scalar" 1 (Some (/ 10000000)) 0 None false 0) (mkPars [1] [] (Some (mkPM ["mu"] [])), [("mu", mkPB "mu" (Some 0) (Some 10))]).
Definition csame (s : Mini) : Prop := (config s, mi_bounds s) = (config c_s, mi_bounds c_s).
Lemma c_plr I s x : i_pm I = mkPM ["mu"] [] -> 3 < x <= 10 -> csame s -> exists s',
  compute_fast_plr lm I l_fit s [("mu", x)] (Some (l_full x)) = Ok (mkPLR [("mu", x)] (l_fr 3) (l_fr x) [("tmu", VNum (l_tmu x))] [] (Some (l_full x)) (Some (mkPM ["mu"] [])) None, s') /\ csame s'.
Proof.
  intros Hp Hx Hc. assert (T : 0 < 2 * ((x - 3) * (x - 3) + - ((3 - 3) * (3 - 3)))) by nra. destruct s. unfold csame in Hc. cbn in Hc. injection Hc as -> -> -> -> -> -> -> ->. eexists. unfold l_fr. split.
  - unfold compute_fast_plr, opti_tmu, poi_tmu, set_pois_min, check_hypo. rewrite Hp. evA. reflexivity.
  - reflexivity.
Qed.
Lemma c_q I data a s x : i_pm I = mkPM ["mu"] [] -> generate_expected_0 (ll_solver l_libs) lm I data = Ok a -> 3 < x <= 10 -> csame s -> exists s',
  compute_fast_q (sl_dist (ll_scan l_libs)) CalcQMu (ll_solver l_libs) lm I (sl_fit (ll_scan l_libs) lm I) data s [("mu", x)] (Some (l_full x)) = Ok (l_pt (l_tmu x) x, s') /\ csame s'.
Proof.
  intros Hp Ha Hx Hc. assert (T : 0 < 2 * ((x - 3) * (x - 3) + - ((3 - 3) * (3 - 3)))) by nra. destruct (c_plr I s x Hp Hx Hc) as (s1 & E1 & C1). destruct (c_plr I s1 x Hp Hx C1) as (s2 & E2 & C2). exists s2. split; [|exact C2].
  unfold compute_fast_q. change (sl_fit (ll_scan l_libs) lm I data) with l_fit. rewrite E1. cbn [bind]. rewrite Ha. cbn [bind]. change (sl_fit (ll_scan l_libs) lm I a) with l_fit. rewrite E2. cbn [bind].
  unfold l_pt, l_tmu, l_fr. evA. reflexivity.
Qed.
Lemma c_computed I data a : i_pm I = mkPM ["mu"] [] -> generate_expected_0 (ll_solver l_libs) lm I data = Ok a -> exists s, compute_fast_results h0 (sl_dist (ll_scan t_libs)) CalcQMu (ll_solver t_libs) lm I (sl_fit (ll_scan t_libs) lm I) data c_s l_hypos (map (fun x => ([("mu", x)], l_full x)) xs4) = Ok (l_rast xs4, s).
Proof.
  intros Hp Ha. unfold compute_fast_results, l_hypos, xs4. cbn [foldM].
  assert (G : forall x, In x [4; 5; 6; 7] -> hget h0 [("mu", x)] (map (fun x => ([("mu", x)], l_full x)) [4; 5; 6; 7]) = Some (l_full x)).
  { intros x Hx. cbn in Hx. decompose [or] Hx; subst; try contradiction; evA; reflexivity. }
  destruct (c_q I data a c_s 4 Hp Ha ltac:(lra) eq_refl) as (s1 & E1 & C1). destruct (c_q I data a s1 5 Hp Ha ltac:(lra) C1) as (s2 & E2 & C2). destruct (c_q I data a s2 6 Hp Ha ltac:(lra) C2) as (s3 & E3 & C3). destruct (c_q I data a s3 7 Hp Ha ltac:(lra) C3) as (s4 & E4 & C4).
  rewrite (G 4), (G 5), (G 6), (G 7) by (cbn; auto). change (ll_scan t_libs) with (ll_scan l_libs). change (ll_solver t_libs) with (ll_solver l_libs). cbn [fst snd]. rewrite E1. cbn [bind fst snd]. rewrite E2. cbn [bind fst snd]. rewrite E3. cbn [bind fst snd]. rewrite E4. cbn [bind fst snd]. rewrite Hp. exists s4. clear.
  match goal with |- context [raster_new ?p _ _ _] => assert (P : p = map (fun x => ([("mu", x)], l_pt (l_tmu x) x)) [4; 5; 6; 7]) end.
  { evA. reflexivity. }
  rewrite P. clear P. unfold l_rast, l_pt, l_fr, l_tmu. evA. reflexivity.
Qed.
Definition c_opts (fits stat : string) (batch : bool) (reg : option R) (range : option string) : CheckOpts := mkCk "m.json" "d.json" None fits range false 1 reg None stat batch 1 "check".
Lemma c_inputs : exists it data a, i_pm it = f_pm /\ (forall o, check_minimizer (c_opts (ck_fits o) (ck_stat o) (ck_batch o) None None) (lm, it) = Ok c_s) /\ (forall d, model_load_file ex_env (f_codec d) f_fs (new_model true false) "m.json" None = Ok (lm, it)) /\
  (forall d, data_create (f_codec d) f_fs (lm, it) "d.json" = Ok (data, None)) /\ generate_expected_0 (ll_solver l_libs) lm it data = Ok a.
Proof.
  destruct l_loads as (it & HL & Hp & Hr & _). assert (DD : exists data, (forall d, data_create (f_codec d) f_fs (lm, it) "d.json" = Ok (data, None)) /\ exists a, generate_expected_0 (ll_solver l_libs) lm it data = Ok a).
  { assert (LF : forall d, load_file (f_codec d) f_fs "d.json" None = Ok (f_data 7)) by reflexivity.
    pose (Q := fun (it : Internal) (data : Data) => (forall d, data_create (f_codec d) f_fs (lm, it) "d.json" = Ok (data, None)) /\ exists a, generate_expected_0 (ll_solver l_libs) lm it data = Ok a).
    assert (HQ : forall it data, (forall d, data_create (f_codec d) f_fs (lm, it) "d.json" = Ok (data, None)) -> (exists a, generate_expected_0 (ll_solver l_libs) lm it data = Ok a) -> Q it data) by (split; assumption).
    change (exists data, Q it data). clearbody Q. clear - HL LF HQ. revert HL. unfold model_load, finish, lm_file. unfold lm at 1. ev. intros [= <-]. eexists. apply HQ.
    - intros d. unfold data_create. rewrite LF. unfold lm, f_data, data_init, data_load. ev. reflexivity.
    - eexists. unfold generate_expected_0, lm. evA. match goal with |- context [Rltb ?x ((1 / 1000) ^ 0)] => destruct (Rltb x ((1 / 1000) ^ 0)) end; evA; reflexivity. }
  destruct DD as (data & HD & a & Ha). exists it, data, a. split; [exact Hp|]. split; [intros o; unfold check_minimizer, set_pois_min; cbn [fst snd]; rewrite Hp, Hr; unfold lm; ev; reflexivity|].
  split; [intros d; unfold model_load_file; change (load_file (f_codec d) f_fs "m.json" None) with (Ok lm_file); cbn [bind]; exact HL|]. split; assumption.
Qed.
Lemma c_model it fits stat b : (forall d, model_load_file ex_env (f_codec d) f_fs (new_model true false) "m.json" None = Ok (lm, it)) -> check_model ex_env (f_codec []) (c_opts fits stat b None None) f_fs = Ok (lm, it).
Proof. intros HM. unfold check_model. change (ck_linear (c_opts fits stat b None None)) with false. change (ck_model (c_opts fits stat b None None)) with "m.json". rewrite HM. reflexivity. Qed.
Lemma c_data it data fits stat b : (forall d, data_create (f_codec d) f_fs (lm, it) "d.json" = Ok (data, None)) -> check_data (f_codec []) l_pf s_match (c_opts fits stat b None None) f_fs (lm, it) = Ok data.
Proof. intros HD. unfold check_data. change (ck_data (c_opts fits stat b None None)) with "d.json". cbn [String.eqb Ascii.eqb Bool.eqb negb]. rewrite HD. reflexivity. Qed.
Lemma c_rasters : exists it data, i_pm it = f_pm /\ check_data (f_codec []) l_pf s_match (c_opts "fits.json" "t_mu" false None None) f_fs (lm, it) = Ok data /\ (forall fits stat b, check_model ex_env (f_codec []) (c_opts fits stat b None None) f_fs = Ok (lm, it)) /\
  forall b, check_rasters t_libs ex_env (f_codec []) l_pf s_match (c_opts "fits.json" "q_mu" b None None) f_fs = Ok ((lm, it), f_rast f_point xs4, l_rast xs4).
Proof.
  destruct c_inputs as (it & data & a & Hp & Hs & HM & HD & Ha). exists it, data. split; [exact Hp|]. split; [apply c_data, HD|]. split; [intros; apply c_model, HM|]. intros b. unfold check_rasters. rewrite (c_model it) by exact HM. cbn [bind fst snd]. rewrite Hp. change (sl_hash (ll_scan t_libs)) with h0. change (ck_fits (c_opts "fits.json" "q_mu" b None None)) with "fits.json".
  rewrite (f_fits_raster [] "fits.json" xs4) by (cbn; auto). cbn [bind]. rewrite (c_data it data) by exact HD. cbn [bind]. change (full_stat (f_rast f_point xs4) (ck_stat (c_opts "fits.json" "q_mu" b None None))) with (@Ok calc_kind CalcQMu). cbn [bind].
  pose proof (Hs (c_opts "fits.json" "q_mu" b None None)) as Hs'. cbn [c_opts ck_fits ck_stat ck_batch] in Hs'. rewrite Hs'. cbn [bind]. rewrite f_fill by (cbn; auto). cbn [bind]. unfold recompute_raster. change (map fst (ra_points (f_rast f_point xs4))) with l_hypos.
  assert (F : full_hypos_of h0 (f_rast f_point xs4) = map (fun x => ([("mu", x)], l_full x)) xs4) by (unfold full_hypos_of, f_rast, xs4; evA; reflexivity). rewrite F. destruct (c_computed it data a Hp Ha) as [s Hc]. rewrite Hc. reflexivity.
Qed.
Lemma c_table : exists t, print_table h0 (f_rast f_point xs4) (l_rast xs4) 1 = Ok t.
Proof. eexists. unfold print_table, f_rast, f_point, l_rast, l_pt, xs4. evA. reflexivity. Qed.
Lemma c_run : exists it t, i_pm it = f_pm /\ (forall fits stat b, check_model ex_env (f_codec []) (c_opts fits stat b None None) f_fs = Ok (lm, it)) /\
  forall b, exists plots, check_run t_libs ex_env (f_codec []) l_pf s_match (c_opts "fits.json" "q_mu" b None None) f_fs = Ok (t, plots).
Proof.
  destruct c_rasters as (it & data & Hp & _ & HM & HR). destruct c_table as [t Ht]. exists it, t. split; [exact Hp|]. split; [exact HM|]. intros b.
  assert (P : exists plots, check_plots (c_opts "fits.json" "q_mu" b None None) lm (f_rast f_point xs4) (l_rast xs4) = Ok plots) by (destruct b; eexists; unfold check_plots, f_rast, f_point, l_rast, l_pt, lm, xs4; evA; reflexivity). destruct P as [plots HP].
  exists plots. unfold check_run. rewrite HR. cbn [bind]. change (sl_hash (ll_scan t_libs)) with h0. change (ck_verbosity (c_opts "fits.json" "q_mu" b None None)) with 1%Z. rewrite Ht. cbn [bind fst]. rewrite HP. reflexivity.
Qed.
Example C113_results_nonvacuous : exists it rd ra cols lines plots, let o := c_opts "fits.json" "q_mu" false None None in let L := t_libs in check_model ex_env (f_codec []) o f_fs = Ok (lm, it) /\
  load_raster (sl_hash (ll_scan L)) (f_codec []) f_fs (ck_fits o) "data" (i_pm it) = Ok rd /\ load_raster (sl_hash (ll_scan L)) (f_codec []) f_fs (ck_fits o) "asimov" (i_pm it) = Ok ra /\ map fst (ra_points rd) = l_hypos /\ distinct_hypos ["mu"] l_hypos /\ (2 <= length l_hypos)%nat /\
  (forall h, In h (map fst (ra_points ra)) -> keys h = ["mu"]) /\ fits_evaluate L lm it /\ ~ In "mu" ["pv"; "cls"; "clb"] /\ (ck_verbosity o <= 1)%Z /\ check_run L ex_env (f_codec []) l_pf s_match o f_fs = Ok ((cols, lines), plots).
Proof.
  destruct c_run as (it & [cols lines] & Hp & HM & HR). destruct (HR false) as [plots H]. exists it. do 2 eexists. exists cols, lines, plots. cbv zeta. split; [apply HM|]. rewrite Hp. split; [apply (f_raster [] "fits.json" xs4 "data"); cbn; auto|]. split; [apply (f_raster [] "fits.json" xs4 "asimov"); cbn; auto|].
  split; [reflexivity|]. split; [exact t_hypos|]. split; [cbn; lia|]. split; [intros h Hh; apply (f_keys h f_loaded xs4); [cbn; auto|exact Hh]|]. split; [intros ?; exact s_eval|]. split; [cbn; intuition congruence|]. split; [cbn; lia|exact H].
Qed.
(** the point of the fits file and that of the linear model for mu = 5 *)
Example C113_agreement_nonvacuous : let D := sl_dist (ll_scan t_libs) in let p := f_point 5 in let q := l_pt (f_t 5) 5 in keys (plr_hypo p) = ["mu"] /\ plr_hypo p = plr_hypo q /\ consistent D CalcQMu p /\ dget "tmu" (plr_ts p) = dget "tmu" (plr_ts q) /\ has_pvs p (1 / 2) (1 / 2 / (1 / 2)) (1 / 2) /\ has_pvs q (1 / 2) (1 / 2 / (1 / 2)) (1 / 2).
Proof.
  cbv zeta. split; [reflexivity|]. split; [reflexivity|]. split; [|split; [reflexivity|split; repeat split]].
  exists "mu", 5. do 8 eexists. split; [reflexivity|]. split; [reflexivity|]. split; [reflexivity|]. split; [reflexivity|]. split; [reflexivity|]. split; [reflexivity|]. split; [unfold pvs_of, f_t; evA; reflexivity|]. repeat split.
Qed.
Example C113_inputs_nonvacuous : exists it r fast, check_rasters t_libs ex_env (f_codec []) l_pf s_match (c_opts "fits.json" "q_mu" false None None) f_fs = Ok ((lm, it), r, fast).
Proof. destruct c_rasters as (it & data & _ & _ & _ & HR). eauto. Qed.
Example C113_options_refuted_nonvacuous : exists it, let o := c_opts "fits.json" "q_mu" false None (Some "mu=0:5") in model_load_file ex_env (f_codec []) f_fs (new_model true (ck_linear o)) (ck_model o) None = Ok (lm, it) /\ ck_regularize o = None /\ ck_setrange o = Some "mu=0:5".
Proof. destruct c_inputs as (it & data & a & _ & _ & HM & _). exists it. split; [apply HM|]. split; reflexivity. Qed.
Example C113_refused_nonvacuous : exists it data, let o := c_opts "fits.json" "t_mu" false None None in check_model ex_env (f_codec []) o f_fs = Ok (lm, it) /\ fits_raster (sl_hash (ll_scan t_libs)) (f_codec []) f_fs (ck_fits o) (i_pm it) = Ok (f_rast f_point xs4) /\
  check_data (f_codec []) l_pf s_match o f_fs (lm, it) = Ok data /\ ck_stat o <> "q~mu" /\ ck_stat o <> "q_mu".
Proof.
  destruct c_rasters as (it & data & Hp & HD & HM & _). exists it, data. cbv zeta. split; [apply HM|]. rewrite Hp. split; [apply (f_fits_raster [] "fits.json" xs4); cbn; auto|]. split; [exact HD|]. split; discriminate.
Qed.
Example C113_single_hypothesis_refuted_nonvacuous : exists it, let o := c_opts "one.json" "q_mu" false None None in check_model ex_env (f_codec []) o f_fs = Ok (lm, it) /\ fits_raster (sl_hash (ll_scan t_libs)) (f_codec []) f_fs (ck_fits o) (i_pm it) = Ok (f_rast f_point [4]) /\ (length (ra_points (f_rast f_point [4%R])) <= 1)%nat /\ ck_batch o = false.
Proof. destruct c_rasters as (it & data & Hp & _ & HM & _). exists it. cbv zeta. split; [apply HM|]. rewrite Hp. split; [apply (f_fits_raster [] "one.json" [4]); cbn; auto|]. split; [cbn; lia|reflexivity]. Qed.
Example C113_batch_nonvacuous : exists t plots, check_run t_libs ex_env (f_codec []) l_pf s_match (with_batch (c_opts "fits.json" "q_mu" true None None) false) f_fs = Ok (t, plots).
Proof. destruct c_run as (it & t & _ & _ & HR). destruct (HR false) as [plots H]. exists t, plots. exact H. Qed.
