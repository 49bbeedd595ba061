(** Concrete cases of the theorems of ScanCommandProps.v: runs of poi_scan on a model with one bin, and on one with two parameters. *)
From Verif Require Import Py PyFacts Base BaseFacts Expressions Norms Sample Channels Params ParamsFacts Core CoreExample NpMin UtilFacts PoiMin PoiMinFacts PoiMinProps PoiHistProps TestStat FitData FitDataFacts FitDataProps RasterProps
  ParamsProps UtilProps Calculators CalcFacts CalcProps Scans ScansProps ModelIO ModelTools UtilTools FileIO FileIOProps Commands CommandChannelProps CommandReparamProps CommandMergeProps ReparamProps ScanCommand ScanFacts ScanCommandProps.
Local Open Scope string_scope.
Local Open Scope list_scope.
Local Open Scope R_scope.

(** ** a concrete run *)
Definition sm : Model := tmod (Some 0) (Some 10).
Definition sm_file : dict jv := match model_fill ex_env sm [] with Ok d => d | Err _ => [] end.
Definition s_pf (s : string) : option R := dget s [("1", 1); ("2", 2); ("3", 3); ("4", 4); ("5", 5); ("0.9", 9/10)].
Definition s_match (r s : string) : bool := String.eqb r (s ++ "$").
Definition s_fs : fs := fun q => if String.eqb q "m.json" then Some "1" else None.
Definition s_hypos : list Hypo := [[("mu", 1)]; [("mu", 2)]; [("mu", 3)]; [("mu", 4)]; [("mu", 5)]].
Definition s_opts : ScanOpts := mkSO "m.json" None (Some "mu=1") (Some "mu=1|mu=2|mu=3|mu=4|mu=5") "1,0.9" "scan" false false "single" None true true 1 None None false.
Lemma s_loads : exists I, model_load ex_env (new_model false true) sm_file = Ok (sm, I) /\ i_pm I = mkPM ["mu"] [("a", 0, 1)] /\ i_ref_pois I = [1] /\ (exists data, expected_data sm I [("mu", 2)] = Ok data) /\ exists data, expected_data sm I [("mu", 1)] = Ok data.
Proof.
  unfold model_load, finish, sm_file, sm, tmod. eexists. split; [ev; reflexivity|]. split; [reflexivity|]. split; [reflexivity|]. split; (eexists; unfold expected_data, pars_init, pois_from_dict; ev; reflexivity).
Qed.
Lemma s_parse : parse_hypos (e_fuel ex_env) s_pf (fun _ => None) s_match sm "mu=1|mu=2|mu=3|mu=4|mu=5" = Ok s_hypos.
Proof. reflexivity. Qed.


Definition s_spline : SplineLib := mkSpl (fun _ xs ys x => 2 * (x - 3) * (x - 3) + (hd 0 ys - 8)) (fun _ _ => [2; 4]) (fun _ _ => [3]).
Definition s_libs : ScanLibs := mkSL h0 (mkDist (fun _ => 1/2) (fun _ => 0) (fun _ _ => 1/2)) s_spline (mkStat (fun _ _ => 1/3) (fun _ _ => 2) (fun _ => 1/2)) (fun _ _ _ => tfit (topt true [3])) (fun _ _ _ => None) (fun x => if Reqb x 1 then "1.0" else "0.9").
Definition s_tmu (x : R) : R := 2 * ((x - 3) * (x - 3) - (3 - 3) * (3 - 3)).
Lemma s_computed I data : i_pm I = mkPM ["mu"] [("a", 0, 1)] -> i_ref_pois I = [1] -> exists r l, scan_compute s_libs s_opts (sm, I) data s_hypos = Ok r /\ ra_pois r = ["mu"] /\ raster_dump r = Ok l /\
   scan_points (mkScan1D (mkScan r "tmu") "mu") 0 = Ok ([1; 2; 3; 4; 5], map (fun x => VNum (s_tmu x)) [1; 2; 3; 4; 5]) /\ is_filled r "tmu" false false = true.
Proof.
  intros Hp Hr. unfold scan_compute, set_pois_min, sm, tmod, s_hypos. cbn [fst snd so_mode so_niter s_opts]. rewrite Hp, Hr. do 2 eexists. split.
  - unfold tmu_results. cbn [map foldM tmu_step hget bind fst snd mode_of String.eqb Ascii.eqb Bool.eqb]. unfold tmu_point, common_free, finish_point, set_pois_min, check_hypo. rewrite Hp, Hr. ev. reflexivity.
  - split; [reflexivity|]. split; [reflexivity|]. split; [unfold s_tmu; ev; reflexivity|reflexivity].
Qed.
Lemma s_eval : evaluates (tfit (topt true [3])).
Proof. intros me obj j x0 b r H. cbn in H. apply bind_Ok in H as (l & Hl & H). apply bind_Ok in Hl as (v & _ & Hl). injection Hl as <-. injection H as <-. discriminate. Qed.
Lemma s_distinct : distinct h0 s_hypos.
Proof.
  split; [intros h Hh; cbn in Hh; decompose [or] Hh; subst; try contradiction; repeat constructor; intros []|]. unfold s_hypos. repeat (constructor; [repeat (constructor; [unfold same_key, hypo_eqb; cbn; rdec; reflexivity|]); constructor|]). constructor.
Qed.
Lemma nine_tenths n : 9 / 10 <> IZR n.
Proof. intros H. assert (E : IZR 9 = IZR (10 * n)) by (rewrite mult_IZR; lra). apply eq_IZR in E. lia. Qed.
Lemma s_entry r cl : ra_pois r = ["mu"] -> is_filled r "tmu" false false = true -> scan_points (mkScan1D (mkScan r "tmu") "mu") 0 = Ok ([1; 2; 3; 4; 5], map (fun x => VNum (s_tmu x)) [1; 2; 3; 4; 5]) ->
  exists e, cl_entry s_libs sm r "mu" cl = Ok e.
Proof.
  intros H1 H2 H3. unfold cl_entry, ps_new, scan1d_new, scan_new. rewrite H2. cbn [bind]. unfold find_poi. cbn [sc_raster]. rewrite H1. cbn [nth_error bind].
  assert (X : forall level, ps_interval (sl_spline s_libs) (mkPS (mkScan1D (mkScan r "tmu") "mu") level) 3 false = Ok (3, Some (4 - 3), Some (3 - 2))).
  { intros level. unfold ps_interval, crossings, minima. cbn [ps_scan ps_level]. rewrite H3. cbn. rdec. reflexivity. }
  unfold level_args. destruct (is_integer cl); cbn [fst snd bind]; rewrite X; cbn; eauto.
Qed.
Lemma s_results r : ra_pois r = ["mu"] -> is_filled r "tmu" false false = true -> scan_points (mkScan1D (mkScan r "tmu") "mu") 0 = Ok ([1; 2; 3; 4; 5], map (fun x => VNum (s_tmu x)) [1; 2; 3; 4; 5]) ->
  exists d, scan_results s_libs sm r ["mu"] [1; 9/10] = Ok d.
Proof. intros H1 H2 H3. cbn [scan_results foldM]. destruct (s_entry r 1 H1 H2 H3) as [e1 ->]. cbn [bind]. destruct (s_entry r (9/10) H1 H2 H3) as [e2 ->]. cbn [bind]. eauto. Qed.
Definition no_int : string -> option Z := fun _ => None.
Definition any_path : string -> bool := fun _ => true.
Lemma s_run : exists C I data ops, faithful C /\ scan_model ex_env C s_pf s_match s_opts s_fs = Ok (sm, I) /\ scan_data C s_pf s_match s_opts s_fs (sm, I) = Ok data /\ i_pm I = mkPM ["mu"] [("a", 0, 1)] /\
  scan_run s_libs ex_env C any_path s_pf no_int s_match s_opts s_fs = (ops, None).
Proof.
  destruct s_loads as (I & HL & Hp & Hr & _ & data & HD). destruct (s_computed I data Hp Hr) as (r & l & K1 & K2 & K3 & K4 & K5). destruct (s_results r K2 K5 K4) as [d Hd].
  set (C := table_codec [("2", [("fast", JList l)]); ("3", d); ("1", sm_file)]). assert (HC : faithful C) by (apply table_codec_faithful; cbn; repeat constructor; cbn; intuition congruence).
  assert (HM : scan_model ex_env C s_pf s_match s_opts s_fs = Ok (sm, I)).
  { unfold scan_model, model_load_file. change (load_file C s_fs (so_model s_opts) None) with (Ok sm_file). cbn [bind]. change (new_model (negb (so_sym s_opts)) (so_linear s_opts)) with (new_model false true). rewrite HL. reflexivity. }
  assert (HDa : scan_data C s_pf s_match s_opts s_fs (sm, I) = Ok data) by exact HD.
  assert (P1 : exists t1, c_dump C "json" [("fast", JList l)] = ([t1], None)) by (unfold C, table_codec; cbn [c_dump find snd]; destruct (jv_eq_dec _ _); [eexists; reflexivity|contradiction]).
  assert (P2 : exists t1, c_dump C "json" d = ([t1], None)).
  { unfold C, table_codec; cbn [c_dump find snd]. destruct (jv_eq_dec (JObj [("fast", JList l)]) (JObj d)); [eexists; reflexivity|]. destruct (jv_eq_dec (JObj d) (JObj d)); [eexists; reflexivity|contradiction]. }
  destruct P1 as [t1 P1]. destruct P2 as [t2 P2]. exists C, I, data. eexists. split; [exact HC|]. split; [exact HM|]. split; [exact HDa|]. split; [exact Hp|].
  rewrite (run_fresh s_libs ex_env C any_path s_pf no_int s_match s_opts s_fs sm I data _ s_hypos HM HDa (or_intror eq_refl) eq_refl eq_refl). rewrite K1. cbn [bind]. rewrite K3. cbn [bind].
  unfold save_ops at 1. change (flavor_of (raster_file s_opts) None) with "json". cbn [negb any_path String.eqb Ascii.eqb Bool.eqb orb]. rewrite P1. unfold scan_finish. fold (level_value s_pf).
  change (mapM (level_value s_pf) (split "," (so_cl s_opts))) with (@Ok (list R) [1; 9/10]). change (have_compatible_pois s_hypos) with ["mu"]. cbv iota beta. rewrite Hd. cbn [so_timing s_opts andb]. unfold save_ops. change (flavor_of (results_file s_opts) (Some "json")) with "json". cbn [negb any_path String.eqb Ascii.eqb Bool.eqb orb]. rewrite P2. reflexivity.
Qed.
Example C105_nonvacuous : exists C I data ops, faithful C /\ scan_model ex_env C s_pf s_match s_opts s_fs = Ok (sm, I) /\ scan_data C s_pf s_match s_opts s_fs (sm, I) = Ok data /\ fresh s_opts s_fs /\
  parse_hypos (e_fuel ex_env) s_pf no_int s_match sm "mu=1|mu=2|mu=3|mu=4|mu=5" = Ok s_hypos /\ have_compatible_pois s_hypos = ["mu"] /\ distinct (sl_hash s_libs) s_hypos /\ evaluates (sl_fit s_libs sm I data) /\
  map s_pf (split "," (so_cl s_opts)) = map Some [1; 9/10] /\ NoDup (pm_pois (i_pm I) ++ np_names (i_pm I)) /\ so_timing s_opts = false /\ so_model s_opts <> raster_file s_opts /\ so_model s_opts <> results_file s_opts /\
  (forall cl', In cl' [1; 9/10] -> sl_repr s_libs cl' = sl_repr s_libs (9/10) -> cl' = 9/10) /\
  scan_run s_libs ex_env C any_path s_pf no_int s_match s_opts s_fs = (ops, None).
Proof.
  destruct s_run as (C & I & data & ops & H1 & H2 & H3 & H4 & H5). exists C, I, data, ops. split; [exact H1|]. split; [exact H2|]. split; [exact H3|]. split; [now right|]. split; [reflexivity|]. split; [reflexivity|]. split; [exact s_distinct|]. split; [exact s_eval|].
  split; [reflexivity|]. split; [rewrite H4; repeat constructor; cbn; intuition congruence|]. split; [reflexivity|]. split; [discriminate|]. split; [discriminate|]. split; [|exact H5].
  intros cl' [<-|[<-|[]]]; [|reflexivity]. cbn. rdec. discriminate.
Qed.
(** ** after the run: the stored raster *)
Definition s_with (o : ScanOpts) (asimov hypos : string) (overwrite : bool) (timing : bool) (cl : string) : ScanOpts :=
  mkSO (so_model o) (so_data o) (Some asimov) (Some hypos) cl (so_out o) overwrite (so_force o) (so_mode o) (so_setrange o) (so_linear o) (so_sym o) (so_niter o) (so_regularize o) (so_cutoff o) timing.
Lemma s_stored : exists C I f r, faithful C /\ scan_model ex_env C s_pf s_match s_opts f = Ok (sm, I) /\ f (raster_file s_opts) <> None /\ f "m.json" = Some "1" /\ cached_raster s_libs C s_opts f I = Ok (Some r) /\ answers r s_hypos /\ length (ra_points r) = 5%nat /\
  (forall a hy ov ti cl, cached_raster s_libs C (s_with s_opts a hy ov ti cl) f I = Ok (Some r) /\ scan_model ex_env C s_pf s_match (s_with s_opts a hy ov ti cl) f = Ok (sm, I)) /\
  (forall cl hy ov ti, exists data, scan_data C s_pf s_match (s_with s_opts "mu=1" hy ov ti cl) f (sm, I) = Ok data) /\ (forall cl hy ov ti, exists data, scan_data C s_pf s_match (s_with s_opts "mu=2" hy ov ti cl) f (sm, I) = Ok data) /\
  (exists d, scan_results s_libs sm r ["mu"] [1; 9/10] = Ok d).
Proof.
  destruct s_loads as (I & HL & Hp & Hr & [data2 HD2] & data & HD). destruct (s_computed I data Hp Hr) as (r & l & K1 & K2 & K3 & K4 & K5). destruct (s_results r K2 K5 K4) as [d Hd].
  set (C := table_codec [("2", [("fast", JList l)]); ("1", sm_file)]). assert (HC : faithful C) by (apply table_codec_faithful; cbn; repeat constructor; cbn; intuition congruence).
  assert (P1 : c_dump C "json" [("fast", JList l)] = (["2"], None)) by (unfold C, table_codec; cbn [c_dump find snd]; destruct (jv_eq_dec _ _); [reflexivity|contradiction]).
  assert (S1 : exists ops, save_ops C any_path (raster_file s_opts) None [("fast", JList l)] = (ops, None)).
  { unfold save_ops. change (flavor_of (raster_file s_opts) None) with "json". cbn [negb any_path String.eqb Ascii.eqb Bool.eqb orb]. rewrite P1. eexists. reflexivity. }
  destruct S1 as [ops S1]. assert (HN : NoDup (pm_pois (i_pm I) ++ np_names (i_pm I))) by (rewrite Hp; repeat constructor; cbn; intuition congruence).
  destruct (raster_reused s_libs C any_path s_opts s_fs ops sm I data s_hypos r l HC s_eval s_distinct HN K1 K3 S1 eq_refl) as (r' & Hc & Hsv & Hans).
  assert (Hmf : run_ops ops s_fs "m.json" = Some "1") by (rewrite (save_only _ _ _ _ _ _ _ s_fs "m.json" S1) by discriminate; reflexivity).
  assert (HM : forall a hy ov ti cl, scan_model ex_env C s_pf s_match (s_with s_opts a hy ov ti cl) (run_ops ops s_fs) = Ok (sm, I)).
  { assert (X : load_file C (run_ops ops s_fs) "m.json" None = Ok sm_file) by (unfold load_file; rewrite Hmf; reflexivity).
    intros. unfold scan_model, model_load_file. change (so_model (s_with s_opts a hy ov ti cl)) with "m.json". rewrite X. cbn [bind].
    change (new_model (negb (so_sym (s_with s_opts a hy ov ti cl))) (so_linear (s_with s_opts a hy ov ti cl))) with (new_model false true). rewrite HL. reflexivity. }
  exists C, I, (run_ops ops s_fs), r'. split; [exact HC|]. split; [apply (HM "mu=1" "mu=1|mu=2|mu=3|mu=4|mu=5" false false "1,0.9")|]. split; [intros E; unfold cached_raster in Hc; cbn [so_force s_opts] in Hc; fold s_opts in Hc; rewrite E in Hc; discriminate|]. split; [exact Hmf|].
  split; [exact Hc|]. split; [exact Hans|]. split; [rewrite (proj1 Hans); reflexivity|]. split; [intros; split; [exact Hc|apply HM]|]. split; [intros; exists data; exact HD|]. split; [intros; exists data2; exact HD2|]. exists d. rewrite (same_results _ _ _ _ _ _ Hsv). exact Hd.
Qed.
(** the data of the file, a raster for two hypotheses wanted, or the results for a level that is not a number *)
Example C106_nonvacuous : exists C I f r data data2 data3, let o2 := s_with s_opts "mu=1" "mu=1|mu=2" false false "1" in let o3 := s_with s_opts "mu=1" "mu=1|mu=2" true false "1" in let o4 := s_with s_opts "mu=2" "mu=1|mu=2|mu=3|mu=4|mu=5" false false "1,0.9" in
  scan_model ex_env C s_pf s_match o2 f = Ok (sm, I) /\ scan_data C s_pf s_match o2 f (sm, I) = Ok data /\ cached_raster s_libs C o2 f I = Ok (Some r) /\ parse_hypos (e_fuel ex_env) s_pf no_int s_match sm "mu=1|mu=2" = Ok [[("mu", 1)]; [("mu", 2)]] /\ ~ answers r [[("mu", 1)]; [("mu", 2)]] /\
  scan_model ex_env C s_pf s_match o3 f = Ok (sm, I) /\ scan_data C s_pf s_match o3 f (sm, I) = Ok data2 /\ cached_raster s_libs C o3 f I = Ok (Some r) /\ so_overwrite o3 = true /\
  scan_model ex_env C s_pf s_match o4 f = Ok (sm, I) /\ scan_data C s_pf s_match o4 f (sm, I) = Ok data3 /\ cached_raster s_libs C o4 f I = Ok (Some r) /\ answers r s_hypos /\ parse_hypos (e_fuel ex_env) s_pf no_int s_match sm "mu=1|mu=2|mu=3|mu=4|mu=5" = Ok s_hypos.
Proof.
  destruct s_stored as (C & I & f & r & HC & HM & Hn & Hf & Hc & Ha & Hl & Hw & Hd1 & Hd2 & _). destruct (Hd1 "1" "mu=1|mu=2" false false) as [data D1]. destruct (Hd1 "1" "mu=1|mu=2" true false) as [data2 D2]. destruct (Hd2 "1,0.9" "mu=1|mu=2|mu=3|mu=4|mu=5" false false) as [data3 D3].
  exists C, I, f, r, data, data2, data3. cbv zeta. repeat split; try (apply Hw); try exact D1; try exact D2; try exact D3; try reflexivity; try (apply Ha).
  intros [E _]. rewrite Hl in E. discriminate.
Qed.
Example C106_damaged_nonvacuous : exists C I data, let f := fun q => if String.eqb q "scan_raster.json" then Some "{" else s_fs q in scan_model ex_env C s_pf s_match s_opts f = Ok (sm, I) /\ scan_data C s_pf s_match s_opts f (sm, I) = Ok data /\ load_file C f (raster_file s_opts) None = Err ValueError.
Proof.
  destruct s_loads as (I & HL & Hp & Hr & _ & data & HD). exists (table_codec [("1", sm_file)]), I, data. cbv zeta. split; [|split; [exact HD|reflexivity]]. unfold scan_model, model_load_file. change (load_file _ _ (so_model s_opts) None) with (Ok sm_file). cbn [bind].
  change (new_model (negb (so_sym s_opts)) (so_linear s_opts)) with (new_model false true). rewrite HL. reflexivity.
Qed.
(** a hypothesis given twice *)
Definition s_opts2 : ScanOpts := s_with s_opts "mu=1" "mu=1|mu=2|mu=3|mu=4|mu=1" false false "1".
Definition s_hypos2 : list Hypo := [[("mu", 1)]; [("mu", 2)]; [("mu", 3)]; [("mu", 4)]; [("mu", 1)]].
Lemma s_computed2 I data : i_pm I = mkPM ["mu"] [("a", 0, 1)] -> i_ref_pois I = [1] -> exists r l, scan_compute s_libs s_opts2 (sm, I) data s_hypos2 = Ok r /\ ra_pois r = ["mu"] /\ raster_dump r = Ok l /\
   scan_points (mkScan1D (mkScan r "tmu") "mu") 0 = Ok ([1; 2; 3; 4], map (fun x => VNum (s_tmu x)) [1; 2; 3; 4]) /\ is_filled r "tmu" false false = true.
Proof.
  intros Hp Hr. unfold scan_compute, set_pois_min, sm, tmod, s_hypos2. cbn [fst snd so_mode so_niter s_opts2 s_with s_opts]. rewrite Hp, Hr. do 2 eexists. split.
  - unfold tmu_results. cbn [map foldM tmu_step hget bind fst snd mode_of String.eqb Ascii.eqb Bool.eqb]. unfold tmu_point, common_free, finish_point, set_pois_min, check_hypo. rewrite Hp, Hr. ev. reflexivity.
  - split; [reflexivity|]. split; [reflexivity|]. split; [unfold s_tmu; ev; reflexivity|reflexivity].
Qed.
Lemma s_results2 r : ra_pois r = ["mu"] -> is_filled r "tmu" false false = true -> scan_points (mkScan1D (mkScan r "tmu") "mu") 0 = Ok ([1; 2; 3; 4], map (fun x => VNum (s_tmu x)) [1; 2; 3; 4]) ->
  exists d, scan_results s_libs sm r ["mu"] [1] = Ok d.
Proof.
  intros H1 H2 H3. cbn [scan_results foldM]. unfold cl_entry, ps_new, scan1d_new, scan_new. rewrite H2. cbn [bind]. unfold find_poi. cbn [sc_raster]. rewrite H1. cbn [nth_error bind].
  assert (X : forall level, exists i, ps_interval (sl_spline s_libs) (mkPS (mkScan1D (mkScan r "tmu") "mu") level) 3 false = Ok i).
  { intros level. unfold ps_interval, crossings, minima. cbn [ps_scan ps_level]. rewrite H3. cbn. rdec. cbn. rdec. cbn. eauto. }
  unfold level_args. destruct (is_integer 1); cbn [fst snd bind].
  - destruct (X (1 * 1)) as [[[c u] dn] ->]. cbn. eauto.
  - destruct (X (chi2_isf (sl_stat s_libs) (1 - 1) 1)) as [[[c u] dn] ->]. cbn. eauto.
Qed.
Example C106_repeated_hypothesis_nonvacuous : exists C I data ops, faithful C /\ scan_model ex_env C s_pf s_match s_opts2 s_fs = Ok (sm, I) /\ scan_data C s_pf s_match s_opts2 s_fs (sm, I) = Ok data /\ s_fs (raster_file s_opts2) = None /\
  parse_hypos (e_fuel ex_env) s_pf no_int s_match sm "mu=1|mu=2|mu=3|mu=4|mu=1" = Ok ([] ++ [("mu", 1)] :: [[("mu", 2)]; [("mu", 3)]; [("mu", 4)]] ++ [("mu", 1)] :: []) /\
  scan_run s_libs ex_env C any_path s_pf no_int s_match s_opts2 s_fs = (ops, None).
Proof.
  destruct s_loads as (I & HL & Hp & Hr & _ & data & HD). destruct (s_computed2 I data Hp Hr) as (r & l & K1 & K2 & K3 & K4 & K5). destruct (s_results2 r K2 K5 K4) as [d Hd].
  set (C := table_codec [("2", [("fast", JList l)]); ("3", d); ("1", sm_file)]). assert (HC : faithful C) by (apply table_codec_faithful; cbn; repeat constructor; cbn; intuition congruence).
  assert (HM : scan_model ex_env C s_pf s_match s_opts2 s_fs = Ok (sm, I)).
  { unfold scan_model, model_load_file. change (load_file C s_fs (so_model s_opts2) None) with (Ok sm_file). cbn [bind]. change (new_model (negb (so_sym s_opts2)) (so_linear s_opts2)) with (new_model false true). rewrite HL. reflexivity. }
  assert (HDa : scan_data C s_pf s_match s_opts2 s_fs (sm, I) = Ok data) by exact HD.
  assert (P1 : exists t1, c_dump C "json" [("fast", JList l)] = ([t1], None)) by (unfold C, table_codec; cbn [c_dump find snd]; destruct (jv_eq_dec _ _); [eexists; reflexivity|contradiction]).
  assert (P2 : exists t1, c_dump C "json" d = ([t1], None)).
  { unfold C, table_codec; cbn [c_dump find snd]. destruct (jv_eq_dec (JObj [("fast", JList l)]) (JObj d)); [eexists; reflexivity|]. destruct (jv_eq_dec (JObj d) (JObj d)); [eexists; reflexivity|contradiction]. }
  destruct P1 as [t1 P1]. destruct P2 as [t2 P2]. exists C, I, data. eexists. split; [exact HC|]. split; [exact HM|]. split; [exact HDa|]. split; [reflexivity|]. split; [reflexivity|].
  rewrite (run_fresh s_libs ex_env C any_path s_pf no_int s_match s_opts2 s_fs sm I data _ s_hypos2 HM HDa (or_intror eq_refl) eq_refl eq_refl). rewrite K1. cbn [bind]. rewrite K3. cbn [bind].
  unfold save_ops at 1. change (flavor_of (raster_file s_opts2) None) with "json". cbn [negb any_path String.eqb Ascii.eqb Bool.eqb orb]. rewrite P1. unfold scan_finish. fold (level_value s_pf).
  change (mapM (level_value s_pf) (split "," (so_cl s_opts2))) with (@Ok (list R) [1]). change (have_compatible_pois s_hypos2) with ["mu"]. cbv iota beta. rewrite Hd. cbn [so_timing s_opts2 s_with s_opts andb]. unfold save_ops. change (flavor_of (results_file s_opts2) (Some "json")) with "json". cbn [negb any_path String.eqb Ascii.eqb Bool.eqb orb]. rewrite P2. reflexivity.
Qed.
(** no hypotheses *)
Example C106_force_nonvacuous : exists C I data ib ops, let o := mkSO "m.json" None (Some "mu=1") None "1" "scan" false true "all" None true true 1 None None false in
  scan_model ex_env C s_pf s_match o s_fs = Ok (sm, I) /\ scan_data C s_pf s_match o s_fs (sm, I) = Ok data /\ set_pois_min sm I None None None false = Ok ib /\ fresh o s_fs /\ save_ops C any_path (raster_file o) None [("fast", JList [])] = (ops, None) /\ map s_pf (split "," (so_cl o)) = map Some [1].
Proof.
  destruct s_loads as (I & HL & Hp & Hr & _ & data & HD). exists (table_codec [("1", sm_file); ("2", [("fast", JList [])])]), I, data. do 2 eexists. cbv zeta.
  split; [unfold scan_model, model_load_file; cbn [so_sym so_linear negb so_model]; change (load_file _ s_fs "m.json" None) with (Ok sm_file); cbn [bind]; rewrite HL; reflexivity|]. split; [exact HD|].
  split; [unfold set_pois_min, sm, tmod; rewrite Hp, Hr; ev; reflexivity|]. split; [now left|]. split; [|reflexivity].
  unfold save_ops. cbn [negb any_path]. change (flavor_of _ None) with "json". cbn [String.eqb Ascii.eqb Bool.eqb orb]. unfold table_codec. cbn [c_dump find snd]. destruct (jv_eq_dec (JObj sm_file) (JObj [("fast", JList [])])) as [X|]; [|destruct (jv_eq_dec _ _); [reflexivity|contradiction]].
  exfalso. injection X as X. revert X. unfold sm_file, sm, tmod. ev. discriminate.
Qed.
(** ** options *)
Example C107_options_nonvacuous : exists C I data ib mi, let o := mkSO "m.json" None (Some "mu=1") (Some "mu=1|mu=2") "1" "scan" false false "best_fixed" None true true 1 None None false in
  let reg := mkSO "m.json" None (Some "mu=1") (Some "mu=1|mu=2") "1" "scan" false false "single" None true true 1 (Some 3) None false in
  scan_model ex_env C s_pf s_match o s_fs = Ok (sm, I) /\ scan_data C s_pf s_match o s_fs (sm, I) = Ok data /\ set_pois_min sm I None None None false = Ok ib /\ fresh o s_fs /\ parse_hypos (e_fuel ex_env) s_pf no_int s_match sm "mu=1|mu=2" = Ok [[("mu", 1)]; [("mu", 2)]] /\
  model_load_file ex_env C s_fs (new_model (negb (so_sym reg)) (so_linear reg)) (so_model reg) None = Ok mi.
Proof.
  destruct s_loads as (I & HL & Hp & Hr & _ & data & HD). exists (table_codec [("1", sm_file)]), I, data. do 2 eexists. cbv zeta.
  split; [unfold scan_model, model_load_file; cbn [so_sym so_linear negb so_model]; change (load_file _ s_fs "m.json" None) with (Ok sm_file); cbn [bind]; rewrite HL; reflexivity|]. split; [exact HD|].
  split; [unfold set_pois_min, sm, tmod; rewrite Hp, Hr; ev; reflexivity|]. split; [now right|]. split; [reflexivity|]. unfold model_load_file. cbn [so_sym so_linear negb so_model]. change (load_file _ s_fs "m.json" None) with (Ok sm_file). cbn [bind]. exact HL.
Qed.
Example C107_documented_separator_nonvacuous : part "mu" /\ part "1" /\ free_of "|" "mu" /\ free_of "|" "1" /\ parse_hypos (e_fuel ex_env) s_pf no_int s_match sm "mu=1#mu=1" = Err ValueError.
Proof. repeat split; try discriminate. Qed.
Example C107_timing_nonvacuous : exists C I f r data data2, let o := s_with s_opts "mu=1" "mu=1|mu=2|mu=3|mu=4|mu=5" false true "1,0.9" in let bad := s_with s_opts "mu=1" "mu=1|mu=2|mu=3|mu=4|mu=5" false false "1 sigma" in
  scan_model ex_env C s_pf s_match o f = Ok (sm, I) /\ scan_data C s_pf s_match o f (sm, I) = Ok data /\ cached_raster s_libs C o f I = Ok (Some r) /\ parse_hypos (e_fuel ex_env) s_pf no_int s_match sm "mu=1|mu=2|mu=3|mu=4|mu=5" = Ok s_hypos /\ answers r s_hypos /\ so_timing o = true /\
  map s_pf (split "," (so_cl o)) = map Some [1; 9/10] /\ (exists d, scan_results s_libs sm r (have_compatible_pois s_hypos) [1; 9/10] = Ok d) /\
  scan_model ex_env C s_pf s_match bad f = Ok (sm, I) /\ scan_data C s_pf s_match bad f (sm, I) = Ok data2 /\ cached_raster s_libs C bad f I = Ok (Some r) /\ In "1 sigma" (split "," (so_cl bad)) /\ s_pf "1 sigma" = None.
Proof.
  destruct s_stored as (C & I & f & r & HC & HM & Hn & Hf & Hc & Ha & Hl & Hw & Hd1 & Hd2 & Hres). destruct (Hd1 "1,0.9" "mu=1|mu=2|mu=3|mu=4|mu=5" false true) as [data D1]. destruct (Hd1 "1 sigma" "mu=1|mu=2|mu=3|mu=4|mu=5" false false) as [data2 D2].
  exists C, I, f, r, data, data2. cbv zeta. repeat split; try (apply Hw); try exact D1; try exact D2; try reflexivity; try (apply Ha); [exact Hres|now left].
Qed.
Lemma s_one I data : i_pm I = mkPM ["mu"] [("a", 0, 1)] -> i_ref_pois I = [1] -> exists r l, scan_compute s_libs s_opts (sm, I) data [[("mu", 2)]] = Ok r /\ raster_dump r = Ok l.
Proof.
  intros Hp Hr. unfold scan_compute, set_pois_min, sm, tmod. cbn [fst snd so_mode so_niter s_opts]. rewrite Hp, Hr. do 2 eexists. split.
  - unfold tmu_results. cbn [map foldM tmu_step hget bind fst snd mode_of String.eqb Ascii.eqb Bool.eqb]. unfold tmu_point, common_free, finish_point, set_pois_min, check_hypo. rewrite Hp, Hr. ev. reflexivity.
  - reflexivity.
Qed.
Example C107_incompatible_hypotheses_nonvacuous : exists C I data r l ops, let o := s_with s_opts "mu=1" "mu=2" false false "1" in
  scan_model ex_env C s_pf s_match o s_fs = Ok (sm, I) /\ scan_data C s_pf s_match o s_fs (sm, I) = Ok data /\ fresh o s_fs /\ parse_hypos (e_fuel ex_env) s_pf no_int s_match sm "mu=2" = Ok [[("mu", 2)]] /\ map s_pf (split "," (so_cl o)) = map Some [1] /\
  scan_compute s_libs o (sm, I) data [[("mu", 2)]] = Ok r /\ raster_dump r = Ok l /\ save_ops C any_path (raster_file o) None [("fast", JList l)] = (ops, None).
Proof.
  destruct s_loads as (I & HL & Hp & Hr & _ & data & HD). destruct (s_one I data Hp Hr) as (r & l & K1 & K2). exists (table_codec [("2", [("fast", JList l)]); ("1", sm_file)]), I, data, r, l. eexists. cbv zeta.
  split; [unfold scan_model, model_load_file; cbn [so_sym so_linear negb so_model s_with s_opts]; change (load_file _ s_fs "m.json" None) with (Ok sm_file); cbn [bind]; rewrite HL; reflexivity|]. split; [exact HD|]. split; [now right|]. split; [reflexivity|]. split; [reflexivity|]. split; [exact K1|]. split; [exact K2|].
  unfold save_ops. cbn [negb any_path]. change (flavor_of _ None) with "json". cbn [String.eqb Ascii.eqb Bool.eqb orb]. unfold table_codec. cbn [c_dump find snd]. destruct (jv_eq_dec _ _); [reflexivity|contradiction].
Qed.
Example C107_asimov_nps_ignored_nonvacuous : exists I data, let o := s_with s_opts "mu=1" "" false false "" in let o' := s_with s_opts "mu=1,a=5" "" false false "" in i_pm I = mkPM ["mu"] [("a", 0, 1)] /\
  process_setvals s_pf s_match sm true true true false "mu=1" = Ok [("mu", SNum 1)] /\ process_setvals s_pf s_match sm true true true false "mu=1,a=5" = Ok [("mu", SNum 1); ("a", SNum 5)] /\
  (forall C, scan_data C s_pf s_match o s_fs (sm, I) = Ok data /\ scan_data C s_pf s_match o' s_fs (sm, I) = Ok data).
Proof.
  destruct s_loads as (I & HL & Hp & Hr & _ & data & HD). exists I, data. cbv zeta. split; [exact Hp|]. split; [reflexivity|]. split; [reflexivity|]. intros C. split; [exact HD|].
  unfold scan_data. cbn [so_data so_asimov s_with s_opts fst snd]. change (process_setvals s_pf s_match sm true true true false "mu=1,a=5") with (@Ok (dict sval) [("mu", SNum 1); ("a", SNum 5)]). cbn [bind numbers_of mapM fst snd or_value_error]. rewrite <- HD. unfold expected_data. rewrite Hp. reflexivity.
Qed.
(** three parameters *)
Example C107_too_many_parameters_nonvacuous : exists C I data ib m, let o := mkSO "m.json" None (Some "mu=1,nu=1,xi=1") (Some "mu=1,nu=1,xi=1|mu=2,nu=2,xi=2") "1" "scan" false false "single" None false false 1 None None false in
  scan_model ex_env C s_pf s_match o s_fs = Ok (m, I) /\ scan_data C s_pf s_match o s_fs (m, I) = Ok data /\ set_pois_min m I None None None false = Ok ib /\ fresh o s_fs /\
  parse_hypos (e_fuel ex_env) s_pf no_int s_match m "mu=1,nu=1,xi=1|mu=2,nu=2,xi=2" = Ok [[("mu", 1); ("nu", 1); ("xi", 1)]; [("mu", 2); ("nu", 2); ("xi", 2)]] /\ (2 < length (have_compatible_pois [[("mu", 1%R); ("nu", 1%R); ("xi", 1%R)]; [("mu", 2%R); ("nu", 2%R); ("xi", 2%R)]]))%nat.
Proof.
  assert (X : exists I, model_load ex_env (new_model true false) (filled rq0) = Ok (rq0, I) /\ (exists ib, set_pois_min rq0 I None None None false = Ok ib) /\ exists data, expected_data rq0 I [("mu", 1); ("nu", 1); ("xi", 1)] = Ok data).
  { eexists. split; [unfold model_load, finish, filled, rq0, rq_model, rp_model; ev; reflexivity|]. split; [eexists; unfold set_pois_min, rq0, rq_model, rp_model; ev; reflexivity|]. eexists. unfold expected_data, pars_init, pois_from_dict, rq0, rq_model, rp_model. ev. reflexivity. }
  destruct X as (I & HL & [ib Hib] & data & HD). exists (table_codec [("1", filled rq0)]), I, data, ib, rq0. cbv zeta.
  split; [unfold scan_model, model_load_file; cbn [so_sym so_linear negb so_model]; change (load_file _ s_fs "m.json" None) with (Ok (filled rq0)); cbn [bind]; rewrite HL; reflexivity|]. split; [exact HD|]. split; [exact Hib|]. split; [now right|]. split; [reflexivity|]. cbn. lia.
Qed.

(** two parameters *)
Definition sm2_file : dict jv := match model_fill ex_env tmod2 [] with Ok d => d | Err _ => [] end.
Definition s_libs2 : ScanLibs := mkSL h0 (sl_dist s_libs) s_spline (sl_stat s_libs) (fun _ _ _ => mkFit (fun _ _ p => Ok (None, p, Fin ((nth 0 (pois p) 0 - 3) * (nth 0 (pois p) 0 - 3)))) (fun _ => false) (fun _ obj _ _ _ => let! v := obj [3; 3] in Ok (mkOpt [[3; 3]] true [3; 3] v)))
  (fun _ a b => Some (a, b)) (sl_repr s_libs).
Definition s_opts3 : ScanOpts := s_with s_opts "mu=1,nu=1" "mu=1,nu=1|mu=2,nu=2" false false "1".
Definition s_hypos3 : list Hypo := [[("mu", 1); ("nu", 1)]; [("mu", 2); ("nu", 2)]].
Lemma s_loads2 : exists I, model_load ex_env (new_model false true) sm2_file = Ok (tmod2, I) /\ i_pm I = mkPM ["mu"; "nu"] [("a", 0, 1)] /\ i_ref_pois I = [1; 1] /\ exists data, expected_data tmod2 I [("mu", 1); ("nu", 1)] = Ok data.
Proof.
  unfold model_load, finish, sm2_file, tmod2. eexists. split; [ev; reflexivity|]. split; [reflexivity|]. split; [reflexivity|]. eexists; unfold expected_data, pars_init, pois_from_dict; ev; reflexivity.
Qed.
Lemma s_computed3 I data : i_pm I = mkPM ["mu"; "nu"] [("a", 0, 1)] -> i_ref_pois I = [1; 1] -> exists r l, scan_compute s_libs2 s_opts3 (tmod2, I) data s_hypos3 = Ok r /\ raster_dump r = Ok l /\ scan_results s_libs2 tmod2 r ["mu"; "nu"] [1] = Ok [].
Proof.
  intros Hp Hr. unfold scan_compute, set_pois_min, tmod2, s_hypos3. cbn [fst snd so_mode so_niter s_opts3 s_with s_opts]. rewrite Hp, Hr. do 2 eexists. split.
  - unfold tmu_results. cbn [map foldM tmu_step hget bind fst snd mode_of String.eqb Ascii.eqb Bool.eqb]. unfold tmu_point, common_free, finish_point, set_pois_min, check_hypo. rewrite Hp, Hr. ev. reflexivity.
  - split; [reflexivity|]. cbn [scan_results contour_levels]. unfold level_args. destruct (is_integer 1); cbn [fst snd]; ev; reflexivity.
Qed.
Example C107_two_parameters_nonvacuous : exists C I data ops, faithful C /\ scan_model ex_env C s_pf s_match s_opts3 s_fs = Ok (tmod2, I) /\ scan_data C s_pf s_match s_opts3 s_fs (tmod2, I) = Ok data /\ fresh s_opts3 s_fs /\
  parse_hypos (e_fuel ex_env) s_pf no_int s_match tmod2 "mu=1,nu=1|mu=2,nu=2" = Ok s_hypos3 /\ have_compatible_pois s_hypos3 = ["mu"; "nu"] /\ map s_pf (split "," (so_cl s_opts3)) = map Some [1] /\
  scan_run s_libs2 ex_env C any_path s_pf no_int s_match s_opts3 s_fs = (ops, None).
Proof.
  destruct s_loads2 as (I & HL & Hp & Hr & data & HD). destruct (s_computed3 I data Hp Hr) as (r & l & K1 & K3 & Hd).
  set (C := table_codec [("2", [("fast", JList l)]); ("3", []); ("1", sm2_file)]). assert (HC : faithful C) by (apply table_codec_faithful; cbn; repeat constructor; cbn; intuition congruence).
  assert (HM : scan_model ex_env C s_pf s_match s_opts3 s_fs = Ok (tmod2, I)).
  { unfold scan_model, model_load_file. change (load_file C s_fs (so_model s_opts3) None) with (Ok sm2_file). cbn [bind]. change (new_model (negb (so_sym s_opts3)) (so_linear s_opts3)) with (new_model false true). rewrite HL. reflexivity. }
  assert (HDa : scan_data C s_pf s_match s_opts3 s_fs (tmod2, I) = Ok data) by exact HD.
  assert (P1 : exists t1, c_dump C "json" [("fast", JList l)] = ([t1], None)) by (unfold C, table_codec; cbn [c_dump find snd]; destruct (jv_eq_dec _ _); [eexists; reflexivity|contradiction]).
  assert (P2 : exists t1, c_dump C "json" [] = ([t1], None)).
  { unfold C, table_codec; cbn [c_dump find snd]. destruct (jv_eq_dec (JObj [("fast", JList l)]) (JObj [])); [eexists; reflexivity|]. destruct (jv_eq_dec (JObj []) (JObj [])); [eexists; reflexivity|contradiction]. }
  destruct P1 as [t1 P1]. destruct P2 as [t2 P2]. exists C, I, data. eexists. split; [exact HC|]. split; [exact HM|]. split; [exact HDa|]. split; [now right|]. split; [reflexivity|]. split; [reflexivity|]. split; [reflexivity|].
  rewrite (run_fresh s_libs2 ex_env C any_path s_pf no_int s_match s_opts3 s_fs tmod2 I data _ s_hypos3 HM HDa (or_intror eq_refl) eq_refl eq_refl). rewrite K1. cbn [bind]. rewrite K3. cbn [bind].
  unfold save_ops at 1. change (flavor_of (raster_file s_opts3) None) with "json". cbn [negb any_path String.eqb Ascii.eqb Bool.eqb orb]. rewrite P1. unfold scan_finish. fold (level_value s_pf).
  change (mapM (level_value s_pf) (split "," (so_cl s_opts3))) with (@Ok (list R) [1]). change (have_compatible_pois s_hypos3) with ["mu"; "nu"]. cbv iota beta. rewrite Hd. cbn [so_timing s_opts3 s_with s_opts andb]. unfold save_ops. change (flavor_of (results_file s_opts3) (Some "json")) with "json". cbn [negb any_path String.eqb Ascii.eqb Bool.eqb orb]. rewrite P2. reflexivity.
Qed.
