(** Concrete cases of the theorems of LimitCommandProps.v: runs of compute_fast_limits on a model with a signal and a background. *)
From Verif Require Import Py PyFacts RSort Base BaseFacts Expressions Norms Sample Channels Params ParamsFacts Core CoreExample CoreFacts NpMin PoiMin PoiMinFacts PoiMinProps PoiHistProps TestStat FitData FitDataFacts FitDataProps RasterProps
  ParamsProps UtilFacts Calculators CalcFacts CalcProps Scans ScansProps ModelIO ModelTools UtilTools LimitTools FileIO FileIOProps Commands Sampling SamplingFacts SamplingProps FileName FileNameProps ScanFacts ScanCommand ScanCommandProps ScanCommandExProps SamplesRun SamplesRunProps
  CommandChannelProps CommandReparamProps CommandMergeProps ReparamProps LimitCommand LimitFacts LimitCommandProps.
Local Open Scope string_scope.
Local Open Scope list_scope.
Local Open Scope R_scope.
Definition lm : Model :=
  mkModel "t" None [("mu", mkPOI (Some "mu") (Some 0) (Some 10) (Some 1) None None)] [] []
    [("C", mkChannel "C" (KMulti ["b1"]) [("S", mkSample "S" (ExprNorm "mu") (Some 1) (Some [10]) []); ("B", mkSample "B" (NumberNorm (Some 1)) (Some 1) (Some [5]) [])])] [] true false true false 0.
Definition lm_file : dict jv := match model_fill ex_env lm [] with Ok d => d | Err _ => [] end.
Lemma l_loads : exists I, model_load ex_env (new_model true false) lm_file = Ok (lm, I) /\ i_pm I = mkPM ["mu"] [] /\ i_ref_pois I = [1] /\ (exists data, expected_data lm I [("mu", 2)] = Ok data) /\ exists data, expected_data lm I [("mu", 1)] = Ok data.
Proof.
  unfold model_load, finish, lm_file, lm. eexists. split; [ev; reflexivity|]. split; [reflexivity|]. split; [reflexivity|]. split; (eexists; unfold expected_data, pars_init, pois_from_dict; ev; reflexivity).
Qed.

Definition l_hypos : list Hypo := [[("mu", 4)]; [("mu", 5)]; [("mu", 6)]; [("mu", 7)]].
Definition l_libs : LimitLibs := mkLL (mkSL h0 (mkDist (fun _ => 1/2) (fun _ => 0) (fun _ _ => 1/2)) (mkSpl (fun _ _ _ _ => 0) (fun _ _ => [6; 7]) (fun _ _ => [])) (mkStat (fun _ _ => 1/3) (fun _ _ => 2) (fun _ => 1/2)) (fun _ _ _ => tfit (topt true [3])) (fun _ _ _ => None) (fun x => "0"))
  (fun _ _ _ => Ok (fun _ => 0)) (fun _ => 1/2) (fun n => "0") (fun _ _ _ _ _ _ n => Ok (repeat 1 n)).

Lemma l_asimov I : model_load ex_env (new_model true false) lm_file = Ok (lm, I) -> forall data, expected_data lm I [("mu", 1)] = Ok data -> exists a, generate_expected_0 (ll_solver l_libs) lm I data = Ok a.
Proof.
  unfold model_load, finish, lm_file, lm. ev. intros [= <-] data. unfold expected_data, pars_init, pois_from_dict. ev. intros [= <-]. eexists. unfold generate_expected_0. evA.
  match goal with |- context [Rltb ?x ((1 / 1000) ^ 0)] => destruct (Rltb x ((1 / 1000) ^ 0)) end; evA; reflexivity.
Qed.
Definition l_s : Mini := PoiMin.with_pois (mini_init "scalar" 1 (Some (/ 10000000)) 0 None false 1) (mkPars [1] [] (Some (mkPM ["mu"] [])), [("mu", mkPB "mu" (Some 0) (Some 10))]).
Lemma l_mini I : i_pm I = mkPM ["mu"] [] -> i_ref_pois I = [1] -> limit_minimizer (lm, I) [] = Ok l_s.
Proof. intros Hp Hr. unfold limit_minimizer, set_pois_min. cbn [fst snd]. rewrite Hp, Hr. unfold lm. ev. reflexivity. Qed.

Definition l_fit : FitEnv := tfit (topt true [3]).
Definition l_fr (x : R) : FitResult := mkFR [("mu", mkFP (mkPOI (Some "mu") None None None None None) (Some x) None)] (Some ((x - 3) * (x - 3))) (Some (mkPM ["mu"] [])).
Definition l_tmu (x : R) : R := 2 * ((x - 3) * (x - 3) + - ((3 - 3) * (3 - 3))).
Definition l_full (x : R) : Params := mkPars [x] [] (Some (mkPM ["mu"] [])).
Definition lsame (s : Mini) : Prop := (config s, mi_bounds s) = (config l_s, mi_bounds l_s).
Lemma l_plr I s x : i_pm I = mkPM ["mu"] [] -> 3 < x <= 10 -> lsame s -> exists s',
  compute_fast_plr lm I l_fit s [("mu", x)] (Some (l_full x)) = Ok (mkPLR [("mu", x)] (l_fr 3) (l_fr x) [("tmu", VNum (l_tmu x))] [] (Some (l_full x)) (Some (mkPM ["mu"] [])) None, s') /\ lsame s'.
Proof.
  intros Hp Hx Hc. assert (T : 0 < 2 * ((x - 3) * (x - 3) + - ((3 - 3) * (3 - 3)))) by nra. destruct s. unfold lsame in Hc. cbn in Hc. injection Hc as -> -> -> -> -> -> -> ->. eexists. unfold l_fr. split.
  - unfold compute_fast_plr, opti_tmu, poi_tmu, set_pois_min, check_hypo. rewrite Hp. evA. reflexivity.
  - reflexivity.
Qed.
Definition l_pt (t x : R) : PLR :=
  mkPLR [("mu", x)] (l_fr 3) (l_fr x) [("tmu", VNum t); ("tmu_A0", VNum (l_tmu x)); ("q_mu", VNum t)] [("pv", VNum (1 / 2)); ("cls", VNum (1 / 2 / (1 / 2))); ("clb", VNum (1 / 2))] (Some (l_full x)) (Some (mkPM ["mu"] []))
    (Some (mkPLR [("mu", x)] (l_fr 3) (l_fr x) [("tmu", VNum (l_tmu x))] [] (Some (l_full x)) (Some (mkPM ["mu"] [])) None)).
Lemma l_q I data a s x : i_pm I = mkPM ["mu"] [] -> generate_expected_0 (ll_solver l_libs) lm I data = Ok a -> 3 < x <= 10 -> lsame s -> exists s',
  compute_fast_q (sl_dist (ll_scan l_libs)) CalcQMu (ll_solver l_libs) lm I (sl_fit (ll_scan l_libs) lm I) data s [("mu", x)] (Some (l_full x)) = Ok (l_pt (l_tmu x) x, s') /\ lsame s'.
Proof.
  intros Hp Ha Hx Hc. assert (T : 0 < 2 * ((x - 3) * (x - 3) + - ((3 - 3) * (3 - 3)))) by nra. destruct (l_plr I s x Hp Hx Hc) as (s1 & E1 & C1). destruct (l_plr I s1 x Hp Hx C1) as (s2 & E2 & C2). exists s2. split; [|exact C2].
  unfold compute_fast_q. change (sl_fit (ll_scan l_libs) lm I data) with l_fit. rewrite E1. cbn [bind]. rewrite Ha. cbn [bind]. change (sl_fit (ll_scan l_libs) lm I a) with l_fit. rewrite E2. cbn [bind].
  unfold l_pt, l_tmu, l_fr. evA. reflexivity.
Qed.
Definition l_raster : Raster := mkRaster (map (fun x => ([("mu", x)], l_pt (2 * ((x - 3) * (x - 3) - (3 - 3) * (3 - 3))) x)) [4; 5; 6; 7]) ["mu"] (Some (mkPM ["mu"] [])).
Lemma l_computed I data a : i_pm I = mkPM ["mu"] [] -> generate_expected_0 (ll_solver l_libs) lm I data = Ok a -> limit_compute l_libs CalcQMu l_s (lm, I) data l_hypos = Ok l_raster.
Proof.
  intros Hp Ha. unfold limit_compute. cbn [fst snd]. rewrite Hp.
  assert (F : foldM (fun d h => let! p := pars_init (PIDict (map (fun kv => (fst kv, Some (snd kv))) h)) NINone (Some (mkPM ["mu"] [])) in Ok (hset (sl_hash (ll_scan l_libs)) h p d)) l_hypos [] = Ok (map (fun x => ([("mu", x)], l_full x)) [4; 5; 6; 7])) by (evA; reflexivity).
  rewrite F. cbn [bind]. unfold compute_fast_results, l_hypos. cbn [foldM].
  assert (G : forall x, In x [4; 5; 6; 7] -> hget (sl_hash (ll_scan l_libs)) [("mu", x)] (map (fun x => ([("mu", x)], l_full x)) [4; 5; 6; 7]) = Some (l_full x)).
  { intros x Hx. cbn in Hx. decompose [or] Hx; subst; try contradiction; evA; reflexivity. }
  destruct (l_q I data a l_s 4 Hp Ha ltac:(lra) eq_refl) as (s1 & E1 & C1). destruct (l_q I data a s1 5 Hp Ha ltac:(lra) C1) as (s2 & E2 & C2). destruct (l_q I data a s2 6 Hp Ha ltac:(lra) C2) as (s3 & E3 & C3). destruct (l_q I data a s3 7 Hp Ha ltac:(lra) C3) as (s4 & E4 & C4).
  rewrite (G 4), (G 5), (G 6), (G 7) by (cbn; auto). cbn [fst snd]. rewrite E1. cbn [bind fst snd]. rewrite E2. cbn [bind fst snd]. rewrite E3. cbn [bind fst snd]. rewrite E4. cbn [bind fst snd]. rewrite Hp. clear.
  match goal with |- context [raster_new ?p _ _ _] => assert (P : p = map (fun x => ([("mu", x)], l_pt (l_tmu x) x)) [4; 5; 6; 7]) end.
  { evA. reflexivity. }
  rewrite P. clear P. unfold l_raster, l_pt, l_fr, l_tmu. evA. reflexivity.
Qed.

(** two hypotheses, or only one *)
Definition l_rast (xs : list R) : Raster := mkRaster (map (fun x => ([("mu", x)], l_pt (2 * ((x - 3) * (x - 3) - (3 - 3) * (3 - 3))) x)) xs) (match xs with [_] => [] | _ => ["mu"] end) (Some (mkPM ["mu"] [])).
Lemma l_computed2 I data a : i_pm I = mkPM ["mu"] [] -> generate_expected_0 (ll_solver l_libs) lm I data = Ok a -> limit_compute l_libs CalcQMu l_s (lm, I) data [[("mu", 4)]; [("mu", 5)]] = Ok (l_rast [4; 5]).
Proof.
  intros Hp Ha. unfold limit_compute. cbn [fst snd]. rewrite Hp.
  assert (F : foldM (fun d h => let! p := pars_init (PIDict (map (fun kv => (fst kv, Some (snd kv))) h)) NINone (Some (mkPM ["mu"] [])) in Ok (hset (sl_hash (ll_scan l_libs)) h p d)) [[("mu", 4)]; [("mu", 5)]] [] = Ok (map (fun x => ([("mu", x)], l_full x)) [4; 5])) by (evA; reflexivity).
  rewrite F. cbn [bind]. unfold compute_fast_results. cbn [foldM].
  assert (G : forall x, In x [4; 5] -> hget (sl_hash (ll_scan l_libs)) [("mu", x)] (map (fun x => ([("mu", x)], l_full x)) [4; 5]) = Some (l_full x)).
  { intros x Hx. cbn in Hx. decompose [or] Hx; subst; try contradiction; evA; reflexivity. }
  destruct (l_q I data a l_s 4 Hp Ha ltac:(lra) eq_refl) as (s1 & E1 & C1). destruct (l_q I data a s1 5 Hp Ha ltac:(lra) C1) as (s2 & E2 & C2).
  rewrite (G 4), (G 5) by (cbn; auto). cbn [fst snd]. rewrite E1. cbn [bind fst snd]. rewrite E2. cbn [bind fst snd]. rewrite Hp. clear.
  match goal with |- context [raster_new ?p _ _ _] => assert (P : p = map (fun x => ([("mu", x)], l_pt (l_tmu x) x)) [4; 5]) end.
  { evA. reflexivity. }
  rewrite P. clear P. unfold l_rast, l_pt, l_fr, l_tmu. evA. reflexivity.
Qed.
Lemma l_computed1 I data a : i_pm I = mkPM ["mu"] [] -> generate_expected_0 (ll_solver l_libs) lm I data = Ok a -> limit_compute l_libs CalcQMu l_s (lm, I) data [[("mu", 4)]] = Ok (l_rast [4]).
Proof.
  intros Hp Ha. unfold limit_compute. cbn [fst snd]. rewrite Hp.
  assert (F : foldM (fun d h => let! p := pars_init (PIDict (map (fun kv => (fst kv, Some (snd kv))) h)) NINone (Some (mkPM ["mu"] [])) in Ok (hset (sl_hash (ll_scan l_libs)) h p d)) [[("mu", 4)]] [] = Ok (map (fun x => ([("mu", x)], l_full x)) [4])) by (evA; reflexivity).
  rewrite F. cbn [bind]. unfold compute_fast_results. cbn [foldM].
  assert (G : hget (sl_hash (ll_scan l_libs)) [("mu", 4)] (map (fun x => ([("mu", x)], l_full x)) [4]) = Some (l_full 4)) by (evA; reflexivity).
  destruct (l_q I data a l_s 4 Hp Ha ltac:(lra) eq_refl) as (s1 & E1 & C1).
  rewrite G. cbn [fst snd]. rewrite E1. cbn [bind fst snd]. rewrite Hp. clear.
  match goal with |- context [raster_new ?p _ _ _] => assert (P : p = map (fun x => ([("mu", x)], l_pt (l_tmu x) x)) [4]) end.
  { evA. reflexivity. }
  rewrite P. clear P. unfold l_rast, l_pt, l_fr, l_tmu. evA. reflexivity.
Qed.
Lemma l_rast4 : l_raster = l_rast [4; 5; 6; 7].
Proof. reflexivity. Qed.

(** ** runs *)
Definition l_pf (s : string) : option R := dget s [("1", 1); ("2", 2); ("4", 4); ("5", 5); ("6", 6); ("7", 7); ("8", 8)].
Definition l_opts (hypos asimov : string) (overwrite : bool) : LimitOpts := mkLO "m.json" hypos 0 (9 / 10) "lim" None (Some asimov) 1 None None None "q_mu" false overwrite None None.
Definition l_four : string := "mu=4|mu=5|mu=6|mu=7".
Lemma l_parse : parse_hypos (e_fuel ex_env) l_pf no_int s_match lm l_four = Ok l_hypos.
Proof. reflexivity. Qed.
Lemma l_eval I : fits_evaluate l_libs lm I.
Proof. intros d. exact s_eval. Qed.
Lemma l_distinct : distinct h0 l_hypos.
Proof.
  split; [intros h Hh; cbn in Hh; decompose [or] Hh; subst; try contradiction; repeat constructor; intros []|]. unfold l_hypos. repeat (constructor; [repeat (constructor; [unfold same_key, hypo_eqb; cbn; rdec; reflexivity|]); constructor|]). constructor.
Qed.
Lemma l_model C I f o : f "m.json" = Some "1" -> c_parse C "json" "1" = Ok lm_file -> model_load ex_env (new_model true false) lm_file = Ok (lm, I) -> lo_model o = "m.json" -> lo_regularize o = None -> lo_cutoff o = None -> limit_model ex_env C o f = Ok (lm, I).
Proof.
  intros Hf HC HL Ho Hr Hc. unfold limit_model, model_load_file. rewrite Ho, Hr, Hc. unfold load_file. rewrite Hf. change (flavor_of "m.json" None) with "json". cbn [String.eqb Ascii.eqb Bool.eqb orb]. rewrite HC. cbn [bind]. rewrite HL. reflexivity.
Qed.
Definition l_dumped (xs : list R) : list jv := match raster_dump (l_rast xs) with Ok l => l | Err _ => [] end.
Lemma l_dump xs : In xs [[4; 5; 6; 7]; [4; 5]; [4]] -> raster_dump (l_rast xs) = Ok (l_dumped xs).
Proof. intros [<-|[<-|[<-|[]]]]; reflexivity. Qed.
Lemma l_limits cl : asymptotic_limits (sl_spline (ll_scan l_libs)) (l_rast [4; 5; 6; 7]) cl = Ok (Some 6, Some 6).
Proof. unfold l_rast, l_pt, l_fr. evA. reflexivity. Qed.
Lemma l_limits2 cl : asymptotic_limits (sl_spline (ll_scan l_libs)) (l_rast [4; 5]) cl = Ok (None, None).
Proof. unfold l_rast, l_pt, l_fr. evA. reflexivity. Qed.
Definition l_results (cl : R) (v : option R) : dict jv := match limit_results (fun n => "0") (with_cl (l_opts l_four "mu=1" false) cl) lm (v, v) None with Ok d => d | Err _ => [] end.
Definition l_data : dict jv := [("data", JObj [("channels", JList [JObj [("name", JStr "C"); ("bins", JList [JObj [("name", JStr "b1"); ("counts", JInt 7)]])]]); ("aux_obs", JList [])])].
Definition l_docs : list (dict jv) := [lm_file; [("fast", JList (l_dumped [4; 5; 6; 7]))]; l_results (9 / 10) (Some 6); l_results (8 / 10) (Some 6); [("fast", JList (l_dumped [4; 5]))]; l_results (9 / 10) None; [("fast", JList (l_dumped [4]))]; l_data].
Definition l_codec : Codec := table_codec (combine ["1"; "2"; "3"; "4"; "5"; "6"; "7"; "8"] l_docs).
Lemma l_faithful : faithful l_codec.
Proof. apply table_codec_faithful. unfold l_docs. cbn [keys map fst combine]. repeat constructor; cbn; intuition congruence. Qed.
Lemma l_saves d : In d l_docs -> exists t, c_dump l_codec "json" d = ([t], None).
Proof.
  intros H. unfold l_codec, table_codec, l_docs in *. cbn [c_dump find snd combine]. repeat (match goal with |- context [jv_eq_dec ?a ?b] => destruct (jv_eq_dec a b) as [?E|?N]; [eexists; reflexivity|] end). exfalso. cbn [In] in H. decompose [or] H; subst; try contradiction; congruence.
Qed.
Lemma l_save path flavor d : In d l_docs -> flavor_of path flavor = "json" -> exists ops, save_ops l_codec any_path path flavor d = (ops, None).
Proof. intros H Hf. destruct (l_saves d H) as [t Ht]. unfold save_ops. rewrite Hf. cbn [negb any_path String.eqb Ascii.eqb Bool.eqb orb]. rewrite Ht. eexists. reflexivity. Qed.
Definition l_fs : fs := fun q => if String.eqb q "m.json" then Some "1" else if String.eqb q "d.json" then Some "8" else None.
Definition hyps (xs : list R) : list Hypo := map (fun x => [("mu", x)]) xs.
(** everything before the raster *)
Lemma l_inputs : exists I, model_load ex_env (new_model true false) lm_file = Ok (lm, I) /\ i_pm I = mkPM ["mu"] [] /\ NoDup (pm_pois (i_pm I) ++ np_names (i_pm I)) /\ limit_minimizer (lm, I) [] = Ok l_s /\
  (exists d1, (forall C f o, lo_data o = None -> lo_asimov o = Some "mu=1" -> limit_data C l_pf o f (lm, I) = Ok d1) /\ (forall C f o, lo_data o = None -> lo_asimov o = Some "a=5,mu=1" -> limit_data C l_pf o f (lm, I) = Ok d1) /\ forall xs, In xs [[4; 5; 6; 7]; [4; 5]; [4]] -> limit_compute l_libs CalcQMu l_s (lm, I) d1 (hyps xs) = Ok (l_rast xs)) /\
  (exists d2, forall C f o, lo_data o = None -> lo_asimov o = Some "mu=2" -> limit_data C l_pf o f (lm, I) = Ok d2) /\
  exists d3, data_create l_codec l_fs (lm, I) "d.json" = Ok (d3, None).
Proof.
  destruct l_loads as (I & HL & Hp & Hr & [d2 H2] & d1 & H1). destruct (l_asimov I HL d1 H1) as [a Ha]. exists I. split; [exact HL|]. split; [exact Hp|]. split; [rewrite Hp; repeat constructor; cbn; tauto|]. split; [exact (l_mini I Hp Hr)|].
  assert (X : forall C f o s v d x, lo_data o = None -> lo_asimov o = Some s -> assignments s = [["mu"; v]] \/ assignments s = [["a"; "5"]; ["mu"; v]] -> l_pf v = Some x -> expected_data lm I [("mu", x)] = Ok d -> limit_data C l_pf o f (lm, I) = Ok d).
  { intros C f o s v d x Hd Hs Hsp Hv He. unfold limit_data, asimov_values. rewrite Hd, Hs. destruct Hsp as [Hsp|Hsp]; rewrite Hsp; cbn [mapM bind fold_left fst snd dset String.eqb Ascii.eqb Bool.eqb]; rewrite Hp; cbn [pm_pois filter existsb fst snd String.eqb Ascii.eqb Bool.eqb orb mapM bind]; rewrite Hv; cbn [bind or_value_error]; now rewrite He. }
  split; [|split].
  - exists d1. split; [intros C f o Hd Hs; refine (X C f o _ "1" d1 1 Hd Hs (or_introl eq_refl) eq_refl H1)|]. split; [intros C f o Hd Hs; refine (X C f o _ "1" d1 1 Hd Hs (or_intror eq_refl) eq_refl H1)|].
    intros xs [<-|[<-|[<-|[]]]]; [exact (l_computed I d1 a Hp Ha)|exact (l_computed2 I d1 a Hp Ha)|exact (l_computed1 I d1 a Hp Ha)].
  - exists d2. intros C f o Hd Hs. exact (X C f o _ "2" d2 2 Hd Hs (or_introl eq_refl) eq_refl H2).
  - clear - HL. revert HL. unfold model_load, finish, lm_file, lm. ev. intros [= <-]. eexists. unfold data_create. change (load_file l_codec l_fs "d.json" None) with (Ok l_data). unfold l_data, data_init, data_load. ev. reflexivity.
Qed.
Lemma l_run_gen o dk I data xs asy d : limit_model ex_env l_codec o l_fs = Ok (lm, I) -> parse_hypos (e_fuel ex_env) l_pf no_int s_match lm (lo_hypos o) = Ok (hyps xs) -> limit_data l_codec l_pf o l_fs (lm, I) = Ok data -> limit_bounds l_pf o = Ok [] -> lo_stat o = "q_mu" -> limit_minimizer (lm, I) [] = Ok l_s ->
  lo_out o = "lim" -> lo_ntoys o = 0%nat -> In xs [[4; 5; 6; 7]; [4; 5]; [4]] -> limit_compute l_libs CalcQMu l_s (lm, I) data (hyps xs) = Ok (l_rast xs) -> In [("fast", JList (l_dumped xs))] l_docs ->
  asymptotic_limits (sl_spline (ll_scan l_libs)) (l_rast xs) (lo_cl o) = Ok asy -> limit_results (fun n => "0") o lm asy None = Ok d -> In d l_docs ->
  exists ops, limit_run l_libs ex_env l_codec any_path l_pf no_int s_match o l_fs dk = (ops, dk, None).
Proof.
  intros HM Hh HD Hb Hk Hs Ho Hn Hx Hr Hin Ha Hd Hdin. assert (Hk' : limit_stat lm (lo_stat o) = Ok CalcQMu) by (rewrite Hk; reflexivity). assert (Hf : l_fs (limit_raster_file o) = None) by (unfold limit_raster_file; rewrite Ho; reflexivity).
  destruct (l_save (limit_raster_file o) None _ Hin) as [ops1 S1]; [unfold limit_raster_file; rewrite Ho; reflexivity|]. destruct (l_save (limit_results_file o) (Some "json") d Hdin eq_refl) as [ops2 S2].
  exists (ops1 ++ ops2). rewrite (limit_run_fresh l_libs ex_env l_codec any_path l_pf no_int s_match o l_fs dk lm I data _ [] CalcQMu l_s HM Hh HD Hb Hk' Hs Hf).
  rewrite Hr. cbn [bind]. rewrite (l_dump xs Hx). cbn [bind with_results]. rewrite S1. unfold limit_finish. rewrite Ha, Hn. cbn [Nat.eqb fst]. change (ll_dec l_libs) with (fun n : nat => "0"). rewrite Hd. cbv iota. rewrite S2. reflexivity.
Qed.
Lemma l_cases cl hs xs asy d dk : parse_hypos (e_fuel ex_env) l_pf no_int s_match lm hs = Ok (hyps xs) -> In xs [[4; 5; 6; 7]; [4; 5]; [4]] -> In [("fast", JList (l_dumped xs))] l_docs -> let o := with_cl (l_opts hs "mu=1" false) cl in
  asymptotic_limits (sl_spline (ll_scan l_libs)) (l_rast xs) cl = Ok asy -> limit_results (fun n => "0") o lm asy None = Ok d -> In d l_docs ->
  exists I ops, limit_model ex_env l_codec o l_fs = Ok (lm, I) /\ NoDup (pm_pois (i_pm I) ++ np_names (i_pm I)) /\ limit_run l_libs ex_env l_codec any_path l_pf no_int s_match o l_fs dk = (ops, dk, None).
Proof.
  intros Hh Hx Hin o Ha Hd Hdin. destruct l_inputs as (I & HL & Hp & HN & Hs & (d1 & H1 & _ & HR) & _). assert (HM : limit_model ex_env l_codec o l_fs = Ok (lm, I)) by (apply l_model; try reflexivity; exact HL).
  destruct (l_run_gen o dk I d1 xs asy d HM Hh (H1 l_codec l_fs o eq_refl eq_refl) eq_refl eq_refl Hs eq_refl eq_refl Hx (HR xs Hx) Hin Ha Hd Hdin) as [ops Hrun]. eauto.
Qed.
Definition l_at (cl : R) : LimitOpts := with_cl (l_opts l_four "mu=1" false) cl.
Lemma l_run cl dk : In cl [9 / 10; 8 / 10] -> exists I ops, limit_model ex_env l_codec (l_at cl) l_fs = Ok (lm, I) /\ NoDup (pm_pois (i_pm I) ++ np_names (i_pm I)) /\ limit_run l_libs ex_env l_codec any_path l_pf no_int s_match (l_at cl) l_fs dk = (ops, dk, None).
Proof.
  intros Hc. apply (l_cases cl l_four [4; 5; 6; 7] (Some 6, Some 6) (l_results cl (Some 6))); try reflexivity; [now left|unfold l_docs; cbn; auto|apply l_limits|].
  destruct Hc as [<-|[<-|[]]]; unfold l_docs; cbn [In]; auto.
Qed.
(** the run of the example: the results, and again *)
Example C109_results_nonvacuous : forall dk, exists I ops, let o := l_at (9 / 10) in faithful l_codec /\ limit_model ex_env l_codec o l_fs = Ok (lm, I) /\ parse_hypos (e_fuel ex_env) l_pf no_int s_match lm (lo_hypos o) = Ok l_hypos /\ distinct (sl_hash (ll_scan l_libs)) l_hypos /\ fits_evaluate l_libs lm I /\
  NoDup (pm_pois (i_pm I) ++ np_names (i_pm I)) /\ lo_model o <> limit_raster_file o /\ lo_model o <> limit_results_file o /\ limit_path o <> limit_raster_file o /\ limit_path o <> limit_results_file o /\
  l_fs (limit_raster_file o) = None /\ lo_overwrite o = false /\ lo_ntoys o = 0%nat /\ limit_run l_libs ex_env l_codec any_path l_pf no_int s_match o l_fs dk = (ops, dk, None).
Proof.
  intros dk. destruct (l_run (9 / 10) dk (or_introl eq_refl)) as (I & ops & HM & HN & HR). exists I, ops. cbv zeta. split; [exact l_faithful|]. split; [exact HM|]. split; [exact l_parse|]. split; [exact l_distinct|]. split; [apply l_eval|]. split; [exact HN|].
  repeat (split; [reflexivity || discriminate|]). exact HR.
Qed.
(** the curve of the example crosses 5% at 11/2 *)
Definition exp_pts : list (R * R) := map (fun x => (x, (1 - 95 / 100) * exp (11 / 2 - x))) [4; 5; 6; 7].
Definition exp_lib : SplineLib := mkSpl (fun _ xs ys x => hd 0 ys + (4 - x)) (fun _ _ => [11 / 2]) (fun _ _ => []).
Lemma exp_shifted : shifted true (1 - 95 / 100) exp_pts = map (fun x => 11 / 2 - x) [4; 5; 6; 7].
Proof.
  unfold shifted, exp_pts. rewrite map_map. apply map_ext. intros x. cbn [snd]. rewrite <- (ln_exp (11 / 2 - x)) at 2. f_equal. field.
Qed.
Lemma exp_usable : ScansProps.usable true exp_pts = exp_pts.
Proof. unfold ScansProps.usable, exp_pts. cbn [map filter snd]. assert (P : forall x, Rltb 0 ((1 - 95 / 100) * exp x) = true) by (intros x; apply Rltb_true; apply Rmult_lt_0_compat; [lra|apply exp_pos]). now rewrite !P. Qed.
Example C109_limit_is_crossing_nonvacuous : limit95 exp_lib exp_pts = Some (11 / 2) /\ cubic_ok exp_lib (map fst (ScansProps.usable true exp_pts)) (shifted true (1 - 95 / 100) (ScansProps.usable true exp_pts)).
Proof.
  rewrite exp_usable, exp_shifted. split.
  - unfold limit95, crossings_at. rewrite exp_usable. reflexivity.
  - split; [|split; [|split]].
    + intros i x y Hx Hy. cbn in Hx, Hy. do 4 (destruct i as [|i]; [cbn in Hx, Hy; injection Hx as <-; injection Hy as <-; cbn; lra|]). destruct i; discriminate.
    + intros x. cbn. reg.
    + intros r [<-|[]]. cbn. lra.
    + reflexivity.
Qed.
(** three sources of data; a name that is not a parameter of interest changes nothing *)
Example C109_dataset_nonvacuous : exists I d1 d3, let o1 := l_opts l_four "mu=1" false in let o2 := l_opts l_four "a=5,mu=1" false in let o3 := mkLO "m.json" l_four 0 (9 / 10) "lim" (Some "d.json") (Some "mu=1") 1 None None None "q_mu" false false None None in
  NoDup (pm_pois (i_pm I)) /\ limit_data l_codec l_pf o1 l_fs (lm, I) = Ok d1 /\ limit_data l_codec l_pf o2 l_fs (lm, I) = Ok d1 /\ limit_data l_codec l_pf o3 l_fs (lm, I) = Ok d3 /\
  assignments "mu=1" = map (fun kv => [fst kv; snd kv]) [("mu", "1")] /\ assignments "a=5,mu=1" = map (fun kv => [fst kv; snd kv]) [("a", "5"); ("mu", "1")] /\ (forall n, In n (pm_pois (i_pm I)) -> dget n (rev [("a", "5"); ("mu", "1")]) = dget n (rev [("mu", "1")])).
Proof.
  destruct l_inputs as (I & HL & Hp & HN & Hs & (d1 & H1 & H1' & _) & _ & d3 & H3). exists I, d1, d3. cbv zeta. split; [rewrite Hp; repeat constructor; cbn; tauto|]. split; [now apply H1|]. split; [now apply H1'|]. split; [unfold limit_data; cbn [lo_data String.eqb Ascii.eqb Bool.eqb]; rewrite H3; reflexivity|].
  split; [reflexivity|]. split; [reflexivity|]. rewrite Hp. intros n [<-|[]]. reflexivity.
Qed.
(** the raster of the first run is there: other data, other hypotheses *)
Example C109_stale_nonvacuous : exists I f r data data', let o := l_opts l_four "mu=1" false in let o' := l_opts "mu=4|mu=5" "mu=2" false in let ow := l_opts l_four "mu=2" true in
  limit_model ex_env l_codec o f = Ok (lm, I) /\ parse_hypos (e_fuel ex_env) l_pf no_int s_match lm (lo_hypos o) = Ok l_hypos /\ limit_data l_codec l_pf o f (lm, I) = Ok data /\ limit_bounds l_pf o = Ok [] /\ limit_stat lm (lo_stat o) = Ok CalcQMu /\ limit_minimizer (lm, I) [] = Ok l_s /\
  limit_model ex_env l_codec o' f = Ok (lm, I) /\ parse_hypos (e_fuel ex_env) l_pf no_int s_match lm (lo_hypos o') = Ok (hyps [4; 5]) /\ limit_data l_codec l_pf o' f (lm, I) = Ok data' /\ limit_bounds l_pf o' = Ok [] /\ limit_stat lm (lo_stat o') = Ok CalcQMu /\
  lo_out o' = lo_out o /\ lo_cl o' = lo_cl o /\ stored_raster (ll_scan l_libs) l_codec o f I = Ok (Some r) /\
  limit_model ex_env l_codec ow f = Ok (lm, I) /\ stored_raster (ll_scan l_libs) l_codec ow f I = Ok (Some r) /\ lo_overwrite ow = true /\ lo_model ow <> limit_raster_file ow /\ limit_path ow <> limit_raster_file ow.
Proof.
  destruct l_inputs as (I & HL & Hp & HN & Hs & (d1 & H1 & _ & HR) & (d2 & H2) & _). set (o := l_opts l_four "mu=1" false).
  destruct (l_save (limit_raster_file o) None [("fast", JList (l_dumped [4; 5; 6; 7]))]) as [ops S1]; [unfold l_docs; cbn; auto|reflexivity|].
  assert (D : distinct (sl_hash (ll_scan l_libs)) (hyps [4; 5; 6; 7])) by exact l_distinct.
  destruct (limit_raster_reused l_libs l_codec any_path o l_fs ops CalcQMu l_s lm I d1 _ _ _ l_faithful ltac:(discriminate) (l_eval I) D HN (HR _ (or_introl eq_refl)) (l_dump _ (or_introl eq_refl)) S1) as (r & Hst & _).
  assert (Hmf : run_ops ops l_fs "m.json" = Some "1") by (rewrite (save_only _ _ _ _ _ _ _ l_fs "m.json" S1) by discriminate; reflexivity).
  exists I, (run_ops ops l_fs), r, d1, d2. cbv zeta. split; [now apply l_model|]. split; [exact l_parse|]. split; [now apply H1|]. split; [reflexivity|]. split; [reflexivity|]. split; [exact Hs|]. split; [now apply l_model|]. split; [reflexivity|]. split; [now apply H2|].
  do 4 (split; [reflexivity|]). split; [exact Hst|]. split; [now apply l_model|]. split; [exact Hst|]. split; [reflexivity|]. split; discriminate.
Qed.
(** a raster file that is not JSON, and one that is not a raster *)
Example C109_damaged_nonvacuous : exists I data, let o := l_opts l_four "mu=1" false in let f t : fs := fun q => if String.eqb q "lim_raster.json" then Some t else l_fs q in
  (forall t, limit_model ex_env l_codec o (f t) = Ok (lm, I) /\ limit_data l_codec l_pf o (f t) (lm, I) = Ok data /\ f t (limit_raster_file o) <> None) /\ parse_hypos (e_fuel ex_env) l_pf no_int s_match lm (lo_hypos o) = Ok l_hypos /\ limit_bounds l_pf o = Ok [] /\ limit_stat lm (lo_stat o) = Ok CalcQMu /\ limit_minimizer (lm, I) [] = Ok l_s /\
  load_file l_codec (f "{") (limit_raster_file o) None = Err ValueError /\ exists sd, load_file l_codec (f "8") (limit_raster_file o) None = Ok sd /\ dget "fast" sd = None.
Proof.
  destruct l_inputs as (I & HL & Hp & HN & Hs & (d1 & H1 & _) & _). exists I, d1. cbv zeta. split; [intros t; split; [now apply l_model|split; [now apply H1|discriminate]]|]. split; [exact l_parse|]. do 2 (split; [reflexivity|]). split; [exact Hs|]. split; [reflexivity|]. eexists. split; reflexivity.
Qed.
(** two levels *)
Example C109_level_nonvacuous : forall dk, exists ops ops2, faithful l_codec /\ limit_run l_libs ex_env l_codec any_path l_pf no_int s_match (l_at (9 / 10)) l_fs dk = (ops, dk, None) /\ limit_run l_libs ex_env l_codec any_path l_pf no_int s_match (with_cl (l_at (9 / 10)) (8 / 10)) l_fs dk = (ops2, dk, None) /\ lo_ntoys (l_at (9 / 10)) = 0%nat.
Proof.
  intros dk. destruct (l_run (9 / 10) dk (or_introl eq_refl)) as (_ & ops & _ & _ & HR). destruct (l_run (8 / 10) dk (or_intror (or_introl eq_refl))) as (_ & ops2 & _ & _ & HR2). exists ops, ops2. split; [exact l_faithful|]. split; [exact HR|]. split; [exact HR2|reflexivity].
Qed.
(** an unknown statistic; a model with three parameters of interest *)
Example C109_refused_nonvacuous : exists I data, let o := mkLO "m.json" l_four 0 (9 / 10) "lim" None (Some "mu=1") 1 None None None "t_mu" false false None None in
  limit_model ex_env l_codec o l_fs = Ok (lm, I) /\ parse_hypos (e_fuel ex_env) l_pf no_int s_match lm (lo_hypos o) = Ok l_hypos /\ limit_data l_codec l_pf o l_fs (lm, I) = Ok data /\ limit_bounds l_pf o = Ok [] /\ lo_stat o <> "q~mu" /\ lo_stat o <> "q_mu".
Proof.
  destruct l_inputs as (I & HL & Hp & HN & Hs & (d1 & H1 & _) & _). exists I, d1. cbv zeta. split; [now apply l_model|]. split; [exact l_parse|]. split; [now apply H1|]. split; [reflexivity|]. split; discriminate.
Qed.
Example C109_refused_pois_nonvacuous : exists C I data m, let o := mkLO "m.json" "mu=1,nu=1,xi=1|mu=2,nu=2,xi=2" 0 (9 / 10) "lim" None (Some "mu=1,nu=1,xi=1") 1 None None None "q_mu" false false None None in
  limit_model ex_env C o l_fs = Ok (m, I) /\ parse_hypos (e_fuel ex_env) l_pf no_int s_match m (lo_hypos o) = Ok [[("mu", 1); ("nu", 1); ("xi", 1)]; [("mu", 2); ("nu", 2); ("xi", 2)]] /\ limit_data C l_pf o l_fs (m, I) = Ok data /\ limit_bounds l_pf o = Ok [] /\ (1 < length (m_pois m))%nat.
Proof.
  assert (X : exists I, model_load ex_env (new_model true false) (filled rq0) = Ok (rq0, I) /\ i_pm I = mkPM ["mu"; "nu"; "xi"] (pm_nps (i_pm I)) /\ exists data, expected_data rq0 I [("mu", 1); ("nu", 1); ("xi", 1)] = Ok data).
  { eexists. split; [unfold model_load, finish, filled, rq0, rq_model, rp_model; ev; reflexivity|]. split; [reflexivity|]. eexists. unfold expected_data, pars_init, pois_from_dict, rq0, rq_model, rp_model. ev. reflexivity. }
  destruct X as (I & HL & Hp & data & HD). exists (table_codec [("1", filled rq0)]), I, data, rq0. cbv zeta.
  split; [unfold limit_model, model_load_file; cbn [lo_model lo_regularize lo_cutoff]; change (load_file _ l_fs "m.json" None) with (Ok (filled rq0)); cbn [bind]; rewrite HL; reflexivity|]. split; [reflexivity|]. split; [|split; [reflexivity|cbn; lia]].
  unfold limit_data, asimov_values. cbn [lo_data lo_asimov fst snd]. rewrite Hp. cbn -[expected_data]. now rewrite HD.
Qed.
(** --regularize; a bound on a nuisance parameter *)
Example C109_regularize_nonvacuous : exists mi, let o := mkLO "m.json" l_four 0 (9 / 10) "lim" None (Some "mu=1") 1 (Some 3) None None "q_mu" false false None None in model_load_file ex_env l_codec l_fs (new_model true false) (lo_model o) None = Ok mi /\ lo_regularize o = Some 3.
Proof.
  destruct l_inputs as (I & HL & _). exists (lm, I). split; [|reflexivity]. unfold model_load_file. cbn [lo_model]. change (load_file l_codec l_fs "m.json" None) with (Ok lm_file). cbn [bind]. exact HL.
Qed.
Example C109_np_bound_nonvacuous : exists C m I data ib, let o := mkLO "m.json" l_four 0 (9 / 10) "lim" None (Some "mu=1") 1 None None (Some "a=1:2") "q_mu" false false None None in
  limit_model ex_env C o l_fs = Ok (m, I) /\ parse_hypos (e_fuel ex_env) l_pf no_int s_match m (lo_hypos o) = Ok l_hypos /\ limit_data C l_pf o l_fs (m, I) = Ok data /\ limit_bounds l_pf o = Ok [mkPB "a" (Some 1) (Some 2)] /\ limit_stat m (lo_stat o) = Ok CalcQMu /\
  set_pois_min m I None None None false = Ok ib /\ ~ In "a" (keys (m_pois m)) /\ In "a" (keys (m_nps m)).
Proof.
  assert (X : exists m I, model_load ex_env (new_model true false) sm_file = Ok (m, I) /\ i_pm I = mkPM ["mu"] [("a", 0, 1)] /\ keys (m_pois m) = ["mu"] /\ keys (m_nps m) = ["a"] /\ parse_hypos (e_fuel ex_env) l_pf no_int s_match m l_four = Ok l_hypos /\ (exists ib, set_pois_min m I None None None false = Ok ib) /\ exists data, expected_data m I [("mu", 1)] = Ok data).
  { unfold sm_file, sm. do 2 eexists. split; [unfold model_load, finish, tmod; ev; reflexivity|]. split; [reflexivity|]. split; [reflexivity|]. split; [reflexivity|]. split; [reflexivity|]. split; [eexists; unfold set_pois_min; ev; reflexivity|]. eexists. unfold expected_data, pars_init, pois_from_dict. ev. reflexivity. }
  destruct X as (m & I & HL & Hp & Hk & Hn & Hph & [ib Hib] & data & HD). exists (table_codec [("1", sm_file)]), m, I, data, ib. cbv zeta.
  split; [unfold limit_model, model_load_file; cbn [lo_model lo_regularize lo_cutoff]; change (load_file _ l_fs "m.json" None) with (Ok sm_file); cbn [bind]; rewrite HL; reflexivity|].
  split; [exact Hph|]. split; [unfold limit_data, asimov_values; cbn [lo_data lo_asimov fst snd]; rewrite Hp; cbn -[expected_data]; now rewrite HD|]. split; [reflexivity|].
  split; [unfold limit_stat; cbn [lo_stat String.eqb Ascii.eqb Bool.eqb]; destruct (m_pois m) as [|x [|y t]]; try discriminate; reflexivity|]. split; [exact Hib|]. rewrite Hk, Hn. split; [intros [E|[]]; discriminate|now left].
Qed.
(** one hypothesis; two hypotheses *)
Example C109_single_hypothesis_nonvacuous : exists I data ops, let o := l_opts "mu=4" "mu=1" false in
  limit_model ex_env l_codec o l_fs = Ok (lm, I) /\ parse_hypos (e_fuel ex_env) l_pf no_int s_match lm (lo_hypos o) = Ok [[("mu", 4)]] /\ NoDup (keys [("mu", 4%R)]) /\ limit_data l_codec l_pf o l_fs (lm, I) = Ok data /\ limit_bounds l_pf o = Ok [] /\ limit_stat lm (lo_stat o) = Ok CalcQMu /\
  limit_minimizer (lm, I) [] = Ok l_s /\ l_fs (limit_raster_file o) = None /\ fits_evaluate l_libs lm I /\ limit_compute l_libs CalcQMu l_s (lm, I) data [[("mu", 4)]] = Ok (l_rast [4]) /\ raster_dump (l_rast [4]) = Ok (l_dumped [4]) /\ save_ops l_codec any_path (limit_raster_file o) None [("fast", JList (l_dumped [4]))] = (ops, None).
Proof.
  destruct l_inputs as (I & HL & Hp & HN & Hs & (d1 & H1 & _ & HR) & _). destruct (l_save (limit_raster_file (l_opts "mu=4" "mu=1" false)) None [("fast", JList (l_dumped [4]))]) as [ops S1]; [unfold l_docs; cbn [In]; tauto|reflexivity|].
  exists I, d1, ops. cbv zeta. split; [now apply l_model|]. split; [reflexivity|]. split; [repeat constructor; intros []|]. split; [now apply H1|]. do 2 (split; [reflexivity|]). split; [exact Hs|]. split; [reflexivity|]. split; [apply l_eval|]. split; [apply (HR [4]); cbn; auto|]. split; [apply l_dump; cbn; auto|exact S1].
Qed.
Example C109_few_points_nonvacuous : forall dk, exists I ops, let o := with_cl (l_opts "mu=4|mu=5" "mu=1" false) (9 / 10) in faithful l_codec /\ limit_model ex_env l_codec o l_fs = Ok (lm, I) /\ parse_hypos (e_fuel ex_env) l_pf no_int s_match lm (lo_hypos o) = Ok (hyps [4; 5]) /\ distinct (sl_hash (ll_scan l_libs)) (hyps [4; 5]) /\ fits_evaluate l_libs lm I /\
  NoDup (pm_pois (i_pm I) ++ np_names (i_pm I)) /\ l_fs (limit_raster_file o) = None /\ lo_ntoys o = 0%nat /\ (length (hyps [4%R; 5%R]) < 4)%nat /\ limit_run l_libs ex_env l_codec any_path l_pf no_int s_match o l_fs dk = (ops, dk, None).
Proof.
  intros dk. destruct (l_cases (9 / 10) "mu=4|mu=5" [4; 5] (None, None) (l_results (9 / 10) None) dk) as (I & ops & HM & HN & HR); try reflexivity; [cbn; auto|unfold l_docs; cbn [In]; tauto|apply l_limits2|unfold l_docs; cbn [In]; tauto|].
  exists I, ops. cbv zeta. split; [exact l_faithful|]. split; [exact HM|]. split; [reflexivity|]. split.
  { split; [intros h Hh; cbn in Hh; decompose [or] Hh; subst; try contradiction; repeat constructor; intros []|]. unfold hyps. cbn [map]. repeat (constructor; [repeat (constructor; [unfold same_key, hypo_eqb; cbn; rdec; reflexivity|]); constructor|]). constructor. }
  split; [apply l_eval|]. split; [exact HN|]. split; [reflexivity|]. split; [reflexivity|]. split; [cbn; lia|exact HR].
Qed.
