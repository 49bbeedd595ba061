(** Model of the command-line program src/fastprof_utils/compute_limits.py, in batch mode (--batch-mode: nothing is plotted) and with a verbosity of at most 1.
    The parsing of the command line itself (argparse) is not modelled: the options are given as a record.  Printing is not modelled, nor is --debug.
    One process runs at a time. *)
From Verif Require Import Py RSort Base Expressions Norms Sample Channels Params Core NpMin PoiMin TestStat FitData Calculators Scans ModelIO ModelTools UtilTools LimitTools FileIO Commands Sampling FileName
  ScanCommand SamplesRun LimitCommand.
Local Open Scope string_scope.
Local Open Scope list_scope.

(** 60-83 the options; a negative number of toys or of bands is not modelled *)
Record FullOpts := mkFO {
  fo_model : string; fo_fits : string; fo_ntoys : nat; fo_cl : R; fo_out : string; fo_data : option string; fo_asimov : option string; fo_linear : bool; fo_niter : nat;
  fo_regularize : option R; fo_cutoff : option R; fo_bounds : option string; fo_sethypo : string; fo_stat : string; fo_break : bool; fo_bands : option nat; fo_trunc : option R }.
(** the options that the two programs have in common, with the fits file in place of the hypotheses *)
Definition shared_opts (o : FullOpts) : LimitOpts :=
  mkLO (fo_model o) (fo_fits o) (fo_ntoys o) (fo_cl o) (fo_out o) (fo_data o) (fo_asimov o) (fo_niter o) (fo_regularize o) (fo_cutoff o) (fo_bounds o) (fo_stat o) (fo_break o) false (fo_bands o) (fo_trunc o).

(** 93-96 the model: Model has no method set_gamma_regularization *)
Definition full_model (E : Env) (C : Codec) (o : FullOpts) (f : fs) : res (Model * Internal) :=
  let! mi := model_load_file E C f (new_model true (fo_linear o)) (fo_model o) None in
  let! _ := match fo_regularize o with Some _ => Err AttributeError | None => Ok tt end in
  Ok (match fo_cutoff o with Some c => with_cutoff (fst mi) c | None => fst mi end, snd mi).
(** fit_data.py:560-574 load_dict for one name in a file *)
Definition load_raster (hash : list string -> Z) (C : Codec) (f : fs) (file name : string) (m : PModel) : res Raster :=
  let! sd := load_file C f file None in let! v := dgetE name sd in let! l := jlist v in raster_load hash [] true true (Some m) l.
(** 98 and fit_data.py:409-439, 586-598: the raster of the fits file with its Asimov values *)
Definition fits_raster (hash : list string -> Z) (C : Codec) (f : fs) (file : string) (m : PModel) : res Raster :=
  let! r := load_raster hash C f file "data" m in
  let! ra := load_raster hash C f file "asimov" m in
  let! r := raster_set_asimov r ra "tmu_A0" in
  raster_new (ra_points r) true true (Some m).
(** 99-100 the parameters used in the generation: those of the fit to the hypothesis *)
Definition gen_pars (r : Raster) : res (list Params) := mapM (fun hp => fit_pars (plr_fixed (snd hp))) (ra_points r).
(** 102-112 --sethypo: line 109 calls the method dict of POIHypo, which does not exist, for the first value of the first point.  The exception, or that of an
    earlier check, becomes a ValueError. *)
Definition set_hypo (o : FullOpts) (r : Raster) : res unit :=
  if String.eqb (fo_sethypo o) "" then Ok tt else match ra_points r with [] => Ok tt | _ :: _ => Err ValueError end.
(** 114-130 the dataset.  --asimov (line 121) gives a list of lists to Parameters, which is not one-dimensional (core.py 93): ValueError.  This is for numpy 1.24 or
    later, where a list of lists of different lengths is an error as well. *)
Definition full_data (C : Codec) (o : FullOpts) (f : fs) (mi : Model * Internal) : res Data :=
  let from p := let! d := data_create C f mi p in Ok (fst d) in
  let other := match fo_asimov o with Some _ => Err ValueError | None => from (fo_model o) end in
  match fo_data o with Some p => if String.eqb p "" then other else from p | None => other end.
(** 132-146 *)
Definition full_bounds (pf : string -> option R) (o : FullOpts) : res (list ParBound) :=
  match fo_bounds o with Some spec => parse_bounds pf spec | None => Ok [] end.
(** 148-155 the test statistic: the number of POIs is that of the raster *)
Definition full_stat (r : Raster) (stat : string) : res calc_kind :=
  let one k := if (1 <? length (ra_pois r))%nat then Err ValueError else Ok k in
  if String.eqb stat "q~mu" then one CalcQMuTilda else if String.eqb stat "q_mu" then one CalcQMu else Err ValueError.
(** 148-153 the minimizer: OptiMinimizer() without a number of iterations and without the bounds *)
Definition full_minimizer (mi : Model * Internal) : res Mini :=
  let! ib := set_pois_min (fst mi) (snd mi) None None None false in
  Ok (PoiMin.with_pois (mini_init "scalar" 1 (Some (/ 10000000)) 0 None false 1) ib).

(** 85-162 up to the comparison of the two models: the model, the parameters for the generation, the raster of the fits file and the one recomputed with the linear model *)
Definition full_rasters (L : LimitLibs) (E : Env) (C : Codec) (pf : string -> option R) (o : FullOpts) (f : fs) : res ((Model * Internal) * list Params * Raster * Raster) :=
  let S := ll_scan L in
  let! mi := full_model E C o f in
  let! r := fits_raster (sl_hash S) C f (fo_fits o) (i_pm (snd mi)) in
  let! gens := gen_pars r in
  let! _ := set_hypo o r in
  let! data := full_data C o f mi in
  let! _ := full_bounds pf o in
  let! k := full_stat r (fo_stat o) in
  let! s := full_minimizer mi in
  let! r := fill_all_pv (sl_dist S) k r in
  let! fast := recompute_raster (sl_hash S) (sl_dist S) k (ll_solver L) (fst mi) (snd mi) (sl_fit S (fst mi) (snd mi)) data s r in
  Ok (mi, gens, r, fst fast).

(** 172-182 and fit_data.py:217-231 set_poi_values_and_ranges, which replaces the bounds of the minimizer of the sampler by pairs of numbers.
    samplers.py:98-140, 265, minimizers.py:420-422 and 342: the first toy is generated ([dataset] says if this raises an exception), then the attribute par of one of these
    pairs is read: AttributeError.  (Without POIs line 176 has raised an AttributeError before.) *)
Definition full_sampler (dataset : Params -> res unit) (h : Hypo) (g : Params) : Sampler :=
  mkSampler h (fun n => match n with 0%nat => Ok [] | S _ => let! _ := dataset g in Err AttributeError end).
Definition full_samplers (dataset : Params -> res unit) (m : Model) (pg : PLR * Params * PLR) : res (Sampler * Sampler) :=
  let '(p, gen, fast) := pg in
  let! _ := ts_num "tmu_A0" fast in
  let! clone := pars_clone gen in
  let! poi := match keys (m_pois m) with n :: _ => Ok n | [] => Err AttributeError end in
  let! gen0 := pars_set clone poi 0 false in
  let! _ := fit_pars (plr_free p) in
  let! _ := mapM (fun n => dgetE n (fr_pars (plr_free p))) (keys (m_pois m)) in
  Ok (full_sampler dataset (plr_hypo p) gen, full_sampler dataset (plr_hypo p) gen0).

(** 239-265 the results.  poi(0) is None without POIs. *)
Definition full_results (dec : nat -> string) (o : FullOpts) (m : Model) (full fast : option R * option R) (sampling : option (R * R * R) * option (R * R * R)) (bands : list (Z * option R)) : res (dict jv) :=
  match m_pois m with
  | [] => Err AttributeError
  | (_, p) :: _ =>
    Ok ([("cl", JFlt (fo_cl o)); ("poi_name", match poi_name p with Some n => JStr n | None => JNull end); ("poi_unit", match poi_unit p with Some u => JStr u | None => JNull end)]
        ++ triple_values "limit_sampling_CLs" (snd sampling)
        ++ [("limit_asymptotics_CLs", limit_value (snd full)); ("limit_asymptotics_CLs_fast", limit_value (snd fast))]
        ++ triple_values "limit_sampling_CLsb" (fst sampling)
        ++ [("limit_asymptotics_CLsb", limit_value (fst full)); ("limit_asymptotics_CLsb_fast", limit_value (fst fast))]
        ++ map (fun bl => (("limit_sampling_CLs_expected_band_" ++ signed dec (fst bl))%string, limit_value (snd bl))) bands)
  end.
(** 267 *)
Definition full_results_file (o : FullOpts) : string := (fo_out o ++ "_results.json")%string.

(** 191-221 the raster with the p-values from the samples, and all the limits (the order of the computations, which only decides which exception comes first, is not kept) *)
Definition full_limits (L : LimitLibs) (o : FullOpts) (c : CObj) (r fast : Raster)
    : res ((option R * option R) * (option R * option R) * (option (R * R * R) * option (R * R * R)) * list (Z * option R)) :=
  let! c := truncated (sl_hash (ll_scan L)) (shared_opts o) c in
  let! _ := match ra_pois r with [] => Err IndexError | _ :: _ => Ok tt end in
  let! (r', sampling, bands) := sampling_limits L (shared_opts o) c r in
  let! lf := asymptotic_limits (sl_spline (ll_scan L)) r' (fo_cl o) in
  let! lq := asymptotic_limits (sl_spline (ll_scan L)) fast (fo_cl o) in
  Ok (lf, lq, sampling, bands).

(** 85-268 run: the operations on the file system (except the samples), the samples and locks at the end, and the exception that ends the run, if any.
    [dataset] is the outcome of Model.generate_data (core.py 1116-1130) for the model and the parameters. *)
Definition full_run (L : LimitLibs) (E : Env) (C : Codec) (w : string -> bool) (pf : string -> option R) (dataset : Model * Internal -> Params -> res unit) (o : FullOpts) (f : fs) (dk : disk)
    : list fsop * disk * option exn :=
  match full_rasters L E C pf o f with
  | Err e => ([], dk, Some e)
  | Ok (mi, gens, r, fast) =>
    if (fo_ntoys o =? 0)%nat then ([], dk, None) else
    match (let! l := mapM (full_samplers (dataset mi) (fst mi)) (combine (combine (map snd (ra_points r)) gens) (map snd (ra_points fast))) in limit_samples (map fst l) (map snd l) (fo_out o)) with
    | Err e => ([], dk, Some e)
    | Ok c =>
      match co_generate_and_save (sl_hash (ll_scan L)) c (fo_ntoys o) (fo_break o) true dk with
      | ((dk', _), Some e) => ([], dk', Some e)
      | ((dk', c'), None) =>
        match (let! (lf, lq, sampling, bands) := full_limits L o c' r fast in full_results (ll_dec L) o (fst mi) lf lq sampling bands) with
        | Err e => ([], dk', Some e)
        | Ok d => let '(ops, e) := save_ops C w (full_results_file o) (Some "json") d in (ops, dk', e)
        end
      end
    end
  end.
