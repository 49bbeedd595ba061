(** Model of the command-line program src/fastprof_utils/fit_model.py, without --plot-result.
    The parsing of the command line itself (argparse) is not modelled: the options are given as a record (the program reads sys.argv even if arguments are given to run).
    Printing is not modelled, except where it raises an exception.  The three plots made with --output-file are not modelled: with a covariance matrix they are taken to
    succeed. *)
From Verif Require Import Py Base Expressions Norms Sample Channels Params Core CoreMore NpMin PoiMin TestStat FitData Calculators Scans ModelIO ModelTools UtilTools FileIO Commands ScanCommand.
Local Open Scope string_scope.
Local Open Scope list_scope.

(** What the program calls: the fits of a model to a dataset, the linear solver of the profiling of the Asimov dataset, np.linalg.inv, scipy.stats, and the exception of
    plt.imshow(None). *)
Record FitLibs := mkFL { fl_fit : Model -> Internal -> Data -> FitEnv; fl_solver : solver; fl_inv : inverter; fl_dist : Dist; fl_imshow : exn }.

(** 31-50 the options *)
Record FitOpts := mkFt {
  ft_model : string; ft_data : string; ft_hypo : option string; ft_out : option string; ft_asimov : option string; ft_setrange : option string; ft_method : string;
  ft_linear : bool; ft_niter : nat; ft_regularize : option R; ft_cutoff : option R; ft_verbosity : Z }.

(** 59, 146 the name of the output file: the part before '.json', if there is one *)
Fixpoint strip_suffix (suf s : string) : string :=
  if String.eqb s suf then "" else match s with "" => "" | String c s' => String c (strip_suffix suf s') end.
Definition fit_file (out : string) : string := (strip_suffix ".json" out ++ ".json")%string.

(** 63-67 the model.  Model has no method set_gamma_regularization: AttributeError. *)
Definition fit_model (E : Env) (C : Codec) (pf : string -> option R) (rmatch : string -> string -> bool) (o : FitOpts) (f : fs) : res (Model * Internal) :=
  let! mi := model_load_file E C f (new_model true (ft_linear o)) (ft_model o) None in
  let! _ := match ft_regularize o with Some _ => Err AttributeError | None => Ok tt end in
  let m1 := match ft_cutoff o with Some c => with_cutoff (fst mi) c | None => fst mi end in
  match ft_setrange o with
  | None => Ok (m1, snd mi)
  | Some spec => let '(ps, r) := process_setranges pf rmatch spec (m_pois m1) in let! _ := r in Ok (ModelTools.with_pois m1 ps, snd mi)
  end.
(** 69-83 the dataset.  Data.load never returns None. *)
Definition fit_dataset (C : Codec) (pf : string -> option R) (rmatch : string -> string -> bool) (o : FitOpts) (f : fs) (mi : Model * Internal) : res Data :=
  let from p := let! d := data_create C f mi p in Ok (fst d) in
  if negb (String.eqb (ft_data o) "") then from (ft_data o) else
  match ft_asimov o with
  | Some spec => let! d := or_value_error (let! d := process_setvals pf rmatch (fst mi) true true true false spec in numbers_of d) in expected_data (fst mi) (snd mi) d
  | None => from (ft_model o)
  end.
(** 85-90 the hypothesis *)
Definition fit_hypo (pf : string -> option R) (rmatch : string -> string -> bool) (o : FitOpts) (m : Model) : res (option (dict R)) :=
  match ft_hypo o with
  | None => Ok None
  | Some spec => let! d := or_value_error (let! d := process_setvals pf rmatch m true true true false spec in numbers_of d) in Ok (Some d)
  end.

(** 94 the minimizer; the number of iterations is not used *)
Definition fit_minimizer (o : FitOpts) : Mini := mini_init (ft_method o) 1 (Some (/ 10000000)) 0 None false (ft_verbosity o).
(** 95-101 the best fit.  The return value of a failed fit is a pair, which cannot be printed with '%g': TypeError.  min_pars is None if the likelihood was never evaluated: the
    calls of 106 and 107 then raise an AttributeError. *)
Definition best_fit (F : FitEnv) (m : Model) (it : Internal) (o : FitOpts) : res (ext * Params * Mini) :=
  let! (r, s) := minimize m it F (fit_minimizer o) None in
  match r with
  | RPair => Err TypeError
  | RNll v => match mi_min_pars s with Some p => Ok (v, p, s) | None => Err AttributeError end
  end.

(** numbers in a JSON file: json.dump writes NaN and Infinity, which are not values of the model: NonFinite *)
Definition jnum (v : ext) : res jv := match v with Fin x => Ok (JFlt x) | _ => Err NonFinite end.
(** 103-132 the results, with the covariance matrix.  Without one, the plots of 126-131 raise an exception. *)
Definition fit_results (imshow : exn) (m : Model) (cov : option mat) (v : ext) (p : Params) : res (dict jv) :=
  let! nll := jnum v in
  let! pd := pars_dict p false true false in
  let out := [("min_nll", nll); ("min_pars", JObj (map (fun kx => (fst kx, JFlt (snd kx))) pd))] in
  match cov with
  | None => Err imshow
  | Some c =>
    let! errs := parabolic_errors m (Some c) in
    let! rho := correlation_matrix m (Some c) in
    let! out := foldM (fun d par => let! x := pars_get p par in let! e := dgetE par errs in let! je := jnum e in
                                    Ok (dset par (JObj [("best_fit_value", JFlt x); ("uncertainty", je)]) d)) (keys (m_pois m)) out in
    let n := length (m_pois m) in
    Ok (dset "correlation_matrix" (JList (map (fun i => JList (map (fun j => JFlt (rho i j)) (seq 0 n))) (seq 0 n))) out)
  end.
(** 114-116 what is printed for the POIs needs their values *)
Definition poi_values (m : Model) (p : Params) : res (list R) := mapM (pars_get p) (keys (m_pois m)).

(** 133-144 the test of the hypothesis: tmu and, for a single POI, q~mu with its p-values *)
Definition fit_test (L : FitLibs) (mi : Model * Internal) (data : Data) (s : Mini) (hypo : option (dict R)) : res (option (ext * option PLR)) :=
  match hypo with
  | None => Ok None
  | Some h =>
    let m := fst mi in let it := snd mi in
    let! (t, s) := opti_tmu m it (fl_fit L m it data) s h None in
    if (length (m_pois m) =? 1)%nat then
      let! _ := generate_expected_0 (fl_solver L) m it data in
      let! (q, _) := compute_fast_q (fl_dist L) CalcQMuTilda (fl_solver L) m it (fl_fit L m it) data s h None in
      let! _ := dgetE "tmu" (plr_ts q) in let! _ := dgetE "q~mu" (plr_ts q) in let! _ := dgetE "pv" (plr_pvs q) in let! _ := dgetE "cls" (plr_pvs q) in
      Ok (Some (t, Some q))
    else Ok (Some (t, None))
  end.

(** 52-148 run: the operations on the file system, the test of the hypothesis (which is only printed), and the exception that ends the run, if any *)
Definition fit_run (L : FitLibs) (E : Env) (C : Codec) (w : string -> bool) (pf : string -> option R) (rmatch : string -> string -> bool) (o : FitOpts) (f : fs)
    : list fsop * res (option (ext * option PLR)) :=
  match (let! mi := fit_model E C pf rmatch o f in
         let! data := fit_dataset C pf rmatch o f mi in
         let! hypo := fit_hypo pf rmatch o (fst mi) in
         let! (v, p, s) := best_fit (fl_fit L (fst mi) (snd mi) data) (fst mi) (snd mi) o in
         let cov := covariance_matrix (fl_inv L) E (fst mi) (snd mi) (pois p) (nps p) data in
         let! _ := poi_values (fst mi) p in
         let! out := match ft_out o with Some file => let! d := fit_results (fl_imshow L) (fst mi) cov v p in Ok (Some (file, d)) | None => Ok None end in
         let! test := fit_test L mi data s hypo in
         Ok (out, test)) with
  | Err e => ([], Err e)
  | Ok (None, test) => ([], Ok test)
  | Ok (Some (file, d), test) => let '(ops, e) := save_ops C w (fit_file file) (Some "json") d in (ops, match e with None => Ok test | Some e => Err e end)
  end.
