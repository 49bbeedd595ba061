(** Model of the command-line program src/fastprof_utils/check_model.py, with a verbosity from 0 to 2 and a valid --marker.
    The parsing of the command line itself (argparse) is not modelled: the options are given as a record (the program reads sys.argv even if arguments are given to run).
    The table that is printed is modelled by its numbers, and the plots by their curves. *)
From Verif Require Import Py Base Expressions Norms Sample Channels Params Core NpMin PoiMin TestStat FitData Calculators Scans ModelIO ModelTools UtilTools FileIO Commands ScanCommand LimitCommand LimitsRun.
Local Open Scope string_scope.
Local Open Scope list_scope.

(** 34-51 the options *)
Record CheckOpts := mkCk {
  ck_model : string; ck_data : string; ck_asimov : option string; ck_fits : string; ck_setrange : option string; ck_linear : bool; ck_niter : nat;
  ck_regularize : option R; ck_cutoff : option R; ck_stat : string; ck_batch : bool; ck_verbosity : Z; ck_out : string }.

(** 60-64 the model.  Model has no method set_gamma_regularization: AttributeError.  process_setranges is not imported (line 30): NameError. *)
Definition check_model (E : Env) (C : Codec) (o : CheckOpts) (f : fs) : res (Model * Internal) :=
  let! mi := model_load_file E C f (new_model true (ck_linear o)) (ck_model o) None in
  let! _ := match ck_regularize o with Some _ => Err AttributeError | None => Ok tt end in
  let! _ := match ck_setrange o with Some _ => Err NameError | None => Ok tt end in
  Ok (match ck_cutoff o with Some c => with_cutoff (fst mi) c | None => fst mi end, snd mi).
(** 68-82 the dataset.  Data.load never returns None. *)
Definition check_data (C : Codec) (pf : string -> option R) (rmatch : string -> string -> bool) (o : CheckOpts) (f : fs) (mi : Model * Internal) : res Data :=
  let from p := let! d := data_create C f mi p in Ok (fst d) in
  if negb (String.eqb (ck_data o) "") then from (ck_data o) else
  match ck_asimov o with
  | Some spec => let! d := or_value_error (let! d := process_setvals pf rmatch (fst mi) true true true false spec in numbers_of d) in expected_data (fst mi) (snd mi) d
  | None => from (ck_model o)
  end.
(** 86, 89 the minimizer *)
Definition check_minimizer (o : CheckOpts) (mi : Model * Internal) : res Mini :=
  let! ib := set_pois_min (fst mi) (snd mi) None None None false in
  Ok (PoiMin.with_pois (mini_init "scalar" (ck_niter o) (Some (/ 10000000)) 0 None false 0) ib).

(** 60-93 the raster of the fits file, with its p-values, and the one recomputed with the linear model.  84-91: the test statistic is that of [full_stat]. *)
Definition check_rasters (L : LimitLibs) (E : Env) (C : Codec) (pf : string -> option R) (rmatch : string -> string -> bool) (o : CheckOpts) (f : fs) : res ((Model * Internal) * Raster * Raster) :=
  let S := ll_scan L in
  let! mi := check_model E C o f in
  let! r := fits_raster (sl_hash S) C f (ck_fits o) (i_pm (snd mi)) in
  let! data := check_data C pf rmatch o f mi in
  let! k := full_stat r (ck_stat o) in
  let! s := check_minimizer o mi in
  let! r := fill_all_pv (sl_dist S) k r in
  let! fast := recompute_raster (sl_hash S) (sl_dist S) k (ll_solver L) (fst mi) (snd mi) (sl_fit S (fst mi) (snd mi)) data s r in
  Ok (mi, r, fst fast).

(** fit_data.py:640-650 the columns of the table (verbosity 0 becomes 1) *)
Definition table_keys (r : Raster) (verbosity : Z) : list string :=
  match ra_points r with
  | [] => []
  | (_, p) :: _ =>
    ra_pois r ++ filter (fun k => dmem k (plr_pvs p)) ["pv"; "cls"; "clb"] ++ (if (1 <? verbosity)%Z then "tmu" :: map (fun k => ("best_" ++ k)%string) (ra_pois r) else [])
  end.
(** fit_data.py:655-659 a line of the table: a number for each key and, except for the POIs, the number of the other raster.  '%g' of something else than a number: TypeError. *)
Definition shown (v : pyval) : res R := match v with VNum x => Ok x | _ => Err TypeError end.
Definition table_line (hash : list string -> Z) (r other : Raster) (ks : list string) (h : Hypo) : res (list (R * option R)) :=
  mapM (fun k => let! v := key_value hash r k h in let! x := shown v in
                 if existsb (String.eqb k) (ra_pois r) then Ok (x, None) else
                 let! v' := key_value hash other k h in let! y := shown v' in Ok (x, Some y)) ks.
(** fit_data.py:613-666 print with another raster: the columns and the lines *)
Definition print_table (hash : list string -> Z) (r other : Raster) (verbosity : Z) : res (list string * list (list (R * option R))) :=
  let ks := table_keys r verbosity in
  let! lines := mapM (fun hp => table_line hash r other ks (fst hp)) (ra_points r) in
  Ok (ks, lines).

(** 104-105, 112-113 a curve: the points of a raster for a p-value *)
Definition plot_curve (r : Raster) (poi key : string) : res (list (R * pyval)) :=
  mapM (fun hp => let! x := dgetE poi (fst hp) in let! v := dgetE key (plr_pvs (snd hp)) in Ok (x, v)) (ra_points r).
(** 97-117 the plots: for each file the curve of the full model and that of the linear one.  Line 98 fails if the raster has no POIs, line 102 if the model has none. *)
Definition check_plots (o : CheckOpts) (m : Model) (r fast : Raster) : res (list (string * (list (R * pyval) * list (R * pyval)))) :=
  if ck_batch o then Ok [] else
  let! poi := match ra_pois r with [] => Err IndexError | n :: _ => Ok n end in
  let! _ := match m_pois m with [] => Err AttributeError | _ => Ok tt end in
  let! a := plot_curve r poi "pv" in let! b := plot_curve fast poi "pv" in
  let! c := plot_curve r poi "cls" in let! d := plot_curve fast poi "cls" in
  Ok [((ck_out o ++ "_clsb.pdf")%string, (a, b)); ((ck_out o ++ "_cls.pdf")%string, (c, d))].

(** 53-117 run: the table and the plots.  Nothing else is written. *)
Definition check_run (L : LimitLibs) (E : Env) (C : Codec) (pf : string -> option R) (rmatch : string -> string -> bool) (o : CheckOpts) (f : fs)
    : res ((list string * list (list (R * option R))) * list (string * (list (R * pyval) * list (R * pyval)))) :=
  let! (mi, r, fast) := check_rasters L E C pf rmatch o f in
  let! table := print_table (sl_hash (ll_scan L)) r fast (ck_verbosity o) in
  let! plots := check_plots o (fst mi) r fast in
  Ok (table, plots).
