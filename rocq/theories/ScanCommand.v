(** Model of the command-line program src/fastprof_utils/poi_scan.py, in batch mode (--batch-mode: nothing is plotted) with the default verbosity.
    The parsing of the command line itself (argparse) is not modelled: the options are given as a record.  Printing is not modelled. *)
From Verif Require Import Py Base Expressions Norms Sample Channels Params Core NpMin PoiMin TestStat FitData Calculators Scans ModelIO ModelTools UtilTools FileIO Commands.
Local Open Scope string_scope.
Local Open Scope list_scope.

(** What the program calls: hash() of tuples of names, scipy, the likelihood fits of a model to a dataset, repr() of the numbers used as keys of the
    results (json.dump), [best2 s a b]: the search of PLRScan2D.best_fit from a point. *)
Record ScanLibs := mkSL {
  sl_hash : list string -> Z;
  sl_dist : Dist;
  sl_spline : SplineLib;
  sl_stat : StatLib;
  sl_fit : Model -> Internal -> Data -> FitEnv;
  sl_best2 : PLRScan2D -> R -> R -> option (R * R);
  sl_repr : R -> string }.

(** 25-46 the options.  [sc_mode] is --best-fit-mode, [sc_linear] --linear-nps, [sc_sym] --sym-impacts, [sc_timing] --show-timing. *)
Record ScanOpts := mkSO {
  so_model : string; so_data : option string; so_asimov : option string; so_hypos : option string; so_cl : string; so_out : string;
  so_overwrite : bool; so_force : bool; so_mode : string; so_setrange : option string; so_linear : bool; so_sym : bool; so_niter : nat;
  so_regularize : option R; so_cutoff : option R; so_timing : bool }.
Definition results_file (o : ScanOpts) : string := (so_out o ++ "_results.json")%string.
Definition raster_file (o : ScanOpts) : string := (so_out o ++ "_raster.json")%string.

Definition with_cutoff (m : Model) (c : R) : Model :=
  mkModel (m_name m) (m_descr m) (m_pois m) (m_nps m) (m_aux m) (m_channels m) (m_exprs m) (m_asym m) (m_linear m) (m_simple_sym m) (m_lognormal m) c.
(** 59-64 the model.  Model has no method set_gamma_regularization (62): AttributeError. *)
Definition scan_model (E : Env) (C : Codec) (pf : string -> option R) (rmatch : string -> string -> bool) (o : ScanOpts) (f : fs) : res (Model * Internal) :=
  let! mi := model_load_file E C f (new_model (negb (so_sym o)) (so_linear o)) (so_model o) None in
  let! _ := match so_regularize o with Some _ => Err AttributeError | None => Ok tt end in
  let m1 := match so_cutoff o with Some c => with_cutoff (fst mi) c | None => fst mi end in
  match so_setrange o with
  | None => Ok (m1, snd mi)
  | Some spec => let '(ps, r) := process_setranges pf rmatch spec (m_pois m1) in let! _ := r in Ok (ModelTools.with_pois m1 ps, snd mi)
  end.
(** the numbers of a parsed specification; with check_val there is nothing else *)
Definition numbers_of (d : dict sval) : res (dict R) :=
  mapM (fun kv => match snd kv with SNum x => Ok (fst kv, x) | SStr _ => Err ValueError end) d.
(** core.py 1153-1166 and 1092-1114: generate_expected for a dictionary of values, without a minimizer.  Parameters(pois, model) only reads the POIs: the NPs are 0. *)
Definition expected_data (m : Model) (I : Internal) (d : dict R) : res Data :=
  let! p := pars_init (PIDict (map (fun kv => (fst kv, Some (snd kv))) d)) NINone (Some (i_pm I)) in
  generate_asimov m I (pois p) (nps p).
(** 69-85 the dataset (an empty --data-file is the same as none).  Data.load never returns None. *)
Definition scan_data (C : Codec) (pf : string -> option R) (rmatch : string -> string -> bool) (o : ScanOpts) (f : fs) (mi : Model * Internal) : res Data :=
  let from p := let! d := data_create C f mi p in Ok (fst d) in
  let other := match so_asimov o with
               | Some spec => let! d := or_value_error (let! d := process_setvals pf rmatch (fst mi) true true true false spec in numbers_of d) in
                              expected_data (fst mi) (snd mi) d
               | None => from (so_model o)
               end in
  match so_data o with Some p => if String.eqb p "" then other else from p | None => other end.

(** 88-92 the raster stored by an earlier run, if it is used: None when the computation is to be done *)
Definition cached_raster (L : ScanLibs) (C : Codec) (o : ScanOpts) (f : fs) (I : Internal) : res (option Raster) :=
  if so_force o then Ok None else
  match f (raster_file o) with
  | None => Ok None
  | Some _ => let! sd := load_file C f (raster_file o) None in
              let! v := dgetE "fast" sd in let! l := jlist v in
              let! r := raster_load (sl_hash L) [] true true (Some (i_pm I)) l in Ok (Some r)
  end.
(** 94-99 *)
Definition parse_hypos (fuel : nat) (pf : string -> option R) (pi : string -> option Z) (rmatch : string -> string -> bool) (m : Model) (spec : string) : res (list Hypo) :=
  or_value_error (let! l := setval_list fuel pf pi rmatch m true true spec in mapM numbers_of l).
(** 101-114 is the stored raster for these hypotheses?  Otherwise the computation is to be done, or the run ends with KeyError *)
Definition covers (r : Raster) (hypos : list Hypo) : bool :=
  ((length (ra_points r) =? length hypos)%nat && forallb (fun h => existsb (fun h' => hypo_eqb h' h) (map fst (ra_points r))) hypos)%bool.
(** 93-116 the hypotheses, and the stored raster if it is to be used *)
Definition scan_plan (E : Env) (pf : string -> option R) (pi : string -> option Z) (rmatch : string -> string -> bool) (o : ScanOpts) (m : Model) (cached : option Raster)
    : res (list Hypo * option Raster) :=
  match so_hypos o with
  | None => Ok (match cached with Some r => (map fst (ra_points r), Some r) | None => ([], None) end)
  | Some spec =>
    let! hypos := parse_hypos (e_fuel E) pf pi rmatch m spec in
    match cached with
    | None => Ok (hypos, None)
    | Some r => if covers r hypos then Ok (hypos, Some r) else if so_overwrite o then Ok (hypos, None) else Err KeyError
    end
  end.
(** 126-134 the computation.  have_compatible_pois never gives None (119). *)
Definition scan_compute (L : ScanLibs) (o : ScanOpts) (mi : Model * Internal) (data : Data) (hypos : list Hypo) : res Raster :=
  let m := fst mi in let it := snd mi in
  let! ib := set_pois_min m it None None None false in
  if (2 <? length (have_compatible_pois hypos))%nat then Err ValueError else
  let! r := tmu_results (sl_hash L) (sl_dist L) m it (sl_fit L m it data) (PoiMin.with_pois (mini_init "scalar" (so_niter o) (Some (/ 10000000)) 0 None false 0) ib) (map HObj hypos) [] (so_mode o) in
  Ok (fst r).

(** float.is_integer *)
Definition is_integer (x : R) : bool := Reqb (IZR (Int_part x)) x.
(** 163, 186: an integer is a number of standard deviations, another number a confidence level *)
Definition level_args (cl : R) : option R * option R := if is_integer cl then (None, Some cl) else (Some cl, None).
(** 162-183 one level of a scan of one POI; interval() is never None *)
Definition cl_entry (L : ScanLibs) (m : Model) (r : Raster) (poi : string) (cl : R) : res jv :=
  let! s := ps_new (sl_stat L) r "tmu" None (fst (level_args cl)) (snd (level_args cl)) in
  let! iv := ps_interval (sl_spline L) s 3 false in
  let! p := dgetE poi (m_pois m) in
  let '(c, up, dn) := iv in
  Ok (JObj [("cl", JFlt (ps_cl (sl_stat L) s)); ("poi_name", JStr poi); ("poi_unit", match poi_unit p with Some u => JStr u | None => JNull end);
            ("central_value", JFlt c); ("uncertainty_up", jnum_of up); ("uncertainty_dn", jnum_of dn)]).
(** 185-193 the levels of a scan of two POIs: the best fit is computed for the first one, nothing is stored *)
Fixpoint contour_levels (L : ScanLibs) (r : Raster) (first : bool) (cls : list R) : res unit :=
  match cls with
  | [] => Ok tt
  | cl :: rest =>
    let! s := p2_new (sl_stat L) r "tmu" None None (fst (level_args cl)) (snd (level_args cl)) in
    let! _ := if first then let! _ := p2_best_fit (sl_best2 L s) s in Ok tt else Ok tt in
    contour_levels L r false rest
  end.
(** 155-193 the results *)
Definition scan_results (L : ScanLibs) (m : Model) (r : Raster) (pois : list string) (cls : list R) : res (dict jv) :=
  match pois with
  | [] => Err IndexError
  | [poi] => foldM (fun d cl => let! e := cl_entry L m r poi cl in Ok (dset (sl_repr L cl) e d)) cls []
  | _ :: _ :: _ => let! _ := contour_levels L r true cls in Ok []
  end.
(** 137-204 after the computation, [ops] being what it did: an invalid --cl ends the run (146-149); with --show-timing and a stored raster comp_start_time (197) is not defined *)
Definition scan_finish (L : ScanLibs) (C : Codec) (w : string -> bool) (pf : string -> option R) (o : ScanOpts) (m : Model) (hypos : list Hypo) (r : Raster) (computed : bool) (ops : list fsop)
    : list fsop * option exn :=
  match mapM (fun s => match pf s with Some x => Ok x | None => Err ValueError end) (split "," (so_cl o)) with
  | Err _ => (ops, None)
  | Ok cls =>
    match scan_results L m r (have_compatible_pois hypos) cls with
    | Err e => (ops, Some e)
    | Ok d => if (so_timing o && negb computed)%bool then (ops, Some NameError) else
              let '(ops', e) := save_ops C w (results_file o) (Some "json") d in (ops ++ ops', e)
    end
  end.
(** 49-204 run: the operations on the file system and the exception that ends the run, if any *)
Definition scan_run (L : ScanLibs) (E : Env) (C : Codec) (w : string -> bool) (pf : string -> option R) (pi : string -> option Z) (rmatch : string -> string -> bool) (o : ScanOpts) (f : fs)
    : list fsop * option exn :=
  match (let! mi := scan_model E C pf rmatch o f in
         let! data := scan_data C pf rmatch o f mi in
         let! cached := cached_raster L C o f (snd mi) in
         let! plan := scan_plan E pf pi rmatch o (fst mi) cached in
         match snd plan with
         | Some r => Ok (fst mi, fst plan, r, None)
         | None => let! r := scan_compute L o mi data (fst plan) in
                   let! l := raster_dump r in Ok (fst mi, fst plan, r, Some l)
         end) with
  | Err e => ([], Some e)
  | Ok (m, hypos, r, None) => scan_finish L C w pf o m hypos r false []
  | Ok (m, hypos, r, Some l) =>
    match save_ops C w (raster_file o) None [("fast", JList l)] with
    | (ops, Some e) => (ops, Some e)
    | (ops, None) => scan_finish L C w pf o m hypos r true ops
    end
  end.
