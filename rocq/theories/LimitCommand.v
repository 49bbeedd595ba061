(** Model of the command-line program src/fastprof_utils/compute_fast_limits.py, in batch mode (--batch-mode: nothing is plotted).
    The parsing of the command line itself (argparse) is not modelled: the options are given as a record.  Printing is not modelled, nor are --debug and
    --show-timing.  One process runs at a time. *)
From Verif Require Import Py RSort Base Expressions Norms Sample Channels Params Core NpMin PoiMin TestStat FitData Calculators Scans ModelIO ModelTools UtilTools LimitTools FileIO Commands Sampling FileName
  ScanCommand SamplesRun.
Local Open Scope string_scope.
Local Open Scope list_scope.

(** * With uncertainties: the p-values and the bands of sampling.py *)
(** sampling.py:353-376 pv with error (for the class without error: SamplesRun.v) *)
Definition so_pv_err (hash : list string -> Z) (o : SObj) (h : Hypo) (apv : R) : res (R * R) :=
  match hget hash h (so_dists o) with Some s => sd_pv_err s apv | None => Err KeyError end.
(** 509-532 pv with error *)
Definition co_pv_err (hash : list string -> Z) (c : CObj) (h : Hypo) (apv : R) : res (R * R) :=
  let! (clsb, esb) := so_pv_err hash (co_clsb c) h apv in
  let! (cl_b, eb) := so_pv_err hash (co_cl_b c) h apv in
  Ok (if Rleb cl_b 0 then (1, 1)
      else if Rleb clsb 0 then (0, esb / cl_b)
      else (clsb / cl_b, clsb / cl_b * sqrt ((esb / clsb) ^ 2 + (eb / cl_b) ^ 2))).
(** 378-398 quantile, for a number of standard deviations; 400-412 bands *)
Definition so_quantile (hash : list string -> Z) (cdf : R -> R) (o : SObj) (h : Hypo) (n : R) : res R :=
  match hget hash h (so_dists o) with Some s => sd_quantile cdf s None (Some n) | None => Err KeyError end.
Definition so_bands (hash : list string -> Z) (cdf : R -> R) (o : SObj) (max_sigma : nat) : res (list (Z * list R)) :=
  mapM (fun i => let! qs := mapM (fun h => so_quantile hash cdf o h (IZR i)) (so_hypos o) in Ok (i, qs)) (band_orders max_sigma).
(** 555-573 bands of CLsSamples: the CLs of every CLb sample, sorted *)
Definition co_bands (hash : list string -> Z) (cdf : R -> R) (c : CObj) (max_sigma : nat) : res (list (Z * list R)) :=
  let hypos := so_hypos (co_clsb c) in
  let! o := so_init [] "" hypos in
  let! dists := foldM (fun d h => match hget hash h (so_dists (co_cl_b c)) with
                                  | Some s => let! v := mapM (co_pv hash c h) s in Ok (hset hash h (sd_sort v) d)
                                  | None => Err KeyError
                                  end) hypos [] in
  so_bands hash cdf (with_dists o dists) max_sigma.

(** * The program *)
(** What the program calls: the libraries of poi_scan, np.linalg.solve, norm.cdf, str() of a natural number, and [ll_toys]: what generate() of an OptiSampler
    (samplers.py 228-300) returns in this run for the model, the tested hypothesis, the generated one, the bounds, the number of iterations, tmu_A0 and
    the number of toys. *)
Record LimitLibs := mkLL {
  ll_scan : ScanLibs;
  ll_solver : solver;
  ll_cdf : R -> R;
  ll_dec : nat -> string;
  ll_toys : Model * Internal -> Hypo -> Params -> list ParBound -> nat -> R -> nat -> res (list R) }.

(** 62-87 the options; [lo_bands]: a negative number of bands is not modelled *)
Record LimitOpts := mkLO {
  lo_model : string; lo_hypos : string; lo_ntoys : nat; lo_cl : R; lo_out : string; lo_data : option string; lo_asimov : option string; lo_niter : nat;
  lo_regularize : option R; lo_cutoff : option R; lo_bounds : option string; lo_stat : string; lo_break : bool; lo_overwrite : bool; lo_bands : option nat; lo_trunc : option R }.
(** 102-103 *)
Definition limit_results_file (o : LimitOpts) : string := (lo_out o ++ "_results.json")%string.
Definition limit_raster_file (o : LimitOpts) : string := (lo_out o ++ "_raster.json")%string.

(** 97-100 the model: Model has no method set_gamma_regularization *)
Definition limit_model (E : Env) (C : Codec) (o : LimitOpts) (f : fs) : res (Model * Internal) :=
  let! mi := model_load_file E C f (new_model true false) (lo_model o) None in
  let! _ := match lo_regularize o with Some _ => Err AttributeError | None => Ok tt end in
  Ok (match lo_cutoff o with Some c => with_cutoff (fst mi) c | None => fst mi end, snd mi).
(** 117-119 and core.py:81-87 the Asimov dataset: every item is name=value, the values of the POIs are converted to numbers, the other names are passed over *)
Definition asimov_values (pf : string -> option R) (m : PModel) (spec : string) : res (dict R) :=
  let! sets := mapM (fun l => match l with [n; v] => Ok (n, v) | _ => Err ValueError end) (assignments spec) in
  let d := fold_left (fun d kv => dset (fst kv) (snd kv) d) sets [] in
  mapM (fun kv => match pf (snd kv) with Some x => Ok (fst kv, x) | None => Err ValueError end) (filter (fun kv => existsb (String.eqb (fst kv)) (pm_pois m)) d).
(** 111-127 the dataset *)
Definition limit_data (C : Codec) (pf : string -> option R) (o : LimitOpts) (f : fs) (mi : Model * Internal) : res Data :=
  let from p := let! d := data_create C f mi p in Ok (fst d) in
  let other := match lo_asimov o with
               | Some spec => or_value_error (let! d := asimov_values pf (i_pm (snd mi)) spec in expected_data (fst mi) (snd mi) d)
               | None => from (lo_model o)
               end in
  match lo_data o with Some p => if String.eqb p "" then other else from p | None => other end.
(** 129-143 *)
Definition limit_bounds (pf : string -> option R) (o : LimitOpts) : res (list ParBound) :=
  match lo_bounds o with Some spec => parse_bounds pf spec | None => Ok [] end.
(** 145-153 the test statistic *)
Definition limit_stat (m : Model) (stat : string) : res calc_kind :=
  let one k := if (1 <? length (m_pois m))%nat then Err ValueError else Ok k in
  if String.eqb stat "q~mu" then one CalcQMuTilda else if String.eqb stat "q_mu" then one CalcQMu else Err ValueError.
(** 145-158 the minimizer: OptiMinimizer() without a number of iterations.  The message of line 157 reads the bound on the parameter among those of the POIs. *)
Definition limit_minimizer (mi : Model * Internal) (bounds : list ParBound) : res Mini :=
  let! ib := set_pois_min (fst mi) (snd mi) None None None false in
  let! _ := mapM (fun b => dgetE (pb_par b) (snd ib)) bounds in
  let! ib := set_pois_min (fst mi) (snd mi) None (Some bounds) None false in
  Ok (PoiMin.with_pois (mini_init "scalar" 1 (Some (/ 10000000)) 0 None false 1) ib).
(** 164-170 the stored raster, if there is one.  Only FileNotFoundError is caught. *)
Definition stored_raster (L : ScanLibs) (C : Codec) (o : LimitOpts) (f : fs) (it : Internal) : res (option Raster) :=
  match f (limit_raster_file o) with
  | None => Ok None
  | Some _ => let! sd := load_file C f (limit_raster_file o) None in
              let! v := dgetE "fast" sd in let! l := jlist v in
              let! r := raster_load (sl_hash L) [] true true (Some (i_pm it)) l in Ok (Some r)
  end.
(** 179-180 the computation: the reference parameters of a hypothesis are its POI values with all the NPs at 0 *)
Definition limit_compute (L : LimitLibs) (k : calc_kind) (s : Mini) (mi : Model * Internal) (data : Data) (hypos : list Hypo) : res Raster :=
  let S := ll_scan L in let m := fst mi in let it := snd mi in
  let! full := foldM (fun d h => let! p := pars_init (PIDict (map (fun kv => (fst kv, Some (snd kv))) h)) NINone (Some (i_pm it)) in Ok (hset (sl_hash S) h p d)) hypos [] in
  let! r := compute_fast_results (sl_hash S) (sl_dist S) k (ll_solver L) m it (sl_fit S m it) data s hypos full in
  Ok (fst r).

(** 187-190 the limits in the asymptotic approximation: CLs+b and CLs *)
Definition asymptotic_limits (S : SplineLib) (r : Raster) (cl : R) : res (option R * option R) :=
  let! sb := ul_new r "pv" None cl in let! s := ul_new r "cls" None cl in
  let! lsb := ul_limit S sb 3 true in let! ls := ul_limit S s 3 true in Ok (lsb, ls).
(** 203-213 the samplers of a point.  A tmu_A0 that is not a number is not followed further. *)
Definition point_samplers (L : LimitLibs) (mi : Model * Internal) (bounds : list ParBound) (niter : nat) (p : PLR) : res (Sampler * Sampler) :=
  let! t := ts_num "tmu_A0" p in
  let! gen := match plr_full p with Some g => Ok g | None => Err AttributeError end in
  let! clone := pars_clone gen in
  let! poi := match keys (m_pois (fst mi)) with n :: _ => Ok n | [] => Err AttributeError end in
  let! gen0 := pars_set clone poi 0 false in
  let sampler g := mkSampler (plr_hypo p) (ll_toys L mi (plr_hypo p) g bounds niter t) in
  Ok (sampler gen, sampler gen0).
(** 222-226 the p-values of a point *)
Definition sampling_point (hash : list string -> Z) (c : CObj) (p : PLR) : res PLR :=
  let! apv := bind (dgetE "pv" (plr_pvs p)) num_of in
  let! sb := so_pv_err hash (co_clsb c) (plr_hypo p) apv in
  let! b := so_pv_err hash (co_cl_b c) (plr_hypo p) apv in
  let! s := co_pv_err hash c (plr_hypo p) apv in
  let pair v := VPair (fst v) (snd v) in
  Ok (with_pvs p (dset "sampling_cls" (pair s) (dset "sampling_clb" (pair b) (dset "sampling_pv" (pair sb) (plr_pvs p))))).
Definition on_points (f : PLR -> res PLR) (r : Raster) : res Raster :=
  let! pts := mapM (fun hp => let! p := f (snd hp) in Ok (fst hp, p)) (ra_points r) in Ok (mkRaster pts (ra_pois r) (ra_model r)).
(** '%+d' *)
Definition signed (dec : nat -> string) (b : Z) : string := ((if (b <? 0)%Z then "-" else "+") ++ dec (Z.to_nat (Z.abs b)))%string.
Definition band_pv (dec : nat -> string) (b : Z) : string := ("sampling_cls_" ++ signed dec b)%string.
(** 228-231 one band: the values are given to the points by position *)
Definition fill_band (dec : nat -> string) (r : Raster) (band : Z * list R) : Raster :=
  let fill hv := (fst (fst hv), with_pvs (snd (fst hv)) (dset (band_pv dec (fst band)) (VNum (snd hv)) (plr_pvs (snd (fst hv))))) in
  mkRaster (map fill (combine (ra_points r) (snd band)) ++ skipn (length (snd band)) (ra_points r)) (ra_pois r) (ra_model r).
(** the number of bands, if it is not 0 *)
Definition bands_of (o : LimitOpts) : option nat := match lo_bands o with Some (S n) => Some (S n) | _ => None end.
(** 220 --truncate-dist, if it is not 0 *)
Definition truncated (hash : list string -> Z) (o : LimitOpts) (c : CObj) : res CObj :=
  match truthy (lo_trunc o) with Some x => co_cut hash c None (Some x) | None => Ok c end.
(** 222-245 the raster with the p-values from the samples, the limits CLs+b and CLs with their variations, and those of the bands *)
Definition sampling_limits (L : LimitLibs) (o : LimitOpts) (c : CObj) (r : Raster) : res (Raster * (option (R * R * R) * option (R * R * R)) * list (Z * option R)) :=
  let S := ll_scan L in
  let! r := on_points (sampling_point (sl_hash S) c) r in
  let! r := match bands_of o with
            | Some n => let! bands := co_bands (sl_hash S) (ll_cdf L) c n in Ok (fold_left (fill_band (ll_dec L)) bands r)
            | None => Ok r
            end in
  let! usb := ul_new r "sampling_pv" None (lo_cl o) in let! us := ul_new r "sampling_cls" None (lo_cl o) in
  let! lsb := ul_limit_err (sl_spline S) usb 3 true in let! ls := ul_limit_err (sl_spline S) us 3 true in
  let! lb := match bands_of o with
             | Some n => mapM (fun b => let! u := ul_new r (band_pv (ll_dec L) b) None (95 / 100) in let! l := ul_limit (sl_spline S) u 3 true in Ok (b, l)) (band_orders n)
             | None => Ok []
             end in
  Ok (r, (lsb, ls), lb).

(** the value of limit() in the results: a number, or three nulls if there is no crossing *)
Definition limit_value (l : option R) : jv := match l with Some x => JFlt x | None => JList [JNull; JNull; JNull] end.
(** limit_sampling_cls[0], [1] and [2] *)
Definition triple_values (key : string) (l : option (R * R * R)) : list (string * jv) :=
  let '(n, u, d) := match l with Some (n, u, d) => (JFlt n, JFlt u, JFlt d) | None => (JNull, JNull, JNull) end in
  [(key, n); ((key ++ "_up")%string, u); ((key ++ "_dn")%string, d)].
(** 273-293 the results.  poi(0) is None without POIs. *)
Definition limit_results (dec : nat -> string) (o : LimitOpts) (m : Model) (asy : option R * option R) (toys : option ((option (R * R * R) * option (R * R * R)) * list (Z * option R))) : res (dict jv) :=
  match m_pois m with
  | [] => Err AttributeError
  | (_, p) :: _ =>
    Ok ([("cl", JFlt (lo_cl o)); ("poi_name", match poi_name p with Some n => JStr n | None => JNull end); ("poi_unit", match poi_unit p with Some u => JStr u | None => JNull end)]
        ++ match toys with Some ((_, ls), _) => triple_values "limit_sampling_CLs" ls | None => [] end
        ++ [("limit_asymptotics_CLs", limit_value (snd asy))]
        ++ match toys with Some ((lsb, _), _) => triple_values "limit_sampling_CLsb" lsb | None => [] end
        ++ [("limit_asymptotics_CLsb", limit_value (fst asy))]
        ++ match toys with Some (_, lb) => map (fun bl => (("limit_sampling_CLs_expected_band_" ++ signed dec (fst bl))%string, limit_value (snd bl))) lb | None => [] end)
  end.

(** 182-309 after the raster *)
Definition limit_finish (L : LimitLibs) (C : Codec) (w : string -> bool) (o : LimitOpts) (mi : Model * Internal) (bounds : list ParBound) (r : Raster) (ops : list fsop) (dk : disk)
    : list fsop * disk * option exn :=
  let hash := sl_hash (ll_scan L) in
  let store asy toys dk := match limit_results (ll_dec L) o (fst mi) asy toys with
                           | Err e => (ops, dk, Some e)
                           | Ok d => let '(ops', e) := save_ops C w (limit_results_file o) (Some "json") d in (ops ++ ops', dk, e)
                           end in
  match asymptotic_limits (sl_spline (ll_scan L)) r (lo_cl o) with
  | Err e => (ops, dk, Some e)
  | Ok asy =>
    if (lo_ntoys o =? 0)%nat then store asy None dk else
    match (let! l := mapM (point_samplers L mi bounds (lo_niter o)) (map snd (ra_points r)) in limit_samples (map fst l) (map snd l) (lo_out o)) with
    | Err e => (ops, dk, Some e)
    | Ok c =>
      match co_generate_and_save hash c (lo_ntoys o) (lo_break o) true dk with
      | ((dk', _), Some e) => (ops, dk', Some e)
      | ((dk', c'), None) =>
        match (let! c' := truncated hash o c' in sampling_limits L o c' r) with
        | Err e => (ops, dk', Some e)
        | Ok (_, l, lb) => store asy (Some (l, lb)) dk'
        end
      end
    end
  end.
(** 90-309 run: the operations on the file system (except the samples), the samples and locks at the end, and the exception that ends the run, if any *)
Definition limit_run (L : LimitLibs) (E : Env) (C : Codec) (w : string -> bool) (pf : string -> option R) (pi : string -> option Z) (rmatch : string -> string -> bool) (o : LimitOpts) (f : fs) (dk : disk)
    : list fsop * disk * option exn :=
  match (let! mi := limit_model E C o f in
         let! hypos := parse_hypos (e_fuel E) pf pi rmatch (fst mi) (lo_hypos o) in
         let! data := limit_data C pf o f mi in
         let! bounds := limit_bounds pf o in
         let! k := limit_stat (fst mi) (lo_stat o) in
         let! s := limit_minimizer mi bounds in
         let! stored := stored_raster (ll_scan L) C o f (snd mi) in
         match (if lo_overwrite o then None else stored) with
         | Some r => Ok (mi, bounds, r, None)
         | None => let! r := limit_compute L k s mi data hypos in
                   let! l := raster_dump r in Ok (mi, bounds, r, Some l)
         end) with
  | Err e => ([], dk, Some e)
  | Ok (mi, bounds, r, None) => limit_finish L C w o mi bounds r [] dk
  | Ok (mi, bounds, r, Some l) =>
    match save_ops C w (limit_raster_file o) None [("fast", JList l)] with
    | (ops, Some e) => (ops, dk, Some e)
    | (ops, None) => limit_finish L C w o mi bounds r ops dk
    end
  end.
