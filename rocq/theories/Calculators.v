(** Model of src/fastprof/calculators.py: computation of test statistics and p-values at hypothesis points.  The likelihood fits
    are those of PoiMin; their dataset is in the fit environment. *)
From Verif Require Import Py Base Expressions Norms Sample Channels Params Core NpMin PoiMin TestStat FitData.
Local Open Scope string_scope.
Local Open Scope list_scope.

(** An NLL stored in a FitResult: infinite and NaN values, which floats allow, are not followed further (NonFinite). *)
Definition num_nll (o : option ext) : res (option R) :=
  match o with None => Ok None | Some (Fin x) => Ok (Some x) | Some _ => Err NonFinite end.

(** fit_data.py:320 in update(), called by the constructor of PLRData before there are any fits *)
Definition check_hypo (m : option PModel) (h : Hypo) : res unit :=
  match m with
  | Some m => let! _ := mapM (fun n => match index n (pm_pois m) with Some _ => Ok tt | None => Err KeyError end) (keys h) in Ok tt
  | None => Ok tt
  end.

(** a number read from a collection of values, used in arithmetic *)
Definition num_of (v : pyval) : res R := match v with VNum x => Ok x | _ => Err TypeError end.
Definition ts_num (k : string) (p : PLR) : res R := bind (dgetE k (plr_ts p)) num_of.

Definition with_pvs (p : PLR) (pvs : dict pyval) : PLR :=
  mkPLR (plr_hypo p) (plr_free p) (plr_fixed p) (plr_ts p) pvs (plr_full p) (plr_model p) (plr_asimov p).

(** calculators.py:66-79 pois and 81-93 poi(0): the POIs of the hypothesis (PLRData.pois, fit_data.py:320) when there is a model, else none *)
Definition calc_pois (p : PLR) : list string := match plr_model p with Some _ => keys (plr_hypo p) | None => [] end.
Definition calc_poi (p : PLR) : res string := match calc_pois p with [] => Err KeyError | n :: _ => Ok n end.
(** plr_data.free_fit.fitpars[poi].value: None fails in the comparisons *)
Definition best_value (p : PLR) : res R :=
  let! n := calc_poi p in
  let! fp := dgetE n (fr_pars (plr_free p)) in
  match fp_value fp with Some x => Ok x | None => Err TypeError end.

Inductive calc_kind := CalcTMu | CalcQMu | CalcQMuTilda.

(** calculators.py:228-238 make_q and 240-260 fill_pv of TMuCalculator; 337-373 of QMuCalculator, 393-430 of QMuTildaCalculator.  The values that
    make_q reads are read in its order. *)
Definition fill_pv (D : Dist) (k : calc_kind) (p : PLR) : res PLR :=
  match k with
  | CalcTMu =>
    let! _ := mapM (fun n => dgetE n (plr_hypo p)) (calc_pois p) in
    let! t := ts_num "tmu" p in
    Ok (with_pvs p (dset "pv" (VNum (tmu_pv D (mkTMu (length (calc_pois p)) t) None)) (plr_pvs p)))
  | CalcQMu =>
    let! n := calc_poi p in let! h := dgetE n (plr_hypo p) in
    let! t := ts_num "tmu" p in let! b := best_value p in let! a := ts_num "tmu_A0" p in
    let! (q, pv, cls, clb) := fill_pv_qmu D (make_qmu h t b a) in
    let p := with_ts p (dset "q_mu" (VNum q) (plr_ts p)) in
    Ok (with_pvs p (dset "clb" (VNum clb) (dset "cls" (VNum cls) (dset "pv" (VNum pv) (plr_pvs p)))))
  | CalcQMuTilda =>
    let! n := calc_poi p in let! h := dgetE n (plr_hypo p) in
    let! t := ts_num "tmu" p in let! b := best_value p in let! a := ts_num "tmu_A0" p in
    let! (q, pv, cls, clb) := fill_pv_qmt D (make_qmt h t b a) in
    let p := with_ts p (dset "q~mu" (VNum q) (plr_ts p)) in
    Ok (with_pvs p (dset "clb" (VNum clb) (dset "cls" (VNum cls) (dset "pv" (VNum pv) (plr_pvs p)))))
  end.
(** calculators.py:157-168 fill_all_pv *)
Definition fill_all_pv (D : Dist) (k : calc_kind) (r : Raster) : res Raster :=
  let! pts := mapM (fun hp => let! p := fill_pv D k (snd hp) in Ok (fst hp, p)) (ra_points r) in
  Ok (mkRaster pts (ra_pois r) (ra_model r)).

(** calculators.py:107-130 compute_fast_plr.  tmu is stored before the fits, so that update() does not compute it. *)
Definition compute_fast_plr (m : Model) (I : Internal) (F : FitEnv) (s : Mini) (h : Hypo) (full : option Params) : res (PLR * Mini) :=
  let! _ := check_hypo (Some (i_pm I)) h in
  let! (t, s') := opti_tmu m I F s h full in
  let! t := match t with Fin x => Ok x | _ => Err NonFinite end in
  let! fn := num_nll (mi_free_nll s') in
  let! free := fit_new (mi_free_pars s') fn (Some (i_pm I)) None in
  let! hn := num_nll (mi_hypo_nll s') in
  let! fixed := fit_new (mi_hypo_pars s') hn (Some (i_pm I)) None in
  let! p := plr_update (mkPLR h free fixed [("tmu", VNum t)] [] full (Some (i_pm I)) None) in
  Ok (p, s').

(** core.py:1092-1114 expected_pars and 1153-1166 generate_expected for the POI value 0 with an NP minimizer: every POI is set to 0 and the
    NPs to their profiled values *)
Definition generate_expected_0 (sv : solver) (m : Model) (I : Internal) (data : Data) : res Data :=
  let! p0 := pars_init (PINum 0) NINone (Some (i_pm I)) in
  let! (_, p) := profile sv m I data (HPars p0) in
  generate_asimov m I (pois p) (nps p).

(** calculators.py:132-155 compute_fast_q.  [env d] is the fit environment of dataset [d]. *)
Definition compute_fast_q (D : Dist) (k : calc_kind) (sv : solver) (m : Model) (I : Internal) (env : Data -> FitEnv) (data : Data) (s : Mini)
    (h : Hypo) (full : option Params) : res (PLR * Mini) :=
  let! (p, s1) := compute_fast_plr m I (env data) s h full in
  let! asimov := generate_expected_0 sv m I data in
  let! (pa, s2) := compute_fast_plr m I (env asimov) s1 h full in
  let! p := plr_set_asimov p pa "tmu_A0" in
  let! p := fill_pv D k p in
  Ok (p, s2).

(** calculators.py:170-196 compute_fast_results; the constructor of Raster recomputes tmu from the fits *)
Definition compute_fast_results (hash : list string -> Z) (D : Dist) (k : calc_kind) (sv : solver) (m : Model) (I : Internal) (env : Data -> FitEnv) (data : Data) (s : Mini)
    (hypos : list Hypo) (full_hypos : hdict Params) : res (Raster * Mini) :=
  let! (pts, s') := foldM (fun ds h => let! (p, s') := compute_fast_q D k sv m I env data (snd ds) h (hget hash h full_hypos) in
                                       Ok (hset hash h p (fst ds), s')) hypos ([], s) in
  let! r := raster_new pts true true (Some (i_pm I)) in
  let! r := fill_all_pv D k r in
  Ok (r, s').

(** calculators.py:198-214 recompute_raster (classes other than TMuCalculator) *)
Definition full_hypos_of (hash : list string -> Z) (r : Raster) : hdict Params :=
  fold_left (fun d hp => match plr_full (snd hp) with Some q => hset hash (fst hp) q d | None => d end) (ra_points r) [].
Definition recompute_raster (hash : list string -> Z) (D : Dist) (k : calc_kind) (sv : solver) (m : Model) (I : Internal) (env : Data -> FitEnv) (data : Data) (s : Mini)
    (r : Raster) : res (Raster * Mini) :=
  compute_fast_results hash D k sv m I env data s (map fst (ra_points r)) (full_hypos_of hash r).

(** calculators.py:262-326 TMuCalculator.compute_fast_results *)
Inductive free_mode := MAll | MSingle | MBestFixed.
Definition mode_of (s : string) : res free_mode :=
  if String.eqb s "all" then Ok MAll else if String.eqb s "single" then Ok MSingle
  else if String.eqb s "best_fixed_fit" then Ok MBestFixed else Err ValueError.

(** a point of the scan while it is computed: full hypothesis, fixed fit with its parameters, free fit *)
Record Pt := mkPt { pt_full : option Params; pt_pars : option Params; pt_fixed : FitResult; pt_free : option FitResult }.

(** calculators.py 287-298: the minimizer of the calculator is set up without the bounds it may have, and gives its (new) bounds to its clone.
    A test [minimize(data) is None] is never true. *)
Definition tmu_point (m : Model) (I : Internal) (F : FitEnv) (all : bool) (s : Mini) (h : Hypo) (full : option Params) : res (Pt * Mini) :=
  let! _ := check_hypo (Some (i_pm I)) h in
  let hm0 := mini_clone s in
  let! ib := set_pois_min m I full None (Some h) false in
  let s1 := with_pois s ib in
  let! hib := set_pois_min m I full (option_map values (mi_bounds s1)) (Some h) true in
  let! (_, hm) := minimize m I F (with_pois hm0 hib) None in
  let! hn := num_nll (mi_min_nll hm) in
  let! fixed := fit_new (mi_min_pars hm) hn (Some (i_pm I)) None in
  if all then
    let! (_, s2) := minimize m I F s1 None in
    let! fn := num_nll (mi_min_nll s2) in
    let! free := fit_new (mi_min_pars s2) fn (Some (i_pm I)) None in
    Ok (mkPt full (mi_min_pars hm) fixed (Some free), s2)
  else Ok (mkPt full (mi_min_pars hm) fixed None, s1).

(** calculators.py 308: the first point with the smallest NLL of the fixed fit (an NLL None does not compare: TypeError) *)
Fixpoint best_fixed_from (l : hdict Pt) (best : Hypo * Pt) (v : R) : res (Hypo * Pt) :=
  match l with
  | [] => Ok best
  | hp :: l' =>
    match fr_nll (pt_fixed (snd hp)) with
    | None => Err TypeError
    | Some x => if Rltb x v then best_fixed_from l' hp x else best_fixed_from l' best v
    end
  end.
Definition best_fixed (l : hdict Pt) : res (Hypo * Pt) :=
  match l with
  | [] => Err ValueError
  | hp :: l' => match fr_nll (pt_fixed (snd hp)) with None => Err TypeError | Some x => best_fixed_from l' hp x end
  end.

(** calculators.py 307-317: the common free fit, if any *)
Definition common_free (m : Model) (I : Internal) (F : FitEnv) (mode : free_mode) (s : Mini) (pts : hdict Pt) : res (option FitResult * Mini) :=
  match mode with
  | MAll => Ok (None, s)
  | MBestFixed =>
    let! best := best_fixed pts in
    let! f := fit_new (pt_pars (snd best)) (fr_nll (pt_fixed (snd best))) (Some (i_pm I)) None in
    Ok (Some f, s)
  | MSingle =>
    let! best := best_fixed pts in
    let! ib := set_pois_min m I None (option_map values (mi_bounds s)) (Some (fst best)) false in
    let! (_, s2) := minimize m I F (with_pois s ib) None in
    let! fn := num_nll (mi_min_nll s2) in
    let! f := fit_new (mi_min_pars s2) fn (Some (i_pm I)) None in
    Ok (Some f, s2)
  end.

(** calculators.py 318-322: every hypothesis of the list is a key of the dictionary, and update() is idempotent *)
Definition finish_point (I : Internal) (common : option FitResult) (hp : Hypo * Pt) : res (Hypo * PLR) :=
  match (match common with Some f => Some f | None => pt_free (snd hp) end) with
  | None => Err TypeError   (* not reached *)
  | Some free =>
    let! p := plr_update (mkPLR (fst hp) free (pt_fixed (snd hp)) [] [] (pt_full (snd hp)) (Some (i_pm I)) None) in
    Ok (fst hp, p)
  end.

(** calculators.py 274-326.  The hypotheses are POIHypo objects: a plain dictionary, which the documentation allows, is not hashable (line 286). *)
Inductive hypo_arg := HObj (h : Hypo) | HPlain (h : Hypo).
(** calculators.py 281-302: one turn of the loop, on the dictionary of points and the state of the minimizer *)
Definition tmu_step (hash : list string -> Z) (m : Model) (I : Internal) (F : FitEnv) (all : bool) (full_hypos : hdict Params)
    (ds : hdict Pt * Mini) (a : hypo_arg) : res (hdict Pt * Mini) :=
  match a with
  | HPlain _ => Err TypeError
  | HObj h =>
    let! (p, s') := tmu_point m I F all (snd ds) h (hget hash h full_hypos) in
    Ok (hset hash h p (fst ds), s')
  end.
Definition tmu_results (hash : list string -> Z) (D : Dist) (m : Model) (I : Internal) (F : FitEnv) (s : Mini)
    (hypos : list hypo_arg) (full_hypos : hdict Params) (free_fit : string) : res (Raster * Mini) :=
  let! mode := mode_of free_fit in
  let! (pts, s1) := foldM (tmu_step hash m I F (match mode with MAll => true | _ => false end) full_hypos) hypos ([], s) in
  let! (common, s2) := common_free m I F mode s1 pts in
  let! plrs := mapM (finish_point I common) pts in
  let! r := raster_new plrs true true (Some (i_pm I)) in
  let! r := fill_all_pv D CalcTMu r in
  Ok (r, s2).
