(** Model of src/fastprof/scans.py: scans over a raster, crossings, minima, limits, intervals.  The interpolating splines of
    scipy and the chi2 and normal distributions are parameters. *)
From Verif Require Import Py Base Params FitData.
Local Open Scope string_scope.
Local Open Scope list_scope.

(** scipy.interpolate.InterpolatedUnivariateSpline: the curve of a given order through points, the roots() of a cubic one, and
    the roots of the derivative of a quartic one *)
Record SplineLib := mkSpl {
  sp_curve : nat -> list R -> list R -> R -> R;
  sp_roots : list R -> list R -> list R;
  sp_min : list R -> list R -> list R }.

(** scipy refuses abscissas that are not strictly increasing *)
Fixpoint increasing (l : list R) : bool :=
  match l with
  | x :: ((y :: _) as l') => Rltb x y && increasing l'
  | _ => true
  end.

(** scans.py:40-138 Scan: a raster and a key; the calculator (line 66) has already filled the raster *)
Record Scan := mkScan { sc_raster : Raster; sc_key : string }.
(** scans.py:52-69 __init__ *)
Definition scan_new (r : Raster) (key : string) : res Scan :=
  if is_filled r key false false then Ok (mkScan r key) else Err KeyError.

(** scans.py:71-92 find_poi: the error message of line 90 uses an undefined variable *)
Definition find_poi (s : Scan) (poi_name : option string) (idx : nat) : res string :=
  let pois := ra_pois (sc_raster s) in
  match poi_name with
  | Some n => if existsb (String.eqb n) pois then Ok n else Err NameError
  | None => match nth_error pois idx with Some n => Ok n | None => Err IndexError end
  end.

(** scans.py:94-115 value: a tuple gives value + n * error; line 113 raises a string, which is a TypeError *)
Definition scan_value (s : Scan) (p : PLR) (variation : R) : res pyval :=
  let! raw := match dget (sc_key s) (plr_pvs p) with Some v => Ok v | None => dgetE (sc_key s) (plr_ts p) end in
  match raw with
  | VPair v e => Ok (VNum (v + variation * e))
  | _ => if Reqb variation 0 then Ok raw else Err TypeError
  end.
(** use of a value in arithmetic or comparisons with numbers *)
Definition as_num (v : pyval) : res R := match v with VNum x => Ok x | _ => Err TypeError end.
Definition scan_num (s : Scan) (p : PLR) (variation : R) : res R := bind (scan_value s p variation) as_num.

(** Python's min / max with a key: the first one among equals; ValueError for an empty list *)
Definition py_min {A} (f : A -> R) (l : list A) : res A :=
  match l with
  | [] => Err ValueError
  | a :: l' => Ok (fold_left (fun m x => if Rltb (f x) (f m) then x else m) l' a)
  end.
(** scans.py:117-137 minimum, maximum.  Values that are not numbers are reported as TypeError (Python can order lists). *)
Definition hypo_values (s : Scan) : res (list (Hypo * R)) :=
  mapM (fun hp => let! v := scan_num s (snd hp) 0 in Ok (fst hp, v)) (ra_points (sc_raster s)).
Definition scan_minimum (s : Scan) : res (Hypo * R) := let! l := hypo_values s in py_min snd l.
Definition scan_maximum (s : Scan) : res (Hypo * R) := let! l := hypo_values s in py_min (fun x => - snd x) l.

(** scans.py:140-168 Scan1D *)
Record Scan1D := mkScan1D { s1_scan : Scan; s1_poi : string }.
Definition scan1d_new (r : Raster) (key : string) (poi_name : option string) : res Scan1D :=
  let! s := scan_new r key in let! poi := find_poi s poi_name 0 in Ok (mkScan1D s poi).

(** scans.py:222-248 points: positions and values (central, or with n sigma variation) *)
Definition scan_points (s : Scan1D) (variation : R) : res (list R * list pyval) :=
  let! l := mapM (fun hp => let! x := dgetE (s1_poi s) (fst hp) in
                            let! v := scan_value (s1_scan s) (snd hp) variation in Ok (x, v)) (ra_points (sc_raster (s1_scan s))) in
  Ok (map fst l, map snd l).

(** scans.py:314-323: the points given to the interpolation *)
Fixpoint interp_points (target : R) (log_scale : bool) (xs : list R) (ys : list pyval) : res (list (R * R)) :=
  match xs, ys with
  | x :: xs', v :: ys' =>
    let! y := as_num v in
    if log_scale then
      if Rleb y 0 then interp_points target log_scale xs' ys'
      else if Reqb target 0 then Err ZeroDivisionError
      else if Rleb (y / target) 0 then Err ValueError                      (* math.log *)
      else let! l := interp_points target log_scale xs' ys' in Ok ((x, ln (y / target)) :: l)
    else let! l := interp_points target log_scale xs' ys' in Ok ((x, y - target) :: l)
  | _, _ => Ok []
  end.

(** scans.py:290-335 interpolate_crossings; the result None is None *)
Definition interpolate_crossings (L : SplineLib) (xs : list R) (ys : list pyval) (target : R) (order : nat) (log_scale : bool) : res (option (list R)) :=
  let! pts := interp_points target log_scale xs ys in
  let n := length pts in
  if (n <? 2)%nat then Ok None
  else
    let order := if (n <? order + 1)%nat then (n - 1)%nat else order in
    if negb (increasing (map fst pts)) then Err ValueError
    else if (order =? 3)%nat then Ok (Some (sp_roots L (map fst pts) (map snd pts))) else Ok (Some []).

(** scans.py:338-374 interpolate_minima *)
Definition interpolate_minima (L : SplineLib) (xs ys : list R) (order : nat) : res (option (list R)) :=
  if (length xs <? 2)%nat then Ok None
  else
    let order := if (length xs <? order + 1)%nat then (length xs - 1)%nat else order in
    if negb (increasing xs) then Err ValueError
    else if (order =? 4)%nat then Ok (Some (sp_min L xs ys)) else Ok (Some []).

(** scans.py:170-207 crossings without uncertainties *)
Definition crossings (L : SplineLib) (s : Scan1D) (level : R) (order : nat) (log_scale : bool) : res (option (list R)) :=
  let! p := scan_points s 0 in interpolate_crossings L (fst p) (snd p) level order log_scale.
(** len(None) raises TypeError *)
Definition not_none {A} (o : option A) : res A := match o with Some a => Ok a | None => Err TypeError end.
(** scans.py:170-207 crossings with uncertainties: (nominal, up, down) by position in the lists *)
Definition crossings_err (L : SplineLib) (s : Scan1D) (level : R) (order : nat) (log_scale : bool) : res (list (R * R * R)) :=
  (* points() evaluates the three values point by point *)
  let! _ := mapM (fun hp => let! _ := dgetE (s1_poi s) (fst hp) in let! _ := scan_value (s1_scan s) (snd hp) 0 in
                            let! _ := scan_value (s1_scan s) (snd hp) 1 in scan_value (s1_scan s) (snd hp) (-1)) (ra_points (sc_raster (s1_scan s))) in
  let! pn := scan_points s 0 in let! pu := scan_points s 1 in let! pd := scan_points s (-1) in
  let! cn := interpolate_crossings L (fst pn) (snd pn) level order log_scale in
  let! cu := interpolate_crossings L (fst pn) (snd pu) level order log_scale in
  let! cd := interpolate_crossings L (fst pn) (snd pd) level order log_scale in
  let! cu := not_none cu in let! cn := not_none cn in
  if negb (length cu =? length cn)%nat then Err ValueError else
  let! cd := not_none cd in
  if negb (length cd =? length cn)%nat then Err ValueError else
  Ok (combine (combine cn cu) cd).

(** np.argmin: position of the first smallest element *)
Fixpoint argmin_from (l : list R) (i best : nat) (m : R) : nat :=
  match l with
  | [] => best
  | x :: l' => if Rltb x m then argmin_from l' (S i) i x else argmin_from l' (S i) best m
  end.
Definition argmin (l : list R) : res nat := match l with [] => Err ValueError | x :: l' => Ok (argmin_from l' 1 0 x) end.

(** scans.py:209-220 minima; the fallback of line 220 takes the *value* at the smallest *hypothesis* *)
Definition minima (L : SplineLib) (s : Scan1D) (order : nat) : res (list R) :=
  let! p := scan_points s 0 in
  let! ys := mapM as_num (snd p) in
  let! o := interpolate_minima L (fst p) ys order in
  let! l := not_none o in
  match l with
  | _ :: _ => Ok l
  | [] => let! i := argmin (fst p) in
          match nth_error ys i with Some y => Ok [y] | None => Err IndexError end
  end.

(** scans.py:377-435 UpperLimitScan.  Line 408 sets the confidence level to 0.95 whatever the argument is. *)
Record ULScan := mkUL { ul_scan : Scan1D; ul_cl : R }.
Definition ul_new (r : Raster) (key : string) (poi_name : option string) (cl : R) : res ULScan :=
  let! s := scan1d_new r key poi_name in Ok (mkUL s (95 / 100)).
(** scans.py:411-435 limit: None stands for the triple (None, None, None) *)
Definition ul_limit (L : SplineLib) (u : ULScan) (order : nat) (log_scale : bool) : res (option R) :=
  let! o := crossings L (ul_scan u) (1 - ul_cl u) order log_scale in
  let! l := not_none o in
  Ok (match l with [] => None | x :: _ => Some x end).
Definition ul_limit_err (L : SplineLib) (u : ULScan) (order : nat) (log_scale : bool) : res (option (R * R * R)) :=
  let! l := crossings_err L (ul_scan u) (1 - ul_cl u) order log_scale in
  Ok (match l with [] => None | x :: _ => Some x end).

(** scipy.stats.chi2 (sf and isf for a number of degrees of freedom) and norm.sf *)
Record StatLib := mkStat { chi2_sf : R -> nat -> R; chi2_isf : R -> nat -> R; norm_sf : R -> R }.

(** scans.py:479-528 PLRScan1D *)
Record PLRScan1D := mkPS { ps_scan : Scan1D; ps_level : R }.
Definition ps_new (T : StatLib) (r : Raster) (key : string) (poi_name : option string) (cl nsigmas : option R) : res PLRScan1D :=
  let! s := scan1d_new r key poi_name in
  match cl, nsigmas with
  | None, None => Err ValueError
  | Some c, _ => Ok (mkPS s (chi2_isf T (1 - c) 1))
  | None, Some n => Ok (mkPS s (n * n))
  end.
Definition ps_cl (T : StatLib) (p : PLRScan1D) : R := 1 - chi2_sf T (ps_level p) 1.

(** scans.py:547-570, from the crossings and the minimum: central value, positive error, negative error *)
Definition interval_of (cr : list R) (minimum : R) : R * option R * option R :=
  let lo0 := nth_error cr 0 in
  let hi0 := nth_error cr 1 in
  let '(lo, hi) := match hi0, lo0 with
                   | None, Some x => if Rltb minimum x then (None, Some x) else (lo0, hi0)
                   | _, _ => (lo0, hi0)
                   end in
  (minimum, option_map (fun x => x - minimum) hi, option_map (fun x => minimum - x) lo).

(** scans.py:531-570 interval; minima() is called with order+1 and never gives an empty list; line 559 compares the minima with
    the spline of [order] through the points *)
Definition ps_interval (L : SplineLib) (p : PLRScan1D) (order : nat) (log_scale : bool) : res (R * option R * option R) :=
  let! o := crossings L (ps_scan p) (ps_level p) order log_scale in
  let! cr := not_none o in
  let! ms := minima L (ps_scan p) (order + 1) in
  let! m := match ms with
            | [m] => Ok m
            | _ =>
              let! pts := scan_points (ps_scan p) 0 in
              let! ys := mapM as_num (snd pts) in
              if negb (increasing (fst pts)) then Err ValueError else
              py_min (sp_curve L order (fst pts) ys) ms
            end in
  Ok (interval_of cr m).

(** scans.py:615-667 PLRScan2D: construction and level *)
Record PLRScan2D := mkPS2 { p2_scan : Scan; p2_poi1 : string; p2_poi2 : string; p2_level : R }.
Definition p2_new (T : StatLib) (r : Raster) (key : string) (poi1 poi2 : option string) (cl nsigmas : option R) : res PLRScan2D :=
  let! s := scan_new r key in
  let! a := find_poi s poi1 0 in
  let! b := find_poi s poi2 1 in
  match cl, nsigmas with
  | None, None => Err ValueError
  | Some c, _ => Ok (mkPS2 s a b (chi2_isf T (1 - c) 2))
  | None, Some n => Ok (mkPS2 s a b (chi2_isf T (1 - (1 - 2 * norm_sf T n)) 2))
  end.
Definition p2_cl (T : StatLib) (p : PLRScan2D) : R := 1 - chi2_sf T (p2_level p) 2.

(** scans.py:703-723 best_fit: [optimize] stands for scipy.optimize.minimize on the smoothing spline from a starting point; it
    returns the position found, or None when it fails *)
Definition p2_best_fit (optimize : R -> R -> option (R * R)) (p : PLRScan2D) : res (R * R) :=
  let! best := scan_minimum (p2_scan p) in
  let! a := dgetE (p2_poi1 p) (fst best) in
  let! b := dgetE (p2_poi2 p) (fst best) in
  Ok (match optimize a b with Some x => x | None => (a, b) end).
