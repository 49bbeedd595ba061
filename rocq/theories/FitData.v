(** Model of src/fastprof/fit_data.py: hypotheses, fit results, profile-likelihood-ratio data, rasters. *)
From Verif Require Import Py Base Params.
Local Open Scope string_scope.
Local Open Scope list_scope.

(** fit_data.py:26-99 POIHypo: a dictionary { name : value } in insertion order *)
Definition Hypo := dict R.

(** fit_data.py:64-65 __eq__: equality of Python dictionaries (same number of entries, same value for every key,
    whatever the order) *)
Definition hypo_eqb (a b : Hypo) : bool :=
  (length a =? length b)%nat && forallb (fun kv => match dget (fst kv) b with Some v => Reqb (snd kv) v | None => false end) a.

(** fit_data.py:67-68 __hash__: hash(tuple(self.pars)), that is the hash of the tuple of parameter names in insertion
    order.  [hash] stands for Python's hash of a tuple of strings. *)
Definition hypo_hash (hash : list string -> Z) (h : Hypo) : Z := hash (keys h).

(** Python dictionary with hypotheses as keys: a key is found when the hashes are equal and the keys compare equal *)
Definition same_key (hash : list string -> Z) (a b : Hypo) : bool :=
  Z.eqb (hypo_hash hash a) (hypo_hash hash b) && hypo_eqb a b.
Definition hdict (V : Type) := list (Hypo * V).
Fixpoint hget {V} (hash : list string -> Z) (h : Hypo) (d : hdict V) : option V :=
  match d with
  | [] => None
  | (h', v) :: d' => if same_key hash h' h then Some v else hget hash h d'
  end.
Fixpoint hset {V} (hash : list string -> Z) (h : Hypo) (v : V) (d : hdict V) : hdict V :=
  match d with
  | [] => [(h, v)]
  | (h', v') :: d' => if same_key hash h' h then (h', v) :: d' else (h', v') :: hset hash h v d'
  end.

(** fit_data.py:74-83 POIHypo.load_dict: float(value) of every entry.  float() also accepts strings; they are
    reported as TypeError here. *)
Definition hypo_load (sdict : dict jv) : res Hypo :=
  foldM (fun h kv => match jnum (snd kv) with Some x => Ok (dset (fst kv) x h) | None => Err TypeError end) sdict [].
(** fit_data.py:85-91 POIHypo.fill_dict *)
Definition hypo_fill (h : Hypo) : dict jv := fold_left (fun d kv => dset (fst kv) (JFlt (snd kv)) d) h [].

(** fit_data.py:103-172 FitParameter: a ModelPOI with a value and an uncertainty *)
Record FitPar := mkFP { fp_poi : POI; fp_value : option R; fp_error : option R }.
(** fit_data.py:116-134 __init__ with a name and a value; the unit argument is not forwarded (line 132) *)
Definition fitpar_new (name : string) (value : option R) : FitPar :=
  mkFP (mkPOI (Some name) None None None None None) value None.
(** par.name used as a dictionary key (a null name, which markup allows, is shown as the empty string) *)
Definition fp_name (p : FitPar) : string := match poi_name (fp_poi p) with Some n => n | None => "" end.
(** fit_data.py:150-162 load_dict *)
Definition fitpar_load (name0 : option string) (sdict : dict jv) : res FitPar :=
  let! p := poi_load name0 sdict in
  let! v := bind (load_field "value" sdict JNull [TInt; TFloat]) as_onum in
  let! e := bind (load_field "error" sdict JNull [TInt; TFloat]) as_onum in
  Ok (mkFP p v e).
(** fit_data.py:164-172 fill_dict, on an empty dictionary (dump_dict) *)
Definition fitpar_dump (p : FitPar) : dict jv :=
  dset_some "error" (jnum_of (fp_error p)) (dset_some "value" (jnum_of (fp_value p)) (poi_fill (fp_poi p) [])).

(** fit_data.py:175-262 FitResult.  The name is not used. *)
Record FitResult := mkFR { fr_pars : dict FitPar; fr_nll : option R; fr_model : option PModel }.

(** fit_data.py:185-206 __init__; line 202 stores NPs in unscaled form, lines 203-204 override with the hypothesis *)
Definition fit_new (fitpars : option Params) (nll : option R) (model : option PModel) (hypo : option Hypo) : res FitResult :=
  let! d := match fitpars, model with
            | Some p, Some m =>
              let! d := foldM (fun d n => let! x := pars_get p n in Ok (dset n (fitpar_new n (Some x)) d)) (pm_pois m) [] in
              foldM (fun d np => let '(n, nom, var) := np in
                       let! x := pars_get p n in Ok (dset n (fitpar_new n (Some (unscaled_value nom var x))) d)) (pm_nps m) d
            | _, _ => Ok []
            end in
  let d := match hypo with
           | Some h => fold_left (fun d kv => dset (fst kv) (fitpar_new (fst kv) (Some (snd kv))) d) h d
           | None => d
           end in
  Ok (mkFR d nll model).

(** fit_data.py:214 { par.name : par.value } *)
Definition fit_par_dict (f : FitResult) : dict (option R) :=
  fold_left (fun d p => dset (fp_name p) (fp_value p) d) (values (fr_pars f)) [].
(** fit_data.py:208-215 pars().  An NP without a value fails in scaled_value (None - nominal); a POI without a value
    is refused by the constructor of Parameters. *)
Definition fit_pars (f : FitResult) : res Params :=
  let d := fit_par_dict f in
  let! p := pars_init (PIDict d) NINone (fr_model f) in
  match fr_model f with
  | None => Err ValueError
  | Some m =>
    foldM (fun q par => match dget par d with
                        | None => Err KeyError
                        | Some None => Err TypeError
                        | Some (Some v) => pars_set q par v true
                        end) (pm_pois m ++ np_names m) p
  end.

(** fit_data.py:247-254 fill_dict; the NLL is written as is *)
Definition fit_dump (f : FitResult) : dict jv :=
  [ ("fit_pars", JObj (fold_left (fun d p => dset (fp_name p) (JObj (fitpar_dump p)) d) (values (fr_pars f)) []))
  ; ("nll", jnum_of (fr_nll f)) ].
Definition as_obj (v : jv) : res (dict jv) := match v with JObj d => Ok d | _ => Err AttributeError end.
(** fit_data.py:233-245 load_dict on an existing object; line 244 stores the NLL without a check (a value that is
    neither a number nor null fails when it is used: reported here) *)
Definition fit_load (f0 : FitResult) (sdict : dict jv) : res FitResult :=
  let! jp := dgetE "fit_pars" sdict in
  let! items := as_obj jp in
  let! d := foldM (fun d kv => let! pd := as_obj (snd kv) in
                               let! p := fitpar_load (Some (fst kv)) pd in
                               Ok (dset (fp_name p) p d)) items (fr_pars f0) in
  let! jn := dgetE "nll" sdict in
  let! nll := as_onum (FVal jn) in
  Ok (mkFR d nll (fr_model f0)).

(** Values found in the p-value and test statistic collections: a number, None, a Python tuple (value, error), or
    the list that a tuple becomes in markup. *)
Inductive pyval := VNum (x : R) | VNone | VPair (v e : R) | VList (l : list R).
(** json/yaml dump of a value: a tuple is written as a list *)
Definition jv_of (v : pyval) : jv :=
  match v with
  | VNum x => JFlt x
  | VNone => JNull
  | VPair v e => JList [JFlt v; JFlt e]
  | VList l => JList (map JFlt l)
  end.
(** reading back: lists stay lists.  Other kinds of markup are reported as TypeError. *)
Definition val_of (j : jv) : res pyval :=
  match j with
  | JNull => Ok VNone
  | JList l => let! r := np_array l in Ok (VList r)
  | _ => match jnum j with Some x => Ok (VNum x) | None => Err TypeError end
  end.

(** fit_data.py:265-390 PLRData with both fits present.  [plr_asimov] is the pointer set by set_asimov. *)
Inductive PLR := mkPLR {
  plr_hypo : Hypo; plr_free : FitResult; plr_fixed : FitResult;
  plr_ts : dict pyval; plr_pvs : dict pyval;
  plr_full : option Params; plr_model : option PModel; plr_asimov : option PLR }.

Definition with_ts (p : PLR) (ts : dict pyval) : PLR :=
  mkPLR (plr_hypo p) (plr_free p) (plr_fixed p) ts (plr_pvs p) (plr_full p) (plr_model p) (plr_asimov p).

(** fit_data.py:323-330 compute_tmu *)
Definition compute_tmu (p : PLR) : res PLR :=
  match fr_nll (plr_fixed p), fr_nll (plr_free p) with
  | Some h, Some f => Ok (with_ts p (dset "tmu" (VNum (2 * (h - f))) (plr_ts p)))
  | _, _ => Err TypeError
  end.

(** fit_data.py:312-321 update: every hypothesis parameter must be a POI of the model; tmu is computed if missing *)
Definition plr_update (p : PLR) : res PLR :=
  let! _ := match plr_model p with
            | Some m => mapM (fun n => match index n (pm_pois m) with Some _ => Ok tt | None => Err KeyError end) (keys (plr_hypo p))
            | None => Ok []
            end in
  if dmem "tmu" (plr_ts p) then Ok p else compute_tmu p.

(** fit_data.py:285-310 __init__ with both fits *)
Definition plr_new (hypo : Hypo) (free fixed : FitResult) (ts pvs : dict pyval) (full : option Params) (m : option PModel) : res PLR :=
  plr_update (mkPLR hypo free fixed ts pvs full m None).

(** fit_data.py:332-345 set_asimov *)
Definition plr_set_asimov (p asimov : PLR) (local_key : string) : res PLR :=
  let! t := dgetE "tmu" (plr_ts asimov) in
  Ok (mkPLR (plr_hypo p) (plr_free p) (plr_fixed p) (dset local_key t (plr_ts p)) (plr_pvs p) (plr_full p) (plr_model p) (Some asimov)).

Definition vals_dump (d : dict pyval) : dict jv := map (fun kv => (fst kv, jv_of (snd kv))) d.
Definition vals_load (d : dict jv) : res (dict pyval) := mapM (fun kv => let! v := val_of (snd kv) in Ok (fst kv, v)) d.

(** fit_data.py:364-377 fill_dict; full_hypo.dict() (line 373) is the dictionary of POIs and scaled NPs *)
Definition plr_dump (p : PLR) : res (dict jv) :=
  let! full := match plr_full p with
               | None => Ok []
               | Some q => let! d := pars_dict q false false false in
                           Ok [("full_hypo", JObj (map (fun kv => (fst kv, JFlt (snd kv))) d))]
               end in
  Ok ([("hypo", JObj (hypo_fill (plr_hypo p)))] ++ full ++
      [("free_fit", JObj (fit_dump (plr_free p))); ("hypo_fit", JObj (fit_dump (plr_fixed p)));
       ("test_statistics", JObj (vals_dump (plr_ts p))); ("pvs", JObj (vals_dump (plr_pvs p)))]).

(** the markup dictionary given to Parameters(...) at line 356: null is None *)
Definition opt_nums (d : dict jv) : res (dict (option R)) :=
  mapM (fun kv => let! x := as_onum (FVal (snd kv)) in Ok (fst kv, x)) d.

(** fit_data.py:347-362 load_dict, on a new object for the model *)
Definition plr_load (m : option PModel) (sdict : dict jv) : res PLR :=
  let! jh := bind (dgetE "hypo" sdict) as_obj in
  let! hypo := hypo_load jh in
  let! full := match dget "full_hypo" sdict with
               | None => Ok None
               | Some j => let! d := as_obj j in let! d := opt_nums d in
                           let! q := pars_init (PIDict d) NINone m in Ok (Some q)
               end in
  let! jf := bind (dgetE "free_fit" sdict) as_obj in
  let! free := fit_load (mkFR [] None m) jf in
  let! jx := bind (dgetE "hypo_fit" sdict) as_obj in
  let! f0 := fit_new None None m (Some hypo) in
  let! fixed := fit_load f0 jx in
  let! ts := match dget "test_statistics" sdict with Some j => bind (as_obj j) vals_load | None => Ok [] end in
  let! pvs := match dget "pvs" sdict with Some j => bind (as_obj j) vals_load | None => Ok [] end in
  plr_update (mkPLR hypo free fixed ts pvs full m None).

(** fit_data.py:393-610 Raster *)
Record Raster := mkRaster { ra_points : hdict PLR; ra_pois : list string; ra_model : option PModel }.

(** fit_data.py:442-460 have_compatible_pois *)
Definition have_compatible_pois (hypos : list Hypo) : list string :=
  match hypos with
  | h0 :: ((_ :: _) as rest) =>
    if existsb (fun h => negb (if list_eq_dec string_dec (keys h) (keys h0) then true else false)) rest then [] else keys h0
  | _ => []
  end.

(** fit_data.py:503-513 set_pois: the names of the dictionary; None.pois raises AttributeError, an unknown name
    KeyError *)
Definition raster_set_pois (points : hdict PLR) (m : option PModel) : res (list string) :=
  mapM (fun n => match m with
                 | None => Err AttributeError
                 | Some m => match index n (pm_pois m) with Some _ => Ok n | None => Err KeyError end
                 end) (have_compatible_pois (map fst points)).

(** fit_data.py:515-530 set_global_best_fit.  The loop of line 530 goes over the *keys* of the dictionary, and sets the
    attribute free_fit of the hypotheses: the stored PLR data is not changed.  Comparing None with a number raises. *)
Definition set_global_best_fit (points : hdict PLR) : res (hdict PLR) :=
  match points with
  | _ :: _ :: _ =>
    if forallb (fun hp => match fr_nll (plr_free (snd hp)) with Some _ => true | None => false end) points
    then Ok points else Err TypeError
  | _ => Ok points
  end.

(** fit_data.py:550-558 compute_tmu *)
Definition raster_compute_tmu (points : hdict PLR) : res (hdict PLR) :=
  mapM (fun hp => let! p := compute_tmu (snd hp) in Ok (fst hp, p)) points.

(** fit_data.py:409-439 __init__ without a file *)
Definition raster_new (points : hdict PLR) (use_global_best_fit fill_missing : bool) (m : option PModel) : res Raster :=
  let! pts := if use_global_best_fit then set_global_best_fit points else Ok points in
  let! pts := if fill_missing then raster_compute_tmu pts else Ok pts in
  let! pois := raster_set_pois pts m in
  Ok (mkRaster pts pois m).

(** fit_data.py:532-548 set_asimov: points are paired by position *)
Fixpoint zipM {A B C} (f : A -> B -> res C) (l : list A) (k : list B) : res (list C) :=
  match l, k with
  | a :: l', b :: k' => let! c := f a b in let! cs := zipM f l' k' in Ok (c :: cs)
  | _, _ => Ok []
  end.
Definition raster_set_asimov (r asimov : Raster) (local_key : string) : res Raster :=
  if (length (ra_points r) =? length (ra_points asimov))%nat then
    let! pts := zipM (fun hp ap => let! p := plr_set_asimov (snd hp) (snd ap) local_key in Ok (fst hp, p))
                     (ra_points r) (ra_points asimov) in
    Ok (mkRaster pts (ra_pois r) (ra_model r))
  else Err KeyError.

(** fit_data.py:487-501 is_filled *)
Definition is_filled (r : Raster) (key : string) (only_pv only_ts : bool) : bool :=
  negb (existsb (fun hp => (negb (dmem key (plr_pvs (snd hp))) && negb only_ts)
                        && (negb (dmem key (plr_ts (snd hp))) && negb only_pv)) (ra_points r)).

(** fit_data.py:462-485 key_value.  The best-fit entry of line 480 may be None. *)
Fixpoint key_value_pois (key : string) (hypo : Hypo) (p : PLR) (pois : list string) : res (option pyval) :=
  match pois with
  | [] => Ok None
  | poi :: pois' =>
    if String.eqb key poi && dmem poi hypo then let! x := dgetE poi hypo in Ok (Some (VNum x))
    else if String.eqb key ("best_" ++ poi)%string then
      let! fp := dgetE poi (fr_pars (plr_free p)) in
      Ok (Some (match fp_value fp with Some x => VNum x | None => VNone end))
    else key_value_pois key hypo p pois'
  end.
Definition key_value (hash : list string -> Z) (r : Raster) (key : string) (hypo : Hypo) : res pyval :=
  match hget hash hypo (ra_points r) with
  | None => Err KeyError
  | Some p =>
    let! o := key_value_pois key hypo p (ra_pois r) in
    match o with
    | Some v => Ok v
    | None =>
      match dget key (plr_pvs p) with
      | Some (VPair v _) => Ok (VNum v)
      | Some v => Ok v
      | None => dgetE key (plr_ts p)
      end
    end
  end.

(** fit_data.py:576-584 fill_dict: the list of points *)
Definition raster_dump (r : Raster) : res (list jv) :=
  mapM (fun hp => let! d := plr_dump (snd hp) in Ok (JObj d)) (ra_points r).

(** fit_data.py:560-574 load_dict on a raster with the given points (normally none) *)
Definition raster_load (hash : list string -> Z) (pts0 : hdict PLR) (use_global_best_fit fill_missing : bool)
    (m : option PModel) (l : list jv) : res Raster :=
  let! pts := foldM (fun d j => let! o := as_obj j in let! p := plr_load m o in Ok (hset hash (plr_hypo p) p d)) l pts0 in
  let! pois := raster_set_pois pts m in
  let! pts := if use_global_best_fit then set_global_best_fit pts else Ok pts in
  let! pts := if fill_missing then raster_compute_tmu pts else Ok pts in
  Ok (mkRaster pts pois m).
