(** Model of the class Parameters, src/fastprof/core.py:30-302. *)
From Verif Require Import Py Base.
Local Open Scope string_scope.
Local Open Scope list_scope.

(** What Parameters uses of its model: the POI names in order, and for each NP its name, nominal value and variation
    (core.py:460-466: npois, nnps, np_nominal_values, np_variations). *)
Record PModel := mkPM { pm_pois : list string; pm_nps : list (string * R * R) }.
Definition np_names (m : PModel) : list string := map (fun p => fst (fst p)) (pm_nps m).

(** the attributes pois, nps, model *)
Record Params := mkPars { pois : list R; nps : list R; pmod : option PModel }.

(** Constructor argument for the POIs.  Dictionary values that are None or NaN are None. [PIBad] is anything that is
    not a 1-D array, a list, a number or a dictionary. *)
Inductive pois_in := PIDict (d : dict (option R)) | PINum (x : R) | PIList (l : list R) | PIBad.
(** Constructor argument for the NPs: None, a 1-D array, a number, or something else without a size attribute *)
Inductive nps_in := NINone | NIArr (l : list R) | NINum (x : R) | NIBad.

(** list(names).index(x) *)
Fixpoint index (x : string) (l : list string) : option nat :=
  match l with
  | [] => None
  | y :: l' => if String.eqb x y then Some 0%nat else option_map S (index x l')
  end.

(** all entries present *)
Fixpoint all_some {A} (l : list (option A)) : option (list A) :=
  match l with
  | [] => Some []
  | Some x :: l' => option_map (cons x) (all_some l')
  | None :: _ => None
  end.

(** core.py:82-88: start from NaN everywhere, fill in the listed POIs, unknown names are skipped *)
Definition pois_from_dict (names : list string) (d : dict (option R)) : res (list R) :=
  match all_some (fold_left (fun arr kv => match index (fst kv) names with
                                           | Some i => set_nth i (snd kv) arr
                                           | None => arr
                                           end) d (repeat None (length names))) with
  | Some l => Ok l
  | None => Err ValueError
  end.

(** core.py:58-105 __init__.  Line 100 reads nps.size before numbers are converted (line 101): a number or a list
    raises AttributeError when a model is given. *)
Definition pars_init (p : pois_in) (n : nps_in) (model : option PModel) : res Params :=
  let! ps := match p, model with
             | PIDict d, Some m => pois_from_dict (pm_pois m) d
             | PIDict _, None => Err ValueError
             | PINum x, Some m => Ok (repeat x (length (pm_pois m)))
             | PINum x, None => Ok [x]
             | PIList l, _ => Ok l
             | PIBad, _ => Err ValueError
             end in
  let! _ := match model with
            | Some m => if (length ps =? length (pm_pois m))%nat then Ok tt else Err ValueError
            | None => Ok tt
            end in
  let! ns := match n, model with
             | NINone, Some m => Ok (repeat 0 (length (pm_nps m)))
             | NINone, None => Ok []
             | NIArr [], Some m => Ok (repeat 0 (length (pm_nps m)))
             | NIArr l, _ => Ok l
             | NINum _, Some _ => Err AttributeError
             | NINum x, None => Ok [x]
             | NIBad, Some _ => Err AttributeError
             | NIBad, None => Err ValueError
             end in
  let! _ := match model with
            | Some m => if (length ns =? length (pm_nps m))%nat then Ok tt else Err ValueError
            | None => Ok tt
            end in
  Ok (mkPars ps ns model).

(** core.py:107-116 clone *)
Definition pars_clone (p : Params) : res Params := pars_init (PIList (pois p)) (NIArr (nps p)) (pmod p).

(** core.py:133-143 __contains__ *)
Definition pars_contains (p : Params) (par : string) : res bool :=
  match pmod p with
  | None => Err ValueError
  | Some m => Ok (existsb (String.eqb par) (pm_pois m) || existsb (String.eqb par) (np_names m))
  end.

(** array access, IndexError when out of range *)
Definition lget (l : list R) (i : nat) : res R := match nth_error l i with Some x => Ok x | None => Err IndexError end.

(** core.py:145-159 __getitem__ *)
Definition pars_get (p : Params) (par : string) : res R :=
  match pmod p with
  | None => Err ValueError
  | Some m => match index par (pm_pois m) with
              | Some i => lget (pois p) i
              | None => match index par (np_names m) with
                        | Some i => lget (nps p) i
                        | None => Err KeyError
                        end
              end
  end.

(** core.py:162-184 set_pois, set_nps *)
Definition set_pois (p : Params) (l : list R) : res Params :=
  if (length l =? length (pois p))%nat then Ok (mkPars l (nps p) (pmod p)) else Err ValueError.
Definition set_nps (p : Params) (l : list R) : res Params :=
  if (length l =? length (nps p))%nat then Ok (mkPars (pois p) l (pmod p)) else Err ValueError.

(** array assignment *)
Definition lset (l : list R) (i : nat) (x : R) : res (list R) :=
  if (i <? length l)%nat then Ok (set_nth i x l) else Err IndexError.

(** core.py:186-204 set; 206-219 __setitem__ is set with unscaled = false *)
Definition pars_set (p : Params) (par : string) (val : R) (unscaled : bool) : res Params :=
  match pmod p with
  | None => Err ValueError
  | Some m =>
    match index par (pm_pois m) with
    | Some i => let! l := lset (pois p) i val in Ok (mkPars l (nps p) (pmod p))
    | None =>
      match index par (np_names m) with
      | Some i =>
        let '(_, nominal, variation) := nth i (pm_nps m) ("", 0, 0) in
        let! v := if unscaled then scaled_value nominal variation val else Ok val in
        let! l := lset (nps p) i v in Ok (mkPars (pois p) l (pmod p))
      | None => Err KeyError
      end
    end
  end.

(** core.py:221-228 unscaled_nps, on arrays of equal length *)
Definition unscaled_nps (m : PModel) (l : list R) : list R :=
  zipwith (fun p x => unscaled_value (snd (fst p)) (snd p) x) (pm_nps m) l.

(** core.py:230-240 unscaled *)
Definition pars_unscaled (p : Params) (par : string) : res R :=
  match pmod p with
  | None => Err ValueError
  | Some m => match index par (np_names m) with
              | None => Err KeyError
              | Some i => let '(_, nominal, variation) := nth i (pm_nps m) ("", 0, 0) in
                          let! x := pars_get p par in Ok (unscaled_value nominal variation x)
              end
  end.

(** core.py:242-260 dict; the nominal_nps case forwards unscaled_nps but not pois_only *)
Definition dict_of (l : list (string * R)) (d : dict R) : dict R := fold_left (fun d kv => dset (fst kv) (snd kv) d) l d.
Definition pars_dict_plain (m : PModel) (ps ns : list R) (unscaled pois_only : bool) : dict R :=
  let d := dict_of (combine (pm_pois m) ps) [] in
  if pois_only then d
  else dict_of (combine (np_names m) (if unscaled then unscaled_nps m ns else ns)) d.
Definition pars_dict (p : Params) (nominal unscaled pois_only : bool) : res (dict R) :=
  match pmod p with
  | None => Err ValueError
  | Some m =>
    if nominal then
      let! q := pars_init (PIList (pois p)) NINone (Some m) in
      Ok (pars_dict_plain m (pois q) (nps q) unscaled false)
    else Ok (pars_dict_plain m (pois p) (nps p) unscaled pois_only)
  end.

(** core.py:262-272 partial_dict refers to an undefined variable as soon as it is given a name *)
Definition partial_dict (p : Params) (names : list string) : res (dict R) :=
  match pmod p with
  | None => Err ValueError
  | Some _ => match names with [] => Ok [] | _ :: _ => Err NameError end
  end.

(** core.py:274-289 set_from_dict: every parameter of the model must be in the dictionary *)
Definition set_from_dict (p : Params) (d : dict R) (unscaled : bool) : res Params :=
  match pmod p with
  | None => Err ValueError
  | Some m =>
    foldM (fun q par => let! v := dgetE par d in pars_set q par v unscaled) (pm_pois m ++ np_names m) p
  end.

(** core.py:291-302 set_from_aux: Model has no attribute ncons *)
Definition set_from_aux (p : Params) : res Params :=
  match pmod p with None => Err ValueError | Some _ => Err AttributeError end.
