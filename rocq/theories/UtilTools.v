(** Model of src/fastprof_utils/tools.py: the command-line specifications of parameter values, grids and ranges.

    Parameters: [pf] is Python's float() and [pi] int() on strings (None: ValueError; 'nan' and 'inf', which float() accepts, are outside
    the real-number model), [rmatch spec name] is re.match(spec, name).  A pattern that is not a regular expression is outside. *)
From Verif Require Import Py Base Expressions Norms Sample Channels Params Core.
Local Open Scope string_scope.
Local Open Scope list_scope.

(** str.split(c) for a one-character separator *)
Fixpoint split (c : ascii) (s : string) : list string :=
  match s with
  | EmptyString => [EmptyString]
  | String a r => if Ascii.eqb a c then EmptyString :: split c r
                  else match split c r with
                       | [] => [String a EmptyString]
                       | h :: t => String a h :: t
                       end
  end.
(** str.replace(' ', '') *)
Fixpoint no_space (s : string) : string :=
  match s with
  | EmptyString => EmptyString
  | String a r => if Ascii.eqb a " " then no_space r else String a (no_space r)
  end.
(** tools.py 41, 184, 230: the comma-separated assignments *)
Definition assignments (spec : string) : list (list string) := map (fun a => split "=" (no_space a)) (split "," spec).

(** a value: a number, or a string that is still to be interpreted *)
Inductive sval := SNum (x : R) | SStr (s : string).

(** tools.py 63-66: assignment of one value to the matching parameters.  The variable float_val is rescaled in place, for one NP
    after the other. *)
Fixpoint assign_all (m : Model) (scale : bool) (nps : list string) (fv : option R) (val : string) (l : list string) (d : dict sval) : res (dict sval) :=
  match l with
  | [] => Ok d
  | v :: l' =>
    let! fv' := match fv with
                | Some x => if (scale && existsb (String.eqb v) nps)%bool then
                              match dget v (m_nps m) with
                              | None => Err KeyError
                              | Some p => match np_nominal p with
                                          | None => Err TypeError
                                          | Some nom => let! y := scaled_value nom (np_variation p) x in Ok (Some y)
                                          end
                              end
                            else Ok fv
                | None => Ok None
                end in
    assign_all m scale nps fv' val l' (dset v (match fv' with Some x => SNum x | None => SStr val end) d)
  end.
(** tools.py 46-66: one assignment *)
Definition setval (pf : string -> option R) (rmatch : string -> string -> bool) (m : Model) (match_pois match_nps check_val scale : bool)
    (d : dict sval) (a : list string) : res (dict sval) :=
  match a with
  | [var; val] =>
    let mp := if match_pois then filter (rmatch (var ++ "$")%string) (keys (m_pois m)) else [] in
    let mn := if match_nps then filter (rmatch (var ++ "$")%string) (keys (m_nps m)) else [] in
    if (length (mp ++ mn) =? 0)%nat then Err ValueError else
    let! fv := match pf val with
               | Some x => Ok (Some x)
               | None => if check_val then Err ValueError else Ok None
               end in
    assign_all m scale mn fv val (mp ++ mn) d
  | _ => Err ValueError
  end.
(** tools.py 12-67 process_setvals.  The ValueErrors of 49 and 53 are the one of 56 with another message. *)
Definition process_setvals (pf : string -> option R) (rmatch : string -> string -> bool) (m : Model) (match_pois match_nps check_val scale : bool)
    (spec : string) : res (dict sval) :=
  foldM (setval pf rmatch m match_pois match_nps check_val scale) (assignments spec) [].

(** np.linspace(a, b, n, endpoint) *)
Definition linspace (a b : R) (n : nat) (endpoint : bool) : list R :=
  map (fun i => a + INR i * ((b - a) / INR (if endpoint then n - 1 else n))) (seq 0 n).
(** tools.py 102-104: the string without its final '+', if it has one *)
Fixpoint strip_plus (s : string) : option string :=
  match s with
  | EmptyString => None
  | String a EmptyString => if Ascii.eqb a "+" then Some EmptyString else None
  | String a r => option_map (String a) (strip_plus r)
  end.
(** tools.py 96-110: one range.  The module math is not imported: a log range raises NameError, which 111 turns into ValueError, as it
    does for every error. *)
Definition range_values (pf : string -> option R) (pi : string -> option Z) (fields : list string) : res (list R) :=
  match fields with
  | [x] => match pf x with Some v => Ok [v] | None => Err ValueError end
  | a :: b :: c :: rest =>
    if String.eqb c "" then Err ValueError else
    let '(c', last) := match strip_plus c with Some c' => (c', true) | None => (c, false) end in
    match pi c' with
    | None => Err ValueError
    | Some n =>
      match rest with
      | [l] => if String.eqb l "log" then Err ValueError
               else match pf a, pf b with
                    | Some x, Some y => if (n <? 0)%Z then Err ValueError else Ok (linspace x y (Z.to_nat n) last)
                    | _, _ => Err ValueError
                    end
      | _ => match pf a, pf b with
             | Some x, Some y => if (n <? 0)%Z then Err ValueError else Ok (linspace x y (Z.to_nat n) last)
             | _, _ => Err ValueError
             end
      end
    end
  | _ => Err ValueError
  end.
(** tools.py 69-114 process_values_spec *)
Definition values_spec (pf : string -> option R) (pi : string -> option Z) (spec : string) : res (list R) :=
  let! l := mapM (fun r => range_values pf pi (split ":" r)) (split "~" spec) in Ok (concat l).

(** tools.py 155-176 process_setval_dicts: one pass over one dictionary.  The values before the first string are copied, the string is
    expanded, what follows is copied to all.  The boolean tells whether there was a string. *)
Fixpoint expand_dict (vs : string -> res (list R)) (acc : dict sval) (svd : dict sval) : res (list (dict sval) * bool) :=
  match svd with
  | [] => Ok ([acc], false)
  | (k, SNum x) :: r => expand_dict vs (dset k (SNum x) acc) r
  | (k, SStr s) :: r =>
    let! l := vs s in
    Ok (map (fun v => fold_left (fun d kv => dset (fst kv) (snd kv) d) r (dset k (SNum v) acc)) l, true)
  end.
(** the recursion; fuel is the recursion depth (RecursionError beyond) *)
Fixpoint setval_dicts (fuel : nat) (vs : string -> res (list R)) (l : list (dict sval)) : res (list (dict sval)) :=
  match fuel with
  | 0%nat => Err RecursionError
  | S f =>
    let! r := mapM (expand_dict vs []) l in
    let new := concat (map fst r) in
    if existsb snd r then setval_dicts f vs new else Ok new
  end.
(** tools.py 117-152 process_setval_list *)
Definition setval_list (fuel : nat) (pf : string -> option R) (pi : string -> option Z) (rmatch : string -> string -> bool) (m : Model)
    (match_pois match_nps : bool) (spec : string) : res (list (dict sval)) :=
  let! l := mapM (process_setvals pf rmatch m match_pois match_nps false false) (split "|" spec) in
  setval_dicts fuel (values_spec pf pi) l.

(** tools.py 178-220 process_setranges: the POIs of the model are changed in place, also when an error occurs later *)
Definition with_min (x : R) (p : POI) : POI := mkPOI (poi_name p) (Some x) (poi_max p) (poi_initial p) (poi_unit p) (poi_descr p).
Definition with_max (x : R) (p : POI) : POI := mkPOI (poi_name p) (poi_min p) (Some x) (poi_initial p) (poi_unit p) (poi_descr p).
Definition on_pois (f : POI -> POI) (names : list string) (ps : dict POI) : dict POI :=
  map (fun kp => (fst kp, if existsb (String.eqb (fst kp)) names then f (snd kp) else snd kp)) ps.
(** an omitted side is the empty string *)
Definition set_side (pf : string -> option R) (f : R -> POI -> POI) (a : string) (names : list string) (ps : dict POI) : option (dict POI) :=
  if String.eqb a "" then Some ps else match pf a with None => None | Some x => Some (on_pois (f x) names ps) end.
Fixpoint ranges_loop (pf : string -> option R) (rmatch : string -> string -> bool) (l : list (list string)) (ps : dict POI) : dict POI * res unit :=
  match l with
  | [] => (ps, Ok tt)
  | a :: l' =>
    match a with
    | [var; rng] =>
      let names := filter (rmatch (var ++ "$")%string) (keys ps) in
      if (length names =? 0)%nat then (ps, Err ValueError) else
      match (match split ":" rng with [x] => Some (x, x) | [x; y] => Some (x, y) | _ => None end) with
      | None => (ps, Err ValueError)
      | Some (lo, hi) =>
        match set_side pf with_min lo names ps with
        | None => (ps, Err ValueError)
        | Some ps1 => match set_side pf with_max hi names ps1 with
                      | None => (ps1, Err ValueError)
                      | Some ps2 => ranges_loop pf rmatch l' ps2
                      end
        end
      end
    | _ => (ps, Err ValueError)
    end
  end.
Definition process_setranges (pf : string -> option R) (rmatch : string -> string -> bool) (spec : string) (ps : dict POI) : dict POI * res unit :=
  ranges_loop pf rmatch (assignments spec) ps.

(** tools.py 222-274 process_pois *)
Definition opt_float (pf : string -> option R) (s : string) : res (option R) :=
  if String.eqb s "" then Ok None else match pf s with Some x => Ok (Some x) | None => Err ValueError end.
Definition poi_spec (pf : string -> option R) (known : string -> bool) (a : list string) : res POI :=
  match a with
  | [var; rng] =>
    if negb (known var) then Err ValueError else
    let! f := match split ":" rng with [x; y] => Ok ("", x, y) | [x; y; z] => Ok (x, y, z) | _ => Err ValueError end in
    let '(value, lo, hi) := f in
    let! v := opt_float pf value in let! a := opt_float pf lo in let! b := opt_float pf hi in
    Ok (mkPOI (Some var) a b v None None)
  | _ => Err ValueError
  end.
Definition process_pois (pf : string -> option R) (ps : dict POI) (check_pars : bool) (spec : string) : res (list POI) :=
  mapM (poi_spec pf (fun n => negb check_pars || dmem n ps)) (assignments spec).
