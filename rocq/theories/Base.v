(** Model of src/fastprof/base.py : markup field access, POIs, auxiliary observables, NPs. *)
From Verif Require Import Py.
Local Open Scope string_scope.
Local Open Scope list_scope.

Definition pyty_eqb (a b : pyty) : bool :=
  match a, b with
  | TInt, TInt | TFloat, TFloat | TStr, TStr | TList, TList | TDict, TDict | TNdarray, TNdarray => true
  | _, _ => false
  end.

(** What load_field returns: a markup value, or an array built by np.array(val, dtype=float). *)
Inductive field := FVal (v : jv) | FArr (l : list R).

(** np.array(val, dtype=float) for a list: every element must be a number
    (None becomes nan in numpy; nested lists make 2-d arrays. Both are outside the model and
    reported as TypeError here: arrays are one-dimensional and NaN-free). *)
Fixpoint np_array (l : list jv) : res (list R) :=
  match l with
  | [] => Ok []
  | v :: l' =>
    match jnum v with
    | Some x => let! xs := np_array l' in Ok (x :: xs)
    | None => Err TypeError
    end
  end.

(** base.py:128-152 Serializable.load_field.  [types] is the list after the
    "if not isinstance(types, list)" normalization (line 146). *)
Definition load_field (key : string) (dic : dict jv) (default : jv) (types : list pyty) : res field :=
  match dget key dic with
  | None => Ok (FVal default)                                            (* 143 *)
  | Some val =>
    match val with
    | JNull => Ok (FVal JNull)                                           (* 145 *)
    | _ =>
      let types' := match types with [TNdarray] => [TNdarray; TList] | _ => types end in  (* 147 *)
      if negb (match types' with [] => true | _ => false end)
         && negb (existsb (isinstance val) types')
      then Err TypeError                                                 (* 148-150 *)
      else match types', val with
           | [TNdarray; TList], JList l => let! a := np_array l in Ok (FArr a)   (* 151 *)
           | _, _ => Ok (FVal val)                                       (* 152 *)
           end
    end
  end.

(** base.py:71-83 guess_flavor: decided by the last four characters of the file name. *)
Definition last4 (s : string) : string :=
  let n := String.length s in if Nat.leb n 4 then s else String.substring (n - 4) 4 s.
Definition guess_flavor (filename default : string) : string :=
  if String.eqb (last4 filename) "json" then "json"
  else if String.eqb (last4 filename) "yaml" then "yaml"
  else default.

(** Typed readings of a field, used after load_field with the corresponding type list.
    A null is Python None. *)
Definition as_ostr (f : field) : res (option string) :=
  match f with
  | FVal (JStr s) => Ok (Some s)
  | FVal JNull => Ok None
  | _ => Err TypeError
  end.
Definition as_onum (f : field) : res (option R) :=
  match f with
  | FVal JNull => Ok None
  | FVal v => match jnum v with Some x => Ok (Some x) | None => Err TypeError end
  | FArr _ => Err TypeError
  end.

(** optional values written as markup: None is written as null; floats as floats (unnumpy, 155-175,
    maps numpy scalars to the Python number of the same value: identity here). *)
Definition jnum_of (o : option R) : jv := match o with Some x => JFlt x | None => JNull end.
Definition jstr_of (o : option string) : jv := match o with Some x => JStr x | None => JNull end.

(** base.py:212-312 ModelPOI.  The name is optional because a null name is accepted by load_field. *)
Record POI := mkPOI {
  poi_name : option string;
  poi_min : option R;
  poi_max : option R;
  poi_initial : option R;
  poi_unit : option string;
  poi_descr : option string }.

(** base.py:284-299 ModelPOI.load_dict, on an object whose current name is [name0] *)
Definition poi_load (name0 : option string) (sdict : dict jv) : res POI :=
  let! name := bind (load_field "name" sdict (jstr_of name0) [TStr]) as_ostr in
  let! descr := bind (load_field "description" sdict JNull [TStr]) as_ostr in
  let! mn := bind (load_field "min_value" sdict (JInt 0) [TInt; TFloat]) as_onum in
  let! mx := bind (load_field "max_value" sdict (JInt 0) [TInt; TFloat]) as_onum in
  let! ini := bind (load_field "initial_value" sdict (JInt 0) [TInt; TFloat]) as_onum in
  let! unit := bind (load_field "unit" sdict JNull [TStr]) as_ostr in
  Ok (mkPOI name mn mx ini unit descr).

(** conditional assignment  "if v is not None : sdict[k] = v" *)
Definition dset_some (k : string) (v : jv) (d : dict jv) : dict jv :=
  match v with JNull => d | _ => dset k v d end.

(** base.py:301-312 ModelPOI.fill_dict *)
Definition poi_fill (p : POI) (sdict : dict jv) : dict jv :=
  let d := dset "name" (jstr_of (poi_name p)) sdict in
  let d := dset_some "description" (jstr_of (poi_descr p)) d in
  let d := dset_some "min_value" (jnum_of (poi_min p)) d in
  let d := dset_some "max_value" (jnum_of (poi_max p)) d in
  let d := dset_some "initial_value" (jnum_of (poi_initial p)) d in
  dset_some "unit" (jstr_of (poi_unit p)) d.

(** base.py:316-409 ModelAux *)
Record Aux := mkAux {
  aux_name : option string;
  aux_min : option R;
  aux_max : option R;
  aux_unit : option string;
  aux_descr : option string }.

(** base.py:383-397 *)
Definition aux_load (name0 : option string) (sdict : dict jv) : res Aux :=
  let! name := bind (load_field "name" sdict (jstr_of name0) [TStr]) as_ostr in
  let! descr := bind (load_field "description" sdict JNull [TStr]) as_ostr in
  let! unit := bind (load_field "unit" sdict JNull [TStr]) as_ostr in
  let! mn := bind (load_field "min_value" sdict JNull [TInt; TFloat]) as_onum in
  let! mx := bind (load_field "max_value" sdict JNull [TInt; TFloat]) as_onum in
  Ok (mkAux name mn mx unit descr).

(** base.py:399-409 *)
Definition aux_fill (a : Aux) (sdict : dict jv) : dict jv :=
  let d := dset "name" (jstr_of (aux_name a)) sdict in
  let d := dset_some "description" (jstr_of (aux_descr a)) d in
  let d := dset_some "unit" (jstr_of (aux_unit a)) d in
  let d := dset "min_value" (jnum_of (aux_min a)) d in
  dset "max_value" (jnum_of (aux_max a)) d.

(** base.py:413-598 ModelNP.  nominal_value may be null in markup, hence optional. *)
Record NP := mkNP {
  np_name : option string;
  np_nominal : option R;
  np_variation : R;
  np_constraint : option R;
  np_aux_obs : option string;
  np_unit : option string;
  np_descr : option string }.

(** base.py:563-584 ModelNP.load_dict.  Line 577 reads the constraint without a type check
    (types=None default []): a non-numerical constraint is stored as is and fails later; it is
    reported as TypeError here. *)
Definition np_load (name0 : option string) (sdict : dict jv) : res NP :=
  let! name := bind (load_field "name" sdict (jstr_of name0) [TStr]) as_ostr in
  let! descr := bind (load_field "description" sdict JNull [TStr]) as_ostr in
  let! unit := bind (load_field "unit" sdict JNull [TStr]) as_ostr in
  let! nominal := bind (load_field "nominal_value" sdict (JInt 0) [TInt; TFloat]) as_onum in
  let! variation0 := bind (load_field "variation" sdict JNull [TInt; TFloat]) as_onum in
  let! constraint := bind (load_field "constraint" sdict JNull []) as_onum in
  let variation := match variation0 with
                   | Some v => v
                   | None => match constraint with Some c => c | None => 1 end
                   end in
  let! aux := match constraint with
              | Some _ => bind (load_field "aux_obs" sdict JNull [TStr]) as_ostr
              | None => Ok None
              end in
  Ok (mkNP name nominal variation constraint aux unit descr).

(** base.py:586-598 ModelNP.fill_dict *)
Definition np_fill (p : NP) (sdict : dict jv) : dict jv :=
  let d := dset "name" (jstr_of (np_name p)) sdict in
  let d := dset_some "description" (jstr_of (np_descr p)) d in
  let d := dset_some "unit" (jstr_of (np_unit p)) d in
  let d := dset "nominal_value" (jnum_of (np_nominal p)) d in
  let d := dset "variation" (JFlt (np_variation p)) d in
  let d := dset_some "constraint" (jnum_of (np_constraint p)) d in
  dset_some "aux_obs" (jstr_of (np_aux_obs p)) d.

(** base.py:476-482 is_free *)
Definition np_is_free (p : NP) : bool := match np_constraint p with None => true | Some _ => false end.

(** base.py:484-493 unscaled_value *)
Definition unscaled_value (nominal variation scaled : R) : R := nominal + scaled * variation.

(** base.py:495-504 scaled_value; Python raises ZeroDivisionError for a zero float divisor. *)
Definition scaled_value (nominal variation unscaled : R) : res R :=
  if Reqb variation 0 then Err ZeroDivisionError else Ok ((unscaled - nominal) / variation).

(** base.py:507-515 scaled_constraint; None/variation raises TypeError *)
Definition scaled_constraint (p : NP) : res R :=
  match np_constraint p with
  | None => Err TypeError
  | Some c => if Reqb (np_variation p) 0 then Err ZeroDivisionError else Ok (c / np_variation p)
  end.

(** base.py:517-528 generate_aux: 0 for a free NP, otherwise a normal draw with mean [value] and width the
    constraint; [normal] stands for np.random.normal *)
Definition generate_aux (normal : R -> R -> R) (p : NP) (value : R) : R :=
  match np_constraint p with None => 0 | Some c => normal value c end.
