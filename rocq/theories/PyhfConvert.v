(** Model of src/fastprof_import/convert_pyhf_json.py: conversion of a pyhf file.

    The input is a pyhf document that follows the pyhf schema as far as the presence and the types of the entries are concerned: records
    below; an entry of another type, or a missing one, is outside.  Numbers are reals.  The output is the document that is written (before
    json.dump or yaml.dump), as markup.  Messages and the option verbosity are not modelled. *)
From Coq Require Import DecimalString.
From Verif Require Import Py Base Expressions Norms Sample Channels Params Core.
Local Open Scope string_scope.
Local Open Scope list_scope.

(** an entry of measurement['config']['parameters'].  [pp_aux_data] is the entry 'aux_data', which the code reads; [pp_auxdata] is the
    entry 'auxdata', which is the one of the pyhf schema. *)
Record PPar := mkPPar { pp_name : string; pp_sigmas : option (list R); pp_aux_data : option (list R); pp_auxdata : option (list R); pp_inits : option (list R) }.
(** modifiers: type and data.  shapesys and staterror are treated in the same way. *)
Inductive modifier :=
| MNormfactor (name : string)
| MLumi (name : string)
| MNormsys (name : string) (hi lo : R)
| MHistosys (name : string) (hi_data lo_data : list R)
| MShape (name : string) (data : list R)
| MOther (name type : string).
Definition mod_name (m : modifier) : string :=
  match m with MNormfactor n | MLumi n | MNormsys n _ _ | MHistosys n _ _ | MShape n _ | MOther n _ => n end.
Record PSample := mkPSample { ps_name : string; ps_data : list R; ps_mods : list modifier }.
Record PChannel := mkPChannel { pc_name : string; pc_samples : list PSample }.
Record PMeas := mkPMeas { pm_poi : string; pm_pars : list PPar }.
Record PFile := mkPFile { pf_meas : list PMeas; pf_channels : list PChannel; pf_obs : option (list (string * list R)) }.

(** '%d' of a natural number *)
Definition dec (n : nat) : string := NilEmpty.string_of_uint (Nat.to_uint n).

(** an entry of fastprof_model['NPs']; aux_obs is 'aux_' + name, there when the constraint is *)
Record NSpec := mkNSpec { ns_name : string; ns_nominal : R; ns_variation : option R; ns_constraint : option R }.
Definition aux_of (name : string) : string := ("aux_" ++ name)%string.

(** x[0]; the exceptions of 74-92 become KeyError *)
Definition first (l : list R) : res R := match l with x :: _ => Ok x | [] => Err KeyError end.
(** convert_pyhf_json.py 77-88 *)
Definition np_spec (p : PPar) : res NSpec :=
  let! constraint := match pp_sigmas p with Some l => let! s := first l in Ok (Some s) | None => Ok None end in
  let! nominal := match pp_aux_data p with
                  | Some l => first l
                  | None => match pp_inits p with Some l => first l | None => Ok 0 end
                  end in
  Ok (mkNSpec (pp_name p) nominal constraint constraint).
(** convert_pyhf_json.py 74-92 *)
Definition read_pars (poi : string) (l : list PPar) : res (dict NSpec) :=
  foldM (fun d p => if String.eqb (pp_name p) poi then Ok d else let! s := np_spec p in Ok (dset (pp_name p) s d)) l [].

(** a relative impact for +1 and -1; stored either as one entry, or as one entry per bin *)
Definition imp := (R * R)%type.
Inductive pimpact := One (i : imp) | Many (l : list imp).
Definition add_imp (a b : imp) : imp := (fst a + fst b, snd a + snd b).

(** convert_pyhf_json.py 102-107 *)
Definition same_sign (l : list imp) : bool := existsb (fun i => Rltb 0 (fst i * snd i)) l.
Definition flip (i : imp) : imp := if Rltb (Rabs (snd i)) (Rabs (fst i)) then (fst i, - snd i) else (- fst i, snd i).
Definition fix_signs (keep : bool) (l : list imp) : list imp :=
  if same_sign l then if keep then map flip l else [(0, 0)] else l.
(** convert_pyhf_json.py 108-116.  Line 112 repeats a dictionary len(impact) times: the number of its keys, which is 2. *)
Definition collapse (l : list imp) : pimpact := match l with [i] => One i | _ => Many l end.
Definition combine_impacts (prev new : pimpact) : pimpact :=
  match prev, new with
  | One p, One n => One (add_imp p n)
  | One p, Many l => Many (zipwith add_imp (repeat p (length l)) l)
  | Many l, One n => Many (zipwith add_imp l (repeat n 2))
  | Many l, Many l' => Many (zipwith add_imp l l')
  end.
(** convert_pyhf_json.py 99-117 add_impact, on the NPs and on the impacts of the sample *)
Definition declare (poi name : string) (nps : dict NSpec) : dict NSpec :=
  if (negb (dmem name nps) && negb (String.eqb name poi))%bool then dset name (mkNSpec name 0 None (Some 1)) nps else nps.
Definition add_impact (keep : bool) (poi : string) (st : dict NSpec * dict pimpact) (c : string * list imp) : dict NSpec * dict pimpact :=
  let new := collapse (fix_signs keep (snd c)) in
  (declare poi (fst c) (fst st),
   dset (fst c) (match dget (fst c) (snd st) with Some prev => combine_impacts prev new | None => new end) (snd st)).

(** convert_pyhf_json.py 145-168: the calls of add_impact for one modifier.  [meas] is pyhf_meas: the parameters of the first measurement, whatever the
    measurement that is used (97); the last one of a given name counts.  All exceptions become KeyError (173-175). *)
Definition rel (x y : R) : res R := if Reqb y 0 then Err KeyError else Ok (x / y).
Fixpoint histo_impacts (ys his los : list R) : res (list imp) :=
  match ys, his, los with
  | y :: ys', h :: his', l :: los' =>
    let! a := rel h y in let! b := rel l y in let! r := histo_impacts ys' his' los' in Ok ((a - 1, b - 1) :: r)
  | _, _, _ => Ok []
  end.
Fixpoint shape_calls (name : string) (n b : nat) (ys sigmas : list R) : res (list (string * list imp)) :=
  match ys, sigmas with
  | y :: ys', s :: sigmas' =>
    let! x := rel s y in
    let! r := shape_calls name n (S b) ys' sigmas' in
    Ok (((name ++ "_bin" ++ dec b)%string, map (fun b2 => if (b =? b2)%nat then (x, - x) else (0, 0)) (seq 0 n)) :: r)
  | _, _ => Ok []
  end.
Definition last_par (name : string) (l : list PPar) : option PPar := find (fun p => String.eqb (pp_name p) name) (rev l).
Definition mod_calls (meas : list PPar) (ys : list R) (m : modifier) : res (list (string * list imp)) :=
  match m with
  | MLumi n => match last_par n meas with
               | Some p => match pp_sigmas p with Some (s :: _) => Ok [(n, [(s, - s)])] | _ => Err KeyError end
               | None => Err KeyError
               end
  | MNormsys n hi lo => Ok [(n, [(hi - 1, lo - 1)])]
  | MHistosys n hi lo => let! l := histo_impacts ys hi lo in Ok [(n, l)]
  | MShape n data => shape_calls n (length ys) 0 ys data
  | MNormfactor _ | MOther _ _ => Err KeyError
  end.
Definition normfactors (l : list modifier) : list string :=
  concat (map (fun m => match m with MNormfactor n => [n] | _ => [] end) l).

(** a sample of the output *)
Record OSample := mkOSample { os_name : string; os_yields : list R; os_norm : option string; os_impacts : dict pimpact }.
(** convert_pyhf_json.py 131-172 *)
Definition convert_sample (keep : bool) (meas : list PPar) (poi : string) (nps : dict NSpec) (s : PSample) : res (dict NSpec * OSample) :=
  let nf := normfactors (ps_mods s) in
  let! norm := match nf with [] => Ok None | [n] => Ok (Some n) | _ => Err KeyError end in
  let! st := foldM (fun st m => if existsb (String.eqb (mod_name m)) nf then Ok st
                                else let! calls := mod_calls meas (ps_data s) m in Ok (fold_left (add_impact keep poi) calls st))
               (ps_mods s) (nps, []) in
  Ok (fst st, mkOSample (ps_name s) (ps_data s) norm (snd st)).
(** convert_pyhf_json.py 120-176.  A channel has bins when its first sample does not have exactly one; their names are set by the first sample that has bins. *)
Record OChannel := mkOChannel { oc_name : string; oc_bins : option (list string); oc_samples : list OSample }.
Definition bin_names (n : nat) : list string := map (fun b => ("bin" ++ dec b)%string) (seq 0 n).
Fixpoint convert_samples (keep : bool) (meas : list PPar) (poi : string) (nps : dict NSpec) (bins : option (list string)) (l : list PSample)
    : res (dict NSpec * option (list string) * list OSample) :=
  match l with
  | [] => Ok (nps, bins, [])
  | s :: l' =>
    let bins' := match bins with Some [] => Some (bin_names (length (ps_data s))) | b => b end in
    let! r := convert_sample keep meas poi nps s in
    let! r' := convert_samples keep meas poi (fst r) bins' l' in
    Ok (fst (fst r'), snd (fst r'), snd r :: snd r')
  end.
Definition convert_channel (keep : bool) (meas : list PPar) (poi : string) (nps : dict NSpec) (c : PChannel) : res (dict NSpec * OChannel) :=
  match pc_samples c with
  | [] => Err KeyError
  | s :: _ => let! r := convert_samples keep meas poi nps (if (length (ps_data s) =? 1)%nat then None else Some []) (pc_samples c) in
              Ok (fst (fst r), mkOChannel (pc_name c) (snd (fst r)) (snd r))
  end.
Fixpoint convert_channels (keep : bool) (meas : list PPar) (poi : string) (nps : dict NSpec) (l : list PChannel) : res (dict NSpec * list OChannel) :=
  match l with
  | [] => Ok (nps, [])
  | c :: l' => let! r := convert_channel keep meas poi nps c in
               let! r' := convert_channels keep meas poi (fst r) l' in Ok (fst r', snd r :: snd r')
  end.

(** the markup written *)
Definition j_imp (i : imp) : jv := JObj [("+1", JFlt (fst i)); ("-1", JFlt (snd i))].
Definition j_impact (p : pimpact) : jv := match p with One i => j_imp i | Many l => JList (map j_imp l) end.
Definition j_sample (s : OSample) : jv :=
  JObj ([("name", JStr (os_name s)); ("nominal_yields", JList (map JFlt (os_yields s)))] ++
        match os_norm s with Some n => [("nominal_norm", JInt 1); ("norm", JStr n)] | None => [] end ++
        [("impacts", JObj (map (fun kp => (fst kp, j_impact (snd kp))) (os_impacts s)))]).
Definition j_channel (c : OChannel) : jv :=
  JObj ([("name", JStr (oc_name c))] ++
        match oc_bins c with None => [("type", JStr "bin")] | Some b => [("type", JStr "multi_bin"); ("bins", JList (map JStr b))] end ++
        [("samples", JList (map j_sample (oc_samples c)))]).
Definition j_np (n : NSpec) : jv :=
  JObj ([("name", JStr (ns_name n)); ("nominal_value", JFlt (ns_nominal n))] ++
        match ns_variation n with Some v => [("variation", JFlt v)] | None => [] end ++
        match ns_constraint n with Some c => [("constraint", JFlt c); ("aux_obs", JStr (aux_of (ns_name n)))] | None => [] end).
Definition j_poi (name : string) : jv := JObj [("name", JStr name); ("min_value", JInt 0); ("max_value", JInt 1)].
(** convert_pyhf_json.py 178-193 *)
Definition j_obs (o : string * list R) : jv :=
  match snd o with
  | [x] => JObj [("name", JStr (fst o)); ("counts", JFlt x)]
  | l => JObj [("name", JStr (fst o)); ("bins", JList (zipwith (fun b x => JObj [("name", JStr ("bin" ++ dec b)%string); ("counts", JFlt x)]) (seq 0 (length l)) l))]
  end.
Definition j_aux (nps : dict NSpec) : list jv :=
  concat (map (fun n => match ns_constraint n with Some _ => [JObj [("name", JStr (aux_of (ns_name n))); ("value", JFlt (ns_nominal n))]] | None => [] end) (values nps)).

(** l[i] for an integer index *)
Definition py_index {A} (l : list A) (i : Z) : option A :=
  if (i <? 0)%Z then (if (- i <=? Z.of_nat (length l))%Z then nth_error l (Z.to_nat (Z.of_nat (length l) + i)) else None) else nth_error l (Z.to_nat i).
(** convert_pyhf_json.py 36-203 run, up to the write.  Line 68 raises a string, which is a TypeError. *)
Definition convert (keep : bool) (index : Z) (f : PFile) : res (dict jv) :=
  match py_index (pf_meas f) index with
  | None => Err TypeError
  | Some m =>
    let! nps0 := read_pars (pm_poi m) (pm_pars m) in
    let meas := match pf_meas f with m0 :: _ => pm_pars m0 | [] => [] end in
    let! r := convert_channels keep meas (pm_poi m) nps0 (pf_channels f) in
    let model := JObj [("POIs", JList [j_poi (pm_poi m)]); ("NPs", JList (map j_np (values (fst r)))); ("channels", JList (map j_channel (snd r)))] in
    Ok (match pf_obs f with
        | None => [("model", model)]
        | Some o => [("model", model); ("data", JObj [("channels", JList (map j_obs o)); ("aux_obs", JList (j_aux (fst r)))])]
        end)
  end.
