(** Model of Model.clone, Model.load_dict, Model.fill_dict and of the class Data of src/fastprof/core.py. *)
From Verif Require Import Py Base Expressions Norms Sample Channels Params Core.
Local Open Scope string_scope.
Local Open Scope list_scope.

(** A model object: its primary attributes, and the secondary ones.  set_internal_vars updates the samples of the
    channels in place (core.py:498-500), and the channel order (488). *)
Definition with_channels (m : Model) (chs : dict Channel) : Model :=
  mkModel (m_name m) (m_descr m) (m_pois m) (m_nps m) (m_aux m) chs (m_exprs m) (m_asym m) (m_linear m)
    (m_simple_sym m) (m_lognormal m) (m_cutoff m).
Definition finish (E : Env) (m : Model) : res (Model * Internal) :=
  let! it := set_internal_vars E m in Ok (with_channels m (i_channels it), it).

(** core.py:388-428 __init__: dictionaries are rebuilt with the object names as keys; the auxiliary observable of
    every NP must be given; the cutoff is 0.  An object without a name would get the key None: TypeError here. *)
Definition name_of (o : option string) : res string := match o with Some n => Ok n | None => Err TypeError end.
Definition rekey {V} (nm : V -> res string) (d : dict V) : res (dict V) :=
  foldM (fun acc v => let! n := nm v in Ok (dset n v acc)) (values d) [].
Definition model_init (E : Env) (m : Model) : res (Model * Internal) :=
  let! ps := rekey (fun p => name_of (poi_name p)) (m_pois m) in
  let! ns := foldM (fun acc p => match np_aux_obs p with
                                 | Some a => if dmem a (m_aux m) then let! n := name_of (np_name p) in Ok (dset n p acc) else Err ValueError
                                 | None => let! n := name_of (np_name p) in Ok (dset n p acc)
                                 end) (values (m_nps m)) [] in
  let! aux := rekey (fun p => name_of (aux_name p)) (m_aux m) in
  let! chs := rekey (fun c => Ok (ch_name c)) (m_channels m) in
  let! ex := rekey (fun e => Ok (expr_name e)) (m_exprs m) in
  finish E (mkModel (m_name m) (m_descr m) ps ns aux chs ex (m_asym m) (m_linear m) (m_simple_sym m) (m_lognormal m) 0).

(** core.py:430-449 clone (with set_internal_vars=True the internal variables are computed a second time) *)
Definition model_clone (E : Env) (m : Model) (name : option string) : res (Model * Internal) :=
  let! chs := foldM (fun acc c => let! c' := channel_clone c in Ok (dset (ch_name c') c' acc)) (values (m_channels m)) [] in
  let! r := model_init E (mkModel (match name with Some n => n | None => m_name m end) (m_descr m) (m_pois m) (m_nps m) (m_aux m) chs
              (m_exprs m) (m_asym m) (m_linear m) (m_simple_sym m) (m_lognormal m) (m_cutoff m)) in
  finish E (fst r).

(** the loops of load_dict: each entry must be an object, and names must be distinct *)
Definition load_named {V} (load : dict jv -> res V) (nm : V -> res string) (v : jv) (acc : dict V) : res (dict V) :=
  match v with
  | JObj d => let! x := load d in
              let! n := nm x in
              if dmem n acc then Err ValueError else Ok (dset n x acc)
  | _ => Err TypeError
  end.
Definition section (k : string) (md : dict jv) : res (list jv) :=
  match dget k md with None => Ok [] | Some v => jlist v end.

(** core.py:1231-1240 NPs; an auxiliary observable that is not declared is created *)
Definition load_np (v : jv) (st : dict NP * dict Aux) : res (dict NP * dict Aux) :=
  match v with
  | JObj d => let! p := np_load None d in
              let aux := match np_aux_obs p with
                         | Some a => if dmem a (snd st) then snd st else dset a (mkAux (Some a) None None (np_unit p) None) (snd st)
                         | None => snd st
                         end in
              let! n := name_of (np_name p) in
              if dmem n (fst st) then Err ValueError else Ok (dset n p (fst st), aux)
  | _ => Err TypeError
  end.
(** core.py:1249-1270 channels, with the check of the sizes of the yields *)
Definition load_channel (E : Env) (d : dict jv) : res Channel :=
  let! c := channel_load (e_float E) (e_inv E) d in
  if forallb (fun s => match s_yields s with Some y => (length y =? nbins c)%nat | None => true end) (values (ch_samples c))
  then Ok c else Err ValueError.

(** core.py:1202-1269 load_dict, except for the last line (1270, [finish]).  [m0] is the object before the call: its
    options and its expressions are kept. *)
Definition model_read (E : Env) (m0 : Model) (sdict : dict jv) : res Model :=
  let! mv := dgetE "model" sdict in
  match mv with
  | JObj md =>
    let! poil := bind (dgetE "POIs" md) jlist in
    let! chl := bind (dgetE "channels" md) jlist in
    let! name := bind (load_field "name" md (JStr "") [TStr]) as_str in
    let! descr := bind (load_field "description" md JNull [TStr]) as_ostr in
    let! ps := foldM (fun acc v => load_named (poi_load None) (fun p => name_of (poi_name p)) v acc) poil [] in
    let! auxl := section "aux_obs" md in
    let! aux := foldM (fun acc v => load_named (aux_load None) (fun p => name_of (aux_name p)) v acc) auxl [] in
    let! npl := section "NPs" md in
    let! na := foldM (fun st v => load_np v st) npl ([], aux) in
    let! exl := section "expressions" md in
    let! ex := foldM (fun acc v => load_named expr_instantiate (fun e => Ok (expr_name e)) v acc) exl (m_exprs m0) in
    let! chs := foldM (fun acc v => load_named (load_channel E) (fun c => Ok (ch_name c)) v acc) chl [] in
    Ok (mkModel name descr ps (fst na) (snd na) chs ex (m_asym m0) (m_linear m0) (m_simple_sym m0) (m_lognormal m0) (m_cutoff m0))
  | _ => Err TypeError
  end.
Definition model_load (E : Env) (m0 : Model) (sdict : dict jv) : res (Model * Internal) :=
  let! m := model_read E m0 sdict in finish E m.

(** core.py:1273-1291 fill_dict *)
Definition model_fill (E : Env) (m : Model) (sdict : dict jv) : res (dict jv) :=
  let! chs := mapM (fun c => let! d := channel_fill (e_inv E) c in Ok (JObj d)) (values (m_channels m)) in
  let md := ("name", JStr (m_name m)) ::
    match m_descr m with Some s => [("description", JStr s)] | None => [] end ++
    [("POIs", JList (map (fun p => JObj (poi_fill p [])) (values (m_pois m))));
     ("NPs", JList (map (fun p => JObj (np_fill p [])) (values (m_nps m))));
     ("expressions", JList (map (fun p => JObj (expr_fill p [])) (values (m_exprs m))));
     ("aux_obs", JList (map (fun p => JObj (aux_fill p [])) (values (m_aux m))));
     ("channels", JList chs)] in
  Ok (dset "model" (JObj md) sdict).

(** a model object just created: Model(use_asym_impacts=asym, use_linear_nps=linear) *)
Definition new_model (asym linear : bool) : Model := mkModel "" None [] [] [] [] [] asym linear true false 0.

(** * Data *)

(** core.py:1403-1421 set_counts.  A wrong size refers to the undefined name [model]: NameError. *)
Definition set_counts (I : Internal) (counts : list R) : res (list R) :=
  match counts with
  | [] => Ok (repeat 0 (i_nbins I))
  | _ => if (length counts =? i_nbins I)%nat then Ok counts else Err NameError
  end.

(** core.py:1423-1448 set_aux_obs *)
Fixpoint place_aux (ps : list NP) (nominal : list R) (aux : list R) : res (list R) :=
  match ps, nominal with
  | p :: ps', x :: nominal' =>
    if np_is_free p then let! r := place_aux ps' nominal' aux in Ok (x :: r)
    else match aux with
         | a :: aux' => let! r := place_aux ps' nominal' aux' in Ok (a :: r)
         | [] => Err IndexError
         end
  | _, _ => Ok []
  end.
Definition set_aux_obs (m : Model) (I : Internal) (aux : list R) : res (list R) :=
  let nominal := map (fun p => snd (fst p)) (pm_nps (i_pm I)) in
  if (length aux =? 0)%nat then Ok nominal
  else if (length aux =? length (m_nps m))%nat then Ok aux
  else if (length aux =? length (m_aux m))%nat then place_aux (values (m_nps m)) nominal aux
  else Err ValueError.

(** core.py:1370-1385 Data(model, counts, aux_obs); empty lists stand for None *)
Definition data_init (m : Model) (I : Internal) (counts aux : list R) : res Data :=
  let! c := set_counts I counts in
  let! a := set_aux_obs m I aux in Ok (mkData c a).

(** core.py:1476-1480: the first entry with the name of the channel; an entry without a name raises KeyError, turned
    into ValueError as is the absence of the channel *)
Fixpoint find_channel (name : string) (l : list jv) : res (dict jv) :=
  match l with
  | [] => Err ValueError
  | JObj d :: l' => match dget "name" d with
                    | None => Err ValueError
                    | Some (JStr n) => if String.eqb n name then Ok d else find_channel name l'
                    | Some _ => find_channel name l'
                    end
  | _ :: _ => Err ValueError
  end.

(** core.py:1473-1482: counts are written in place, through a view of the bins of the channel *)
Fixpoint load_counts (chs : list Channel) (entries : list jv) (offset : nat) (counts : list R) : eff :=
  match chs with
  | [] => okE counts
  | c :: chs' =>
    match find_channel (ch_name c) entries with
    | Err e => errE counts e
    | Ok d =>
      let '(view, o) := load_dataset c d (firstn (nbins c) (skipn offset counts)) in
      let counts' := firstn offset counts ++ view ++ skipn (offset + nbins c) counts in
      match o with
      | Some e => errE counts' e
      | None => load_counts chs' entries (offset + nbins c) counts'
      end
    end
  end.

(** core.py:1483-1486 *)
Definition aux_entries (dd : dict jv) : res (dict R) :=
  match dget "aux_obs" dd with
  | None => Ok []
  | Some v => let! l := jlist v in
              foldM (fun acc e => let! n := bind (jget "name" e) jstr in let! x := bind (jget "value" e) jreal in Ok (dset n x acc)) l []
  end.
(** core.py:1487-1494; 0 for an NP without auxiliary observable *)
Definition aux_values (ps : list NP) (d : dict R) : res (list R) :=
  mapM (fun p => match np_aux_obs p with
                 | None => Ok 0
                 | Some a => match dget a d with
                             | None => Err ValueError
                             | Some x => match np_nominal p with
                                         | Some nom => scaled_value nom (np_variation p) x
                                         | None => Err TypeError
                                         end
                             end
                 end) ps.

(** core.py:1463-1496 load_dict on an existing dataset: contents after the call, and the exception if any *)
Definition data_load (m : Model) (I : Internal) (d0 : Data) (sdict : dict jv) : Data * option exn :=
  match dget "data" sdict with
  | None => (d0, Some KeyError)
  | Some (JObj dd) =>
    match bind (load_field "description" dd JNull [TStr]) as_ostr with
    | Err e => (d0, Some e)
    | Ok _ =>
      match dget "channels" dd with
      | None => (d0, Some KeyError)
      | Some (JList l) =>
        let '(counts, o) := load_counts (values (i_channels I)) l 0 (d_counts d0) in
        match o with
        | Some e => (mkData counts (d_aux d0), Some e)
        | None =>
          match (let! a := aux_entries dd in let! v := aux_values (values (m_nps m)) a in set_aux_obs m I v) with
          | Err e => (mkData counts (d_aux d0), Some e)
          | Ok aux => (mkData counts aux, None)
          end
        end
      | Some _ => (d0, Some ValueError)
      end
    end
  | Some _ => (d0, Some TypeError)
  end.

(** core.py:1498-1515 fill_dict *)
Definition aux_dump (ps : list NP) (aux : list R) : res (list jv) :=
  let! l := mapM (fun px => match np_aux_obs (fst px) with
                            | None => Ok []
                            | Some a => match np_nominal (fst px) with
                                        | Some nom => Ok [JObj [("name", JStr a); ("value", JFlt (unscaled_value nom (np_variation (fst px)) (snd px)))]]
                                        | None => Err TypeError
                                        end
                            end) (combine ps aux) in Ok (concat l).
Definition data_fill (m : Model) (I : Internal) (d : Data) (descr : option string) (sdict : dict jv) : res (dict jv) :=
  let! chs := mapM (fun kc => let! s := channel_slice I (fst kc) (d_counts d) in
                              let! e := save_dataset (snd kc) s in Ok (JObj e)) (i_channels I) in
  let! aux := aux_dump (values (m_nps m)) (d_aux d) in
  Ok (dset "data" (JObj (match descr with Some s => [("description", JStr s)] | None => [] end ++ [("channels", JList chs); ("aux_obs", JList aux)])) sdict).
