(** Model of src/fastprof/model_tools.py: merging models and channels, changing the parameterization, pruning. *)
From Verif Require Import Py Base Expressions Norms Sample Channels Params Core ModelIO.
Local Open Scope string_scope.
Local Open Scope list_scope.

(** Model objects are pairs (m, I) as returned by [finish]: the channels of m are those of I. *)
Definition with_ichannels (it : Internal) (chs : dict Channel) : Internal :=
  mkInternal (i_pm it) (i_ref_pois it) (i_cons it) chs (i_nbins_p it) (i_nbins_g it) (i_poi_hess it) (i_offsets it)
    (i_nsamples it) (i_nbins it) (i_nvar it) (i_pos it) (i_neg it) (i_sym it).
Definition with_samples (c : Channel) (l : dict Sample) : Channel := mkChannel (ch_name c) (ch_kind c) l.
(** a change made to every sample of every channel *)
Definition on_samples (f : Sample -> Sample) (chs : dict Channel) : dict Channel :=
  map (fun kc => (fst kc, with_samples (snd kc) (map (fun ks => (fst ks, f (snd ks))) (ch_samples (snd kc))))) chs.

(** * ModelMerger *)

(** model_tools.py 63-102 check, for a target and the other models.  The counts of POIs and NPs are compared first; then model.ncons
    is read, an attribute that Model does not have. *)
Definition merger_check (target : Model) (models : list Model) : res bool :=
  match models with
  | [] => Ok true
  | m :: _ => if negb (length (m_pois m) =? length (m_pois target))%nat then Ok false
              else if negb (length (m_nps m) =? length (m_nps target))%nat then Ok false
              else Err AttributeError
  end.

(** The target after merge: its channels, offsets and number of bins change; its samples table (self.samples,
    core.py:475,500), its number of samples and its parameters do not.  The concatenated coefficient arrays (118-129)
    are not represented: [merged_rows] fails before they are used. *)
(** self.samples, with the channel name and sample index as key *)
Definition samples_table (chs : dict Channel) : list (string * nat * Sample) :=
  concat (map (fun kc => map (fun ns => (fst kc, fst ns, snd (snd ns))) (enumerate (ch_samples (snd kc)))) chs).
Fixpoint table_get (k : string) (s : nat) (t : list (string * nat * Sample)) : option Sample :=
  match t with
  | [] => None
  | (k', s', sm) :: t' => if String.eqb k k' && (s =? s')%nat then Some sm else table_get k s t'
  end.

(** model_tools.py 113-117: the loop over the channels of the other models; the bins of the model are counted once per channel *)
Definition merge_channel (off : dict nat) (nb : nat) (st : dict Channel * dict nat * nat) (kc : string * Channel) : res (dict Channel * dict nat * nat) :=
  let '(chs, offs, n) := st in
  let! o := dgetE (fst kc) off in
  Ok (dset (fst kc) (snd kc) chs, dset (fst kc) (o + n)%nat offs, (n + nb)%nat).
Definition merge_models (target : Model * Internal) (models : list (Model * Internal)) : res (Model * dict nat * nat) :=
  let! st := foldM (fun st mi => foldM (merge_channel (i_offsets (snd mi)) (i_nbins (snd mi))) (m_channels (fst mi)) st)
               models (m_channels (fst target), i_offsets (snd target), i_nbins (snd target)) in
  let '(chs, offs, n) := st in
  let all := target :: models in
  (* 121: sym_impact_coeffs exists if the model was created with channels; the arrays must agree on the number of NPs *)
  if existsb (fun mi => (length (i_channels (snd mi)) =? 0)%nat) all then Err AttributeError
  else if negb (forallb (fun mi => (length (m_nps (fst mi)) =? length (m_nps (fst target)))%nat) all) then Err ValueError
  (* 122-123: the arrays of asymmetric impacts must exist in all models, with the same number of variations *)
  else if negb (forallb (fun mi => m_asym (fst mi)) all) then Err AttributeError
  else if negb (forallb (fun mi => (i_nvar (snd mi) =? i_nvar (snd target))%nat) all) then Err ValueError
  (* 124-127: log_sym_impact_coeffs is never defined *)
  else if m_lognormal (fst target) then Err AttributeError
  else Ok (with_channels (fst target) chs, offs, n).
(** core.py:674-692 n_exp on the merged object: self.samples is still the table of the target *)
Definition merged_rows (target : Model * Internal) (m' : Model) (rv : dict R) : res (list (list R)) :=
  mapM (fun s => let! l := mapM (fun kc => if (s <? length (ch_samples (snd kc)))%nat
                                           then match table_get (fst kc) s (samples_table (m_channels (fst target))) with
                                                | Some sm => sample_yields sm rv
                                                | None => Err KeyError
                                                end
                                           else Ok (repeat 0 (nbins (snd kc)))) (m_channels m') in
                 Ok (concat l)) (seq 0 (i_nsamples (snd target))).

(** * ChannelMerger *)

(** model_tools.py 229 and 257: the impact put in place of a missing one *)
Definition zero_impact : jv := JObj [("+1", JInt 0); ("-1", JInt 0)].

(** model_tools.py 193-230 check.  Sample names are the keys of the sample dictionaries.  The result is None when the checks fail,
    otherwise the channels of the model and the merged samples: name, and channel whose sample object provides the
    normalization and, by reference, the impacts dictionary (181-191); the impacts added at 229 are thus added to that
    sample of the model itself. *)
Fixpoint longest_channel (chs : dict Channel) (l : list string) (best : option (string * Channel)) : res (option (option (string * Channel))) :=
  match l with
  | [] => Ok (Some best)
  | k :: l' => let! c := dgetE k chs in
               match ch_kind c with
               | KRange _ _ _ => Ok None
               | _ => longest_channel chs l' (match best with
                                              | None => Some (k, c)
                                              | Some (_, b) => if (length (ch_samples b) <? length (ch_samples c))%nat then Some (k, c) else best
                                              end)
               end
  end.
(** the sample [name] of channel [k] *)
Definition sample_of (chs : dict Channel) (k name : string) : option Sample :=
  match dget k chs with Some c => dget name (ch_samples c) | None => None end.
Definition set_sample (chs : dict Channel) (k name : string) (s : Sample) : dict Channel :=
  match dget k chs with Some c => dset k (with_samples c (dset name s (ch_samples c))) chs | None => chs end.
Definition with_impacts (s : Sample) (im : dict jv) : Sample := mkSample (s_name s) (s_norm s) (s_nominal_norm s) (s_yields s) im.
(** model_tools.py 226-229 *)
Definition add_missing (pars : list string) (im : dict jv) : dict jv :=
  fold_left (fun d p => if dmem p d then d else dset p zero_impact d) pars im.
Definition check_sample (k : string) (st : dict Channel * dict string) (name : string) : dict Channel * dict string :=
  let '(chs, owners) := st in
  match dget name owners with
  | None => (chs, dset name k owners)
  | Some o => match sample_of chs k name, sample_of chs o name with
              | Some s, Some so => (set_sample chs o name (with_impacts so (add_missing (keys (s_impacts s)) (s_impacts so))), owners)
              | _, _ => st
              end
  end.
Definition merger_collect (chs : dict Channel) (tm : list string) (owners : dict string) : dict Channel * dict string :=
  fold_left (fun st k => match dget k chs with
                         | Some c => fold_left (check_sample k) (keys (ch_samples c)) st
                         | None => st
                         end) tm (chs, owners).
Definition cmerger_check (chs : dict Channel) (tm : list string) : res (option (dict Channel * dict string)) :=
  match tm with
  | [] => Ok None
  | _ :: rest =>
    if negb (forallb (fun k => dmem k chs) rest) then Ok None else
    let! lo := longest_channel chs tm None in
    match lo with
    | None => Ok None
    | Some None => Err AttributeError
    | Some (Some (k, c)) => Ok (Some (merger_collect chs tm (fold_left (fun d n => dset n k d) (keys (ch_samples c)) [])))
    end
  end.

(** model_tools.py 244-253: yields of one merged sample *)
Definition merged_yields (chs : dict Channel) (tm : list string) (name : string) (nn : option R) : res (list R) :=
  let! l := mapM (fun k => let! c := dgetE k chs in
                           match dget name (ch_samples c) with
                           | Some s => match s_yields s, s_nominal_norm s, nn with
                                       | Some y, Some n, Some x => if Reqb n 0 then Err NonFinite else Ok (map (fun v => v / n * x) y)
                                       | _, _, _ => Err TypeError
                                       end
                           | None => Ok (repeat 0 (nbins c))
                           end) tm in
  Ok (concat l).
(** model_tools.py 254-264: impacts of one merged sample for one NP (a string would be extended character by character: TypeError
    here) *)
Definition merged_impact (chs : dict Channel) (tm : list string) (name par : string) : res (list jv) :=
  let! l := mapM (fun k => let! c := dgetE k chs in
                           match dget name (ch_samples c) with
                           | Some s => match dget par (s_impacts s) with
                                       | None => Ok [zero_impact]
                                       | Some (JObj d) => Ok [JObj d]
                                       | Some (JList l) => Ok l
                                       | Some _ => Err TypeError
                                       end
                           | None => Ok [zero_impact]
                           end) tm in
  Ok (concat l).
Definition merged_sample (chs : dict Channel) (tm : list string) (no : string * string) : res (string * Sample) :=
  let '(name, o) := no in
  match sample_of chs o name with
  | None => Err KeyError
  | Some so =>
    let! y := merged_yields chs tm name (s_nominal_norm so) in
    let! im := mapM (fun p => let! l := merged_impact chs tm name p in Ok (p, JList l)) (keys (s_impacts so)) in
    Ok (name, mkSample (s_name so) (s_norm so) (s_nominal_norm so) (Some y) im)
  end.
(** model_tools.py 265-272: bins of the merged channel when no ranges are given *)
Definition merged_bins (chs : dict Channel) (tm : list string) : res (list string) :=
  let! l := mapM (fun k => let! c := dgetE k chs in
                           Ok (match ch_kind c with KSingle => [k] | KMulti bins => bins | _ => [] end)) tm in
  Ok (concat l).
(** model_tools.py 278-288: the merged channel takes the place of the first of the merged ones *)
Fixpoint place_merged (tm : list string) (merged : Channel) (added : bool) (chs acc : dict Channel) : dict Channel :=
  match chs with
  | [] => acc
  | (k, c) :: r =>
    if negb (existsb (String.eqb (ch_name c)) tm) then place_merged tm merged added r (dset (ch_name c) c acc)
    else if added then place_merged tm merged true r acc
    else place_merged tm merged true r (dset (ch_name merged) merged acc)
  end.
(** model_tools.py 232-291 merge.  The last positional argument, the verbosity, is received as the description of the new model: it
    is not a string, and is kept apart (see [merged_fill]).  The first component is the channels of the original model
    after the call: the impacts of the merged samples are written into dictionaries shared with it. *)
Definition merge_channels (E : Env) (m : Model) (tm : list string) (name : string) (obs_bins : option (list (R * R)))
    (obs_name obs_unit : option string) : res (option (dict Channel * (Model * Internal))) :=
  let! ck := cmerger_check (m_channels m) tm in
  match ck with
  | None => Ok None
  | Some (chs, owners) =>
    let! sm := mapM (merged_sample chs tm) owners in
    let chs' := fold_left (fun d no => match sample_of d (snd no) (fst no), dget (fst no) sm with
                                       | Some so, Some s => set_sample d (snd no) (fst no) (with_impacts so (s_impacts s))
                                       | _, _ => d
                                       end) owners chs in
    let! kind := match obs_bins with
                 | None => let! b := merged_bins chs tm in Ok (Some (KMulti b))
                 | Some l => Ok (if (length l =? length tm)%nat then Some (KRange l obs_name obs_unit) else None)
                 end in
    match kind with
    | None => Ok None
    | Some kd =>
      let! r := model_init E (mkModel (m_name m) None (m_pois m) (m_nps m) (m_aux m)
                  (place_merged tm (mkChannel name kd sm) false chs' []) (m_exprs m)
                  (m_asym m) (m_linear m) (m_simple_sym m) (m_lognormal m) (m_cutoff m)) in
      Ok (Some (chs', r))
    end
  end.
(** markup of the merged model: its description is the verbosity level *)
Definition merged_fill (E : Env) (m : Model) (verbosity : Z) (sdict : dict jv) : res (dict jv) :=
  let! d := model_fill E (mkModel (m_name m) None (m_pois m) (m_nps m) (m_aux m) (m_channels m) (m_exprs m) (m_asym m) (m_linear m)
                           (m_simple_sym m) (m_lognormal m) (m_cutoff m)) sdict in
  match dget "model" d with
  | Some (JObj (nm :: md)) => Ok (dset "model" (JObj (nm :: ("description", JInt verbosity) :: md)) d)
  | _ => Ok d
  end.
(** model_tools.py 293-316 merge_data *)
Definition merge_data (m : Model) (it : Internal) (tm : list string) (d : Data) (merged : Model * Internal) : res (option Data) :=
  let! ck := cmerger_check (m_channels m) tm in
  match ck with
  | None => Ok None
  | Some _ =>
    let! st := foldM (fun st k =>
        if negb (existsb (String.eqb k) tm) then let! s := channel_slice it k (d_counts d) in Ok (fst st ++ s, snd st)
        else if (snd st : bool) then Ok st
        else let! l := mapM (fun k' => channel_slice it k' (d_counts d)) tm in Ok (fst st ++ concat l, true))
      (keys (m_channels m)) ([], false) in
    let! r := data_init (fst merged) (snd merged) (fst st) (d_aux d) in Ok (Some r)
  end.

(** * ModelReparam.  [rmatch spec name] is re.match(spec, name); the code appends '$' except at 442. *)

(** model_tools.py 453-471 remove_from_norms: values[selected_name] refers to an undefined name *)
Definition remove_from_norms (chs : dict Channel) (name : string) (vals : dict R) : res unit :=
  if existsb (fun kc => existsb (fun ks => match s_norm (snd ks) with ExprNorm e => String.eqb e name | _ => false end) (ch_samples (snd kc))) chs
  then if dmem name vals then Err NameError else Err KeyError
  else Ok tt.

(** model_tools.py 404-412 and 438-446: the names selected by a list of specifications *)
Definition select_names (rmatch : string -> string -> bool) (suffix : string) (names specs : list string) : res (list string) :=
  let! l := mapM (fun sp => if existsb (String.eqb sp) names then Ok [sp]
                            else match filter (rmatch (sp ++ suffix)%string) names with
                                 | [] => Err KeyError
                                 | l => Ok l
                                 end) specs in
  Ok (concat l).

(** the expressions attribute *)
Definition with_exprs (m : Model) (ex : dict expr) : Model :=
  mkModel (m_name m) (m_descr m) (m_pois m) (m_nps m) (m_aux m) (m_channels m) ex (m_asym m) (m_linear m)
    (m_simple_sym m) (m_lognormal m) (m_cutoff m).
Definition with_pois (m : Model) (ps : dict POI) : Model :=
  mkModel (m_name m) (m_descr m) ps (m_nps m) (m_aux m) (m_channels m) (m_exprs m) (m_asym m) (m_linear m)
    (m_simple_sym m) (m_lognormal m) (m_cutoff m).

(** dict.pop(k) *)
Definition dpopE {V} (k : string) (d : dict V) : res (dict V) := if dmem k d then Ok (dremove k d) else Err KeyError.

(** model_tools.py 427-451 remove_expressions *)
Definition remove_expressions (rmatch : string -> string -> bool) (m : Model) (specs : list string) (vals : dict R) : res Model :=
  let! sel := select_names rmatch "" (keys (m_exprs m)) specs in
  foldM (fun m n => match dget n (m_exprs m) with
                    | None => Err KeyError
                    | Some e => let! _ := remove_from_norms (m_channels m) (expr_name e) vals in
                                Ok (with_exprs m (dremove n (m_exprs m)))
                    end) sel m.

(** model_tools.py 419-423: one POI is replaced in all the expressions; the replacements found are accumulated *)
Definition replace_in_exprs (fuel : nat) (m : Model) (name : string) (value : option R) (st : dict expr * list string * dict R)
    : res (dict expr * list string * dict R) :=
  foldM (fun st k => let '(ex, names, vals) := st in
                     let! r := replace fuel name value (keys (m_pois m) ++ keys (m_nps m)) ex k in
                     Ok (match snd r with
                         | None => (fst r, names, vals)
                         | Some v => (fst r, names ++ [k], dset k v vals)
                         end)) (keys (m_exprs m)) st.
(** model_tools.py 391-425 remove_pois *)
Definition remove_pois (fuel : nat) (rmatch : string -> string -> bool) (m : Model) (specs : list string) (vals : dict R) : res Model :=
  let! sel := select_names rmatch "$" (keys (m_pois m)) specs in
  let! st := foldM (fun (st : Model * list string * dict R) n =>
      let '(m, names, evals) := st in
      let! _ := if dmem n (m_exprs m) then Ok tt else remove_from_norms (m_channels m) n vals in
      let! r := replace_in_exprs fuel m n (dget n vals) (m_exprs m, names, evals) in
      let '(ex, names', evals') := r in
      let! ps := dpopE n (m_pois m) in
      Ok (with_pois (with_exprs m ex) ps, names', evals')) sel (m, [], []) in
  let '(m', names, evals) := st in
  remove_expressions rmatch m' names evals.

(** model_tools.py 341-351 add_pois and 353-363 add_expressions *)
Definition add_pois (m : Model) (l : list POI) : res Model :=
  foldM (fun m p => let! n := name_of (poi_name p) in
                    if dmem n (m_pois m) then Err KeyError else Ok (with_pois m (dset n p (m_pois m)))) l m.
Definition add_expressions (m : Model) (l : list expr) : res Model :=
  foldM (fun m e => if dmem (expr_name e) (m_exprs m) then Err KeyError else Ok (with_exprs m (dset (expr_name e) e (m_exprs m)))) l m.
(** model_tools.py 365-389 update_norms *)
Definition with_norm (s : Sample) (n : norm) : Sample := mkSample (s_name s) n (s_nominal_norm s) (s_yields s) (s_impacts s).
Definition new_norm (rmatch : string -> string -> bool) (new : list (string * string * norm)) (c : Channel) (s : Sample) : res Sample :=
  match filter (fun e => rmatch (fst (fst e) ++ "$")%string (ch_name c) && rmatch (snd (fst e) ++ "$")%string (s_name s)) new with
  | [] => Ok s
  | [e] => Ok (with_norm s (snd e))
  | _ => Err KeyError
  end.
Definition update_norms (rmatch : string -> string -> bool) (m : Model) (new : list (string * string * norm)) : res Model :=
  let! chs := mapM (fun kc => let! l := mapM (fun ks => let! s := new_norm rmatch new (snd kc) (snd ks) in Ok (fst ks, s)) (ch_samples (snd kc)) in
                              Ok (fst kc, with_samples (snd kc) l)) (m_channels m) in
  Ok (with_channels m chs).

(** * NPPruner *)

(** model_tools.py 550: the value given for an NP, otherwise its nominal value *)
Definition removal_value (pv : dict (option R)) (n : string) (p : NP) : res R :=
  match dget n pv with
  | Some (Some v) => Ok v
  | _ => match np_nominal p with Some v => Ok v | None => Err TypeError end
  end.
(** model_tools.py 555-567: effect of the removal of one NP on a sample *)
Definition drop_np (n : string) (s : Sample) : Sample :=
  match s_norm s with
  | ExprNorm e => if String.eqb e n then with_norm s (NumberNorm (s_nominal_norm s)) else with_impacts s (dremove n (s_impacts s))
  | NumberNorm _ => with_impacts s (dremove n (s_impacts s))
  end.
(** core.py:713-718 channel_n_exp with a sample name *)
Definition sample_slice (it : Internal) (n : nat -> nat -> R) (k : string) (name : string) : res (list R) :=
  let! off := dgetE k (i_offsets it) in
  let! c := dgetE k (i_channels it) in
  match index name (keys (ch_samples c)) with
  | None => Err ValueError
  | Some s => Ok (map (fun b => n s (off + b)%nat) (seq 0 (nbins c)))
  end.
(** model_tools.py 573-579: the yields at the new values of the NPs become the nominal yields *)
Definition absorb (it : Internal) (n : nat -> nat -> R) (rv : dict R) (k : string) (s : Sample) : res Sample :=
  let! y := sample_slice it n k (s_name s) in
  let! v := norm_value (s_norm s) rv in
  Ok (mkSample (s_name s) (s_norm s) (Some v) (Some y) (s_impacts s)).
(** model_tools.py 580-582: a NP is removed with its auxiliary observable (an empty or absent name is false) *)
Definition pop_np (st : dict NP * dict Aux) (n : string) : res (dict NP * dict Aux) :=
  match dget n (fst st) with
  | None => Err KeyError
  | Some p => let! aux := match np_aux_obs p with
                          | Some a => if String.eqb a "" then Ok (snd st) else dpopE a (snd st)
                          | None => Ok (snd st)
                          end in
              Ok (dremove n (fst st), aux)
  end.
(** model_tools.py 520-584 remove_nps.  With clone_model=True the same is done on a copy ([model_clone]). *)
Definition remove_nps (E : Env) (rmatch : string -> string -> bool) (mi : Model * Internal) (pv : dict (option R)) : res (Model * Internal) :=
  let '(m, it) := mi in
  let! sel := select_names rmatch "$" (keys (m_nps m)) (keys pv) in
  let! p0 := pars_clone (mkPars (i_ref_pois it) (repeat 0 (length (pm_nps (i_pm it)))) (Some (i_pm it))) in
  let! pars := foldM (fun p n => let! np := dgetE n (m_nps m) in
                                 let! v := removal_value pv n np in pars_set p n v false) sel p0 in
  let chs := fold_left (fun chs n => on_samples (drop_np n) chs) sel (m_channels m) in
  let it1 := with_ichannels it chs in
  let! n := n_exp m it1 (pois pars) (nps pars) in
  let! rv := model_real_vals m (i_pm it) (pois pars) in
  let! chs' := mapM (fun kc => let! l := mapM (fun ks => let! s := absorb it1 n rv (ch_name (snd kc)) (snd ks) in Ok (fst ks, s)) (ch_samples (snd kc)) in
                               Ok (fst kc, with_samples (snd kc) l)) chs in
  let! na := foldM pop_np sel (m_nps m, m_aux m) in
  finish E (mkModel (m_name m) (m_descr m) (m_pois m) (fst na) (snd na) chs' (m_exprs m) (m_asym m) (m_linear m)
              (m_simple_sym m) (m_lognormal m) (m_cutoff m)).
(** model_tools.py 502-518 prune *)
Definition below (it : Internal) (min_impact : R) (p : nat) : bool :=
  forallb (fun s => forallb (fun b => Rltb (i_sym it s b p) min_impact && Rltb (- min_impact) (i_sym it s b p)) (seq 0 (i_nbins it))) (seq 0 (i_nsamples it)).
Definition pruned_nps (m : Model) (it : Internal) (min_impact : R) : list string :=
  map snd (filter (fun pn => below it min_impact (fst pn)) (enumerate (keys (m_nps m)))).
Definition pop_impacts (l : list string) (s : Sample) : res Sample :=
  let! im := foldM (fun d n => dpopE n d) l (s_impacts s) in Ok (with_impacts s im).
Definition prune_nps (E : Env) (rmatch : string -> string -> bool) (mi : Model * Internal) (min_impact : R) : res (Model * Internal) :=
  let l := pruned_nps (fst mi) (snd mi) min_impact in
  let! chs := mapM (fun kc => let! ss := mapM (fun ks => let! s := pop_impacts l (snd ks) in Ok (fst ks, s)) (ch_samples (snd kc)) in
                              Ok (fst kc, with_samples (snd kc) ss)) (m_channels (fst mi)) in
  remove_nps E rmatch (with_channels (fst mi) chs, with_ichannels (snd mi) chs) (fold_left (fun d n => dset n None d) l []).

(** * SamplePruner *)

(** model_tools.py 643-664 total_significance: None when it is infinite or not a number (a non-positive total yields NaN in the
    logarithm or its product) *)
Definition total_significance (sample total : list R) : option R :=
  if existsb (fun d => Rleb d 0) (zipwith Rminus total sample) then None
  else if existsb (fun t => Rleb t 0) total then None
  else let x := lsum (zipwith (fun t s => 2 * (t * ln (t / (t - s)) - s)) total sample) in
       if Rltb x 0 then None else Some (sqrt x).
(** model_tools.py 624-626 total of the channel *)
Definition channel_total (c : Channel) : res (list R) :=
  foldM (fun acc s => match s_yields s with
                      | Some y => if (length y =? length acc)%nat then Ok (zipwith Rplus acc y) else Err ValueError
                      | None => Err TypeError
                      end) (values (ch_samples c)) (repeat 0 (nbins c)).
(** model_tools.py 627-638: the samples to remove are those of significance below the threshold (comparisons with infinity and NaN
    are false); sample names are the keys *)
Definition insignificant (min_signif : R) (total : list R) (s : Sample) : bool :=
  match s_yields s with
  | Some y => match total_significance y total with Some z => Rltb z min_signif | None => false end
  | None => false
  end.
Definition prune_channel (min_signif : R) (c : Channel) : res Channel :=
  let! t := channel_total c in
  Ok (with_samples c (filter (fun ks => negb (insignificant min_signif t (snd ks))) (ch_samples c))).
(** model_tools.py 617-641 prune *)
Definition prune_samples (E : Env) (mi : Model * Internal) (min_signif : R) : res (Model * Internal) :=
  let! chs := mapM (fun kc => let! c := prune_channel min_signif (snd kc) in Ok (fst kc, c)) (m_channels (fst mi)) in
  if forallb (fun p => (length (ch_samples (snd (fst p))) =? length (ch_samples (snd (snd p))))%nat) (combine (m_channels (fst mi)) chs)
  then Ok mi else finish E (with_channels (fst mi) chs).
