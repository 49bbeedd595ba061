(** Model of the command-line programs that transform models: src/fastprof_utils/prune_model.py, merge_models.py,
    merge_channels.py and reparam_model.py.  The parsing of the command line itself (argparse) is not modelled: the options are given
    as records.  Printing is not modelled.  [f] is the file system before the run; the result of a run is the list of the operations on the
    file system that the run performs with the exception raised during the last save if any, or [Err e] for an exception before any
    operation. *)
From Verif Require Import Py Base Expressions Norms Sample Channels Params Core ModelIO ModelTools UtilTools FileIO.
Local Open Scope string_scope.
Local Open Scope list_scope.

(** ** shared *)
(** core.py:1170-1187 Model.create, with the default options *)
Definition model_create (E : Env) (C : Codec) (f : fs) (path : string) : res (Model * Internal) :=
  model_load_file E C f (new_model true false) path None.
(** Data(model).load(path); the description of the dataset is part of the object *)
Definition data_create (C : Codec) (f : fs) (mi : Model * Internal) (path : string) : res (Data * option string) :=
  let! d0 := data_init (fst mi) (snd mi) [] [] in
  let! sd := load_file C f path None in
  match data_load (fst mi) (snd mi) d0 sd with
  | (_, Some e) => Err e
  | (d, None) => let! descr := match dget "data" sd with
                               | Some (JObj dd) => bind (load_field "description" dd JNull [TStr]) as_ostr
                               | _ => Err TypeError
                               end in Ok (d, descr)
  end.
(** s.endswith(suf) with s[:-len(suf)] *)
Fixpoint drop_suffix (suf s : string) : option string :=
  if String.eqb s suf then Some "" else
  match s with
  | EmptyString => None
  | String a r => match drop_suffix suf r with Some p => Some (String a p) | None => None end
  end.
(** s.replace(' ', '').replace('\n', '') *)
Fixpoint no_blank (s : string) : string :=
  match s with
  | EmptyString => EmptyString
  | String a r => if (Ascii.eqb a " " || Ascii.eqb a "010")%bool then no_blank r else String a (no_blank r)
  end.

(** ** prune_model.py *)
Record PruneOpts := mkPO { po_model : string; po_data : option string; po_out : string; po_nps : option string; po_impact : option R; po_signif : option R }.
(** 44 and 64 the name of the output file *)
Definition prune_output (o : PruneOpts) : string :=
  ((match drop_suffix ".json" (po_out o) with Some s => s | None => po_out o end) ++ ".json")%string.
(** the values handed to remove_nps; process_setvals (check_val) returns numbers only *)
Definition removal_values (d : dict sval) : res (dict (option R)) :=
  mapM (fun kv => match snd kv with SNum x => Ok (fst kv, Some x) | SStr _ => Err ValueError end) d.
(** 46-54 the three steps *)
Definition prune_steps (E : Env) (pf : string -> option R) (rmatch : string -> string -> bool) (o : PruneOpts) (mi : Model * Internal) : res (Model * Internal) :=
  let! mi1 := match po_signif o with Some z => prune_samples E mi z | None => Ok mi end in
  let! mi2 := match po_nps o with
              | Some spec => let! d := process_setvals pf rmatch (fst mi1) true true true true spec in
                             let! pv := removal_values d in remove_nps E rmatch mi1 pv
              | None => Ok mi1
              end in
  match po_impact o with Some x => prune_nps E rmatch mi2 x | None => Ok mi2 end.
(** 56-61 the file the dataset is read from (an empty name is false) *)
Definition prune_source (o : PruneOpts) : string :=
  match po_data o with Some p => if String.eqb p "" then po_model o else p | None => po_model o end.
(** 34-66 run.  Data.load never returns None: the branch of line 66 is not reached. *)
Definition prune_run (E : Env) (C : Codec) (w : string -> bool) (pf : string -> option R) (rmatch : string -> string -> bool) (o : PruneOpts) (f : fs)
    : res (list fsop * option exn) :=
  let! mi := model_create E C f (po_model o) in
  let! mi' := prune_steps E pf rmatch o mi in
  let! d := data_create C f mi' (prune_source o) in
  save_with_model E C w (fst mi') (snd mi') (fst d) (snd d) (prune_output o) None.

(** ** merge_models.py *)
(** 38-42: str.find gives 0 for a leading star, which is false, and -1, which is true, without any star.  [glob] is glob.glob. *)
Definition expand_spec (glob : string -> list string) (spec : string) : list string :=
  match spec with
  | String "*" _ => [spec]
  | _ => glob spec
  end.
(** re.split('(\W)', key): the words and, between them, the separators (ASCII) *)
Definition is_digit (a : ascii) : bool := let n := nat_of_ascii a in ((48 <=? n) && (n <=? 57))%nat.
Definition is_word (a : ascii) : bool :=
  let n := nat_of_ascii a in (is_digit a || ((65 <=? n) && (n <=? 90)) || ((97 <=? n) && (n <=? 122)) || (n =? 95))%nat%bool.
Fixpoint tokens (s : string) (cur : string) : list string :=
  match s with
  | EmptyString => [cur]
  | String a r => if is_word a then tokens r (cur ++ String a EmptyString)%string else cur :: String a EmptyString :: tokens r EmptyString
  end.
(** 49: digits become numbers *)
Inductive token := TokInt (n : Z) | TokStr (s : string).
Fixpoint all_digits (s : string) : bool := match s with EmptyString => true | String a r => (is_digit a && all_digits r)%bool end.
Fixpoint digits_value (s : string) (n : Z) : Z :=
  match s with EmptyString => n | String a r => digits_value r (10 * n + (Z.of_nat (nat_of_ascii a) - 48))%Z end.
Definition to_token (s : string) : token := if (negb (String.eqb s "") && all_digits s)%bool then TokInt (digits_value s 0) else TokStr s.
Definition alphanum (key : string) : list token := map to_token (tokens key "").
(** str < str, by code points *)
Fixpoint str_ltb (a b : string) : bool :=
  match a, b with
  | EmptyString, EmptyString => false
  | EmptyString, String _ _ => true
  | String _ _, EmptyString => false
  | String x a', String y b' => if Ascii.eqb x y then str_ltb a' b' else (nat_of_ascii x <? nat_of_ascii y)%nat
  end.
Definition token_eqb (a b : token) : bool :=
  match a, b with TokInt n, TokInt k => Z.eqb n k | TokStr s, TokStr t => String.eqb s t | _, _ => false end.
(** list < list: decided by the first difference; an integer and a string cannot be compared (TypeError) *)
Fixpoint key_lt (a b : list token) : res bool :=
  match a, b with
  | [], [] => Ok false
  | [], _ :: _ => Ok true
  | _ :: _, [] => Ok false
  | x :: a', y :: b' => if token_eqb x y then key_lt a' b' else
                        match x, y with
                        | TokInt n, TokInt k => Ok (Z.ltb n k)
                        | TokStr s, TokStr t => Ok (str_ltb s t)
                        | _, _ => Err TypeError
                        end
  end.
(** sorted(files, key=alphanum), a stable sort.  With keys that cannot be compared Python raises TypeError if it happens to
    compare them; here it is always raised. *)
Fixpoint insert_file (x : string) (l : list string) : res (list string) :=
  match l with
  | [] => Ok [x]
  | y :: r => let! b := key_lt (alphanum y) (alphanum x) in
              let! r' := insert_file x r in
              Ok (if b then y :: r' else x :: y :: r)
  end.
Fixpoint sort_files (l : list string) : res (list string) :=
  match l with
  | [] => Ok []
  | x :: r => let! r' := sort_files r in insert_file x r'
  end.
Record MergeOpts := mkMO { mo_files : list string; mo_out : string; mo_sort : bool; mo_signif : option R }.
(** 36-53 the files that are merged, in order *)
Definition merge_files (glob : string -> list string) (o : MergeOpts) : res (list string) :=
  let files := concat (map (expand_spec glob) (mo_files o)) in
  if mo_sort o then sort_files files else Ok files.
(** 55-60 one file *)
Definition load_one (E : Env) (C : Codec) (f : fs) (o : MergeOpts) (path : string) : res (Model * Internal) :=
  match f path with
  | None => Err IOError
  | Some _ => let! mi := model_create E C f path in
              match mo_signif o with Some z => prune_samples E mi z | None => Ok mi end
  end.
(** 29-66 run *)
Definition merge_run (E : Env) (C : Codec) (w : string -> bool) (glob : string -> list string) (o : MergeOpts) (f : fs) : res (list fsop * option exn) :=
  let! files := merge_files glob o in
  let! models := mapM (load_one E C f o) files in
  match models with
  | [] => Err ValueError
  | target :: rest => let! r := merge_models target rest in
                      model_save E C w (fst (fst r)) (mo_out o) None
  end.

(** ** merge_channels.py *)
Record MergeSpec := mkMS { ms_name : string; ms_channels : list string; ms_ranges : option (list (R * R)) }.
(** 59-64 one channel of a specification: its name, and the range if given *)
Definition channel_spec (pf : string -> option R) (s : string) : res (string * option (R * R)) :=
  match split ":" s with
  | [c] => Ok (c, None)
  | [c; lo; hi] => match pf lo, pf hi with Some a, Some b => Ok (c, Some (a, b)) | _, _ => Err ValueError end
  | _ => Err ValueError
  end.
(** 53-69 one specification *)
Definition merge_spec (pf : string -> option R) (s : string) : res MergeSpec :=
  match split "=" s with
  | name :: chans :: _ =>
    let! l := mapM (channel_spec pf) (split "," chans) in
    let ranges := flat_map (fun c => match snd c with Some r => [r] | None => [] end) l in
    if (length ranges =? 0)%nat then Ok (mkMS name (map fst l) None)
    else if (length ranges =? length l)%nat then Ok (mkMS name (map fst l) (Some ranges))
    else Err ValueError
  | _ => Err ValueError
  end.
(** 50-72: any exception becomes a ValueError *)
Definition merge_specs (pf : string -> option R) (s : string) : res (list MergeSpec) :=
  match mapM (merge_spec pf) (split "~" (no_blank s)) with Ok l => Ok l | Err _ => Err ValueError end.
Record ChanOpts := mkCO { co_model : string; co_data : option string; co_out : string; co_channels : string; co_name : option string; co_unit : option string; co_verbosity : Z }.
(** 74-80 the loop.  The state: the current model, whose description is the verbosity of the model it was made from once it is the result
    of a merge, and the current dataset.  When the check of the merger fails the model becomes None, and the dataset too (its merge_data does
    the same check); using None afterwards raises AttributeError. *)
Record ChanState := mkChanS { cs_model : option (Model * Internal); cs_descr : Z; cs_verb : Z; cs_data : option (Data * option string) }.
Definition merge_step (E : Env) (o : ChanOpts) (st : ChanState) (sp : MergeSpec) : res ChanState :=
  match cs_model st with
  | None => Err AttributeError
  | Some (m, it) =>
    let! r := merge_channels E m (ms_channels sp) (ms_name sp) (ms_ranges sp) (co_name o) (co_unit o) in
    match r with
    | None => Ok (mkChanS None 0 0 None)
    | Some (chs', mi') =>
      let! d := match cs_data st with
                | None => Ok None
                | Some (d, _) => let! d' := merge_data (with_channels m chs') (with_ichannels it chs') (ms_channels sp) d mi' in
                                 Ok (match d' with Some x => Some (x, None) | None => None end)
                end in
      Ok (mkChanS (Some mi') (cs_verb st) 0 d)
    end
  end.
(** 33-82 run; 81-82 the files are written one after the other.  '%s.json' % output_file is used as it is given. *)
Definition chan_run (E : Env) (C : Codec) (w : string -> bool) (pf : string -> option R) (o : ChanOpts) (f : fs) : res (list fsop * option exn) :=
  let! mi := model_create E C f (co_model o) in
  let! d := match co_data o with
            | None => Ok None
            | Some p => if String.eqb p "" then Ok None else let! x := data_create C f mi p in Ok (Some x)
            end in
  let! specs := merge_specs pf (co_channels o) in
  let! st := foldM (merge_step E o) specs (mkChanS (Some mi) 0 (co_verbosity o) d) in
  match cs_model st with
  | None => Err AttributeError
  | Some (m, it) =>
    let! sd := match specs with [] => model_fill E m [] | _ => merged_fill E m (cs_descr st) [] end in
    let '(ops, e) := save_ops C w (co_out o ++ ".json")%string None sd in
    match e, cs_data st with
    | None, Some (x, descr) => match data_save C w m it x descr (co_out o ++ "_data.json")%string None with
                               | Ok (ops', e') => Ok (ops ++ ops', e')
                               | Err e' => Ok (ops, Some e')
                               end
    | _, _ => Ok (ops, e)
    end
  end.

(** ** reparam_model.py *)
Record RepOpts := mkRO { ro_model : string; ro_out : string; ro_norms : option string; ro_file : option string; ro_exprs : option string;
  ro_add : option string; ro_remove : option string; ro_repl : option string }.
(** dictionary with pairs of names as keys: norms[(channel, sample)] = norm *)
Fixpoint norm_set (k : string * string) (n : norm) (l : list (string * string * norm)) : list (string * string * norm) :=
  match l with
  | [] => [(k, n)]
  | (k', n') :: r => if (String.eqb (fst k) (fst k') && String.eqb (snd k) (snd k'))%bool then (k', n) :: r else (k', n') :: norm_set k n r
  end.
(** 66-68 norms of the option file *)
Definition file_norms (E : Env) (fd : dict jv) : res (list (string * string * norm)) :=
  match dget "norms" fd with
  | None => Ok []
  | Some v => let! l := jlist v in
              foldM (fun acc x => let! c := bind (jget "channel" x) jstr in let! s := bind (jget "sample" x) jstr in
                                  let! nv := jget "norm" x in let! n := norm_instantiate (e_float E) [("norm", nv)] in
                                  Ok (norm_set (c, s) n acc)) l []
  end.
(** 78-83 one norm of the command line: a missing sample or channel name is the pattern '.*' *)
Definition norm_spec (E : Env) (spec : string) : res ((string * string) * norm) :=
  let! f := match split ":" spec with
            | [n] => Ok (".*", ".*", n)
            | [s; n] => Ok (".*", s, n)
            | c :: s :: n :: _ => Ok (c, s, n)
            | [] => Err IndexError
            end in
  let '(c, s, n) := f in let! nm := norm_instantiate (e_float E) [("norm", JStr n)] in Ok ((c, s), nm).
(** s.replace(' ', '').replace('\n', '').split(',') without the empty ones *)
Definition spec_list (s : string) : list string := filter (fun x => negb (String.eqb x "")) (split "," (no_blank s)).
(** any exception becomes a ValueError *)
Definition or_value_error {A} (r : res A) : res A := match r with Ok a => Ok a | Err _ => Err ValueError end.
Definition line_norms (E : Env) (o : option string) (acc : list (string * string * norm)) : res (list (string * string * norm)) :=
  match o with
  | None => Ok acc
  | Some s => or_value_error (foldM (fun acc sp => let! kn := norm_spec E sp in Ok (norm_set (fst kn) (snd kn) acc)) (spec_list s) acc)
  end.
(** 91-94 expressions of the option file *)
Definition file_exprs (fd : dict jv) : res (list expr) :=
  match dget "expressions" fd with
  | None => Ok []
  | Some v => let! l := jlist v in mapM (fun x => match x with JObj d => expr_instantiate d | _ => Err TypeError end) l
  end.
(** 104-121 one expression of the command line *)
Definition expr_spec (pf : string -> option R) (spec : string) : res expr :=
  let! f := match split ":" spec with
            | [n; fm] => Ok (n, "formula", fm)
            | n :: t :: dta :: _ => Ok (n, t, dta)
            | _ => Err ValueError
            end in
  let '(n, t, dta) := f in
  if String.eqb t "formula" then expr_instantiate [("name", JStr n); ("type", JStr t); ("formula", JStr dta)]
  else if String.eqb t "linear_combination" then
    let! co := foldM (fun acc pc => match split "*" pc with
                                    | [p; c] => match pf c with Some x => Ok (dset p (JFlt x) acc) | None => Err ValueError end
                                    | _ => Err ValueError
                                    end) (split "#" dta) [] in
    expr_instantiate [("name", JStr n); ("type", JStr t); ("coeffs", JObj co)]
  else Err ValueError.
Definition line_exprs (pf : string -> option R) (o : option string) : res (list expr) :=
  match o with None => Ok [] | Some s => or_value_error (mapM (expr_spec pf) (spec_list s)) end.
(** 132-139 and 141-148 replacement values.  Those of the command line remain strings. *)
Definition file_repl (fd : dict jv) : res (dict sval) :=
  match dget "replacements" fd with
  | None => Ok []
  | Some (JObj d) => Ok (fold_left (fun acc kv => dset (fst kv) (match jnum (snd kv) with Some x => SNum x | None => SStr "" end) acc) d [])
  | Some _ => Err AttributeError
  end.
Definition line_repl (o : option string) (acc : dict sval) : res (dict sval) :=
  match o with
  | None => Ok acc
  | Some s => foldM (fun acc sp => match split ":" (no_space sp) with [p; v] => Ok (dset p (SStr v) acc) | _ => Err ValueError end) (split "," s) acc
  end.
(** 150-159 POIs of the option file, by name *)
Definition file_pois (fd : dict jv) : res (dict POI) :=
  match dget "POIs" fd with
  | None => Ok []
  | Some v => let! l := jlist v in
              foldM (fun acc x => match x with
                                  | JObj d => let! _ := dgetE "name" d in let! p := poi_load None d in
                                              let! n := name_of (poi_name p) in Ok (dset n p acc)
                                  | _ => Err TypeError
                                  end) l []
  end.
(** a string as replacement value is refused by every arithmetic operation (TypeError): it is handed to [remove_pois] as no value at all,
    which is refused in the same places, with a KeyError. *)
Definition usable (d : dict sval) : dict R := flat_map (fun kv => match snd kv with SNum x => [(fst kv, x)] | SStr _ => [] end) d.
(** 186-191 default replacements: the initial value of the POI, read in the modified model *)
Definition default_repl (m : Model) (l : list string) (d : dict sval) : res (dict sval) :=
  foldM (fun d n => if dmem n d then Ok d else
                    let! p := dgetE n (m_pois m) in
                    Ok (dset n (match poi_initial p with Some x => SNum x | None => SStr "" end) d)) l d.
(** what is to be done, from the file and the command line *)
Record RepPlan := mkRP { rp_norms : list (string * string * norm); rp_exprs : list expr; rp_addp : list POI; rp_change : list POI;
  rp_remove : list string; rp_repl : dict sval; rp_file : dict POI }.
(** 177-195 the changes made to the model *)
Definition change_pois (m : Model) (l : list POI) : res Model :=
  foldM (fun m p => let! n := name_of (poi_name p) in Ok (with_pois m (dset n p (m_pois m)))) l m.
Definition reorder_pois (m : Model) (file : dict POI) : res Model :=
  match file with
  | [] => Ok m
  | _ => let! ps := mapM (fun n => let! p := dgetE n (m_pois m) in Ok (n, p)) (keys file) in Ok (with_pois m ps)
  end.
Definition rep_apply (fuel : nat) (rmatch : string -> string -> bool) (p : RepPlan) (m : Model) : res Model :=
  let! m1 := add_pois m (rp_addp p) in
  let! m2 := add_expressions m1 (rp_exprs p) in
  let! m3 := match rp_norms p with [] => Ok m2 | l => update_norms rmatch m2 l end in
  let! m4 := change_pois m3 (rp_change p) in
  let! m5 := match rp_remove p with
             | [] => Ok m4
             | l => let! vals := default_repl m4 l (rp_repl p) in remove_pois fuel rmatch m4 l (usable vals)
             end in
  reorder_pois m5 (rp_file p).
Definition new_to (m : Model) (p : POI) : bool := match poi_name p with Some n => negb (dmem n (m_pois m)) | None => true end.
(** 50-175 the plan.  [None]: the function returns without doing anything (a message is printed). *)
Definition or_return {A B} (r : res A) (k : A -> res (option B)) : res (option B) := match r with Ok a => k a | Err _ => Ok None end.
Definition rep_plan (E : Env) (C : Codec) (pf : string -> option R) (o : RepOpts) (m : Model) (f : fs) : res (option RepPlan) :=
  or_return (match ro_file o with
             | None => Ok []
             | Some p => match f p with None => Err IOError | Some text => c_parse C "json" text end
             end) (fun fd =>
  or_return (file_norms E fd) (fun fn =>
  let! norms := line_norms E (ro_norms o) fn in
  or_return (file_exprs fd) (fun fe =>
  let! le := line_exprs pf (ro_exprs o) in
  or_return (file_repl fd) (fun fr =>
  or_return (line_repl (ro_repl o) fr) (fun repl =>
  or_return (file_pois fd) (fun fp =>
  let! ap := match ro_add o with None => Ok [] | Some s => process_pois pf (m_pois m) false s end in
  let has_file := dmem "POIs" fd in
  let all := values fp ++ ap in
  let remove := match ro_remove o with
                | Some s => map no_space (split "," s)
                | None => if has_file then filter (fun n => negb (dmem n fp)) (keys (m_pois m)) else []
                end in
  Ok (Some (mkRP norms (fe ++ le) (filter (new_to m) all) (filter (fun p => negb (new_to m p)) all) remove repl fp)))))))).
(** 36-197 run: [Ok None] when it returns without writing anything *)
Definition rep_run (E : Env) (C : Codec) (w : string -> bool) (pf : string -> option R) (rmatch : string -> string -> bool) (o : RepOpts) (f : fs)
    : res (option (list fsop * option exn)) :=
  let! mi := model_create E C f (ro_model o) in
  let! pl := rep_plan E C pf o (fst mi) f in
  match pl with
  | None => Ok None
  | Some p => let! m' := rep_apply (e_fuel E) rmatch p (fst mi) in
              let! r := model_save E C w m' (ro_out o) None in Ok (Some r)
  end.
