(** Model of src/fastprof/sample.py : samples, impacts of the NPs on the yields. *)
From Verif Require Import Py Base Expressions Norms RSort.
Local Open Scope string_scope.
Local Open Scope list_scope.

(** sample.py:61-80 Sample.  The impacts are kept as the raw markup, as in the code.
    pos_vars.. neg_imps are caches of impact_coefficients that nothing else reads back. *)
Record Sample := mkSample {
  s_name : string;
  s_norm : norm;
  s_nominal_norm : option R;
  s_yields : option (list R);
  s_impacts : dict jv }.

(** sample.py:348-362 load_dict.  Null names and null impacts are accepted by the code and fail on first use;
    they are reported as TypeError here. *)
Definition sample_load (float_of : string -> option R) (sdict : dict jv) : res Sample :=
  let! name := bind (load_field "name" sdict (JStr "") [TStr]) as_str in
  let! nrm := norm_instantiate float_of sdict in
  let! nn := bind (load_field "nominal_norm" sdict JNull [TFloat; TInt]) as_onum in
  let! y := load_field "nominal_yields" sdict JNull [TNdarray] in
  let! yields := match y with FVal JNull => Ok None | FArr a => Ok (Some a) | FVal _ => Err TypeError end in
  let! im := load_field "impacts" sdict (JObj []) [TDict] in
  let! impacts := match im with FVal (JObj d) => Ok d | _ => Err TypeError end in
  Ok (mkSample name nrm nn yields impacts).

(** sample.py:364-374 fill_dict (unnumpy is the identity on the modelled values) *)
Definition sample_fill (s : Sample) (sdict : dict jv) : dict jv :=
  let d := dset "name" (JStr (s_name s)) sdict in
  let d := norm_fill (s_norm s) d in
  let d := dset "nominal_norm" (jnum_of (s_nominal_norm s)) d in
  let d := dset "nominal_yields" (match s_yields s with Some l => JList (map JFlt l) | None => JNull end) d in
  dset "impacts" (JObj (s_impacts s)) d.

(** sample.py:120-137 set_np_data.  [nps] lists (name, nominal value, variation).  The try/except of 122-129 turns any
    exception into nominal_norm = 1; a null norm gives nominal_norm None. *)
Definition set_np_data (fuel : nat) (fmt : R -> string) (nps : list (string * R * R)) (rls : dict expr) (rv : dict R)
    (variation : R) (s : Sample) : res Sample :=
  let nominal_pars := fold_left (fun d p => dset (fst (fst p)) (snd (fst p)) d) nps [] in
  let nn := match s_nominal_norm s with
            | Some x => Some x
            | None => match s_norm s with
                      | NumberNorm None => None
                      | n => match norm_value n nominal_pars with Ok x => Some x | Err _ => Some 1 end
                      end
            end in
  let! yields := match s_yields s with
                 | Some y => Ok (Some y)
                 | None => match nn with Some x => Ok (Some [x]) | None => Err TypeError end
                 end in
  let! impacts := foldM (fun imps p =>
      if dmem (fst (fst p)) imps then Ok imps
      else let! im := implicit_impact fuel fmt (s_norm s) (fst (fst p)) (snd (fst p)) (snd p) rls rv variation in
           match im with None => Ok imps | Some d => Ok (dset (fst (fst p)) (JObj d) imps) end)
    nps (s_impacts s) in
  Ok (mkSample (s_name s) (s_norm s) nn yields impacts).

(** sample.py:139-152 available_variations, called with a parameter name *)
Definition variation_key (float_of : string -> option R) (k : string) : res R :=
  if String.eqb k "pos" then Ok 1 else if String.eqb k "neg" then Ok (-1)
  else match float_of k with Some x => Ok x | None => Err ValueError end.
Definition available_variations (float_of : string -> option R) (s : Sample) (par : string) : res (list R) :=
  match dget par (s_impacts s) with
  | None => Ok [1; -1]
  | Some (JFlt _) => Ok [1; -1]
  | Some (JList []) | Some (JObj []) => Ok []
  | Some (JStr st) => if String.eqb st "" then Ok [] else Err AttributeError
  | Some (JObj d) => mapM (variation_key float_of) (keys d)
  | Some (JList (JObj d :: _)) => mapM (variation_key float_of) (keys d)
  | Some (JList _) => Err AttributeError
  | Some _ => Err TypeError
  end.

(** one entry of a table of impacts, as a float (numerical strings and nulls, which numpy would convert, are
    reported as TypeError) *)
Definition table_entry (key : string) (v : jv) : res R :=
  match v with
  | JObj d => let! x := dgetE key d in match jnum x with Some r => Ok r | None => Err TypeError end
  | _ => Err TypeError
  end.

(** len(self.nominal_yields), TypeError when it is None *)
Definition nyields (s : Sample) : res nat :=
  match s_yields s with Some y => Ok (length y) | None => Err TypeError end.

(** sample.py:154-184 impact (normalize=False).  None when the stored impact is of another type. *)
Definition impact (fmt : R -> string) (s : Sample) (par : string) (variation : R) : res (option (list R)) :=
  match dget par (s_impacts s) with
  | None => let! n := nyields s in Ok (Some (repeat 0 n))
  | Some (JList l) => let! a := mapM (table_entry (fmt variation)) l in Ok (Some a)
  | Some (JObj d) => let! x := table_entry (fmt variation) (JObj d) in let! n := nyields s in Ok (Some (repeat x n))
  | Some (JFlt x) => let! n := nyields s in Ok (Some (repeat (x * variation) n))
  | Some _ => Ok None
  end.

(** sample.py:248-262 sym_impact: 0.5*(impact(+1) - impact(-1)); any exception gives impact(+1).
    numpy broadcasting: equal lengths, or one of length 1. *)
Definition np_sub (a b : list R) : res (list R) :=
  if (length a =? length b)%nat then Ok (zipwith Rminus a b)
  else match a, b with
       | [x], _ => Ok (map (fun y => x - y) b)
       | _, [y] => Ok (map (fun x => x - y) a)
       | _, _ => Err ValueError
       end.
Definition sym_impact (fmt : R -> string) (s : Sample) (par : string) : res (option (list R)) :=
  let half := let! a := impact fmt s par 1 in
              let! b := impact fmt s par (-1) in
              match a, b with
              | Some x, Some y => let! d := np_sub x y in Ok (Some (map (Rmult (1 / 2)) d))
              | _, _ => Err TypeError
              end in
  match half with
  | Ok r => Ok r
  | Err _ => impact fmt s par 1
  end.

(** sample.py:236-246 interpolate_impact.  [inv n m] is np.linalg.inv on n x n matrices. *)
Definition vandermonde (pos : list R) : mat := fun i n => nth i pos 0 ^ (n + 1).
Definition interpolate_impact (inv : nat -> mat -> res mat) (pos impacts : list R) : res vec :=
  if negb (length pos =? length impacts)%nat then Err ValueError
  else let! m := inv (length pos) (vandermonde pos) in
       Ok (fun n => rsum (length pos) (fun k => m n k * nth k impacts 0)).

(** sample.py:217,219,224 np.log(np.maximum(np.minimum(1 + imp, 100), 1/100)), or imp in linear mode *)
Definition impact_scale (is_log : bool) (imp : R) : R :=
  if is_log then ln (Rmax (Rmin (1 + imp) 100) (1 / 100)) else imp.

(** one side of impact_coefficients: from the list of variations and the per-variation per-bin impacts, the
    coefficients [order][bin].  [single] is the test of line 214, made on the positive variations only. *)
Definition side_coefficients (inv : nat -> mat -> res mat) (is_log single : bool)
    (vars : list R) (imps : list (list R)) : res (list (list R)) :=
  let nbins := match imps with im :: _ => length im | [] => 0%nat end in
  if single then
    match vars, imps with
    | v :: _, im :: _ => Ok [map (fun x => impact_scale is_log x / v) im]      (* 216-219 *)
    | _, _ => Err IndexError
    end
  else
    let! per_bin := mapM (fun b => interpolate_impact inv vars (map (fun im => impact_scale is_log (nth b im 0)) imps))
                         (seq 0 nbins) in                                      (* 224-228 *)
    Ok (map (fun n => map (fun c : vec => c n) per_bin) (seq 0 (length vars))).

(** sample.py:186-234 impact_coefficients with variations=None *)
Definition impact_coefficients (float_of : string -> option R) (fmt : R -> string) (inv : nat -> mat -> res mat)
    (s : Sample) (par : string) (is_log : bool) : res (list (list R) * list (list R)) :=
  let! available := available_variations float_of s par in
  let pos_vars := rsort (filter (fun v => Rltb 0 v) available) in
  let neg_vars := rsort (filter (fun v => Rltb v 0) available) in
  let get := fun v => let! r := impact fmt s par v in
                      match r with Some l => Ok l | None => Err TypeError end in
  let! pos_imps := mapM get pos_vars in
  let! neg_imps := mapM get neg_vars in
  let single := (length pos_vars =? 1)%nat in
  let! pc := side_coefficients inv is_log single pos_vars pos_imps in
  let! nc := side_coefficients inv is_log single neg_vars neg_imps in
  Ok (pc, nc).

(** sample.py:264-272 normalization.  A Python number divided by zero raises, a numpy scalar (the values of
    parameters and expressions) gives inf or nan. *)
Definition normalization (s : Sample) (real_vals : dict R) : res R :=
  let! v := norm_value (s_norm s) real_vals in
  match s_nominal_norm s with
  | None => Err TypeError
  | Some nn => if Reqb nn 0 then Err (match s_norm s with NumberNorm _ => ZeroDivisionError | ExprNorm _ => NonFinite end)
               else Ok (v / nn)
  end.

(** sample.py:274-282 yields *)
Definition sample_yields (s : Sample) (real_vals : dict R) : res (list R) :=
  let! n := normalization s real_vals in
  match s_yields s with None => Err TypeError | Some y => Ok (map (Rmult n) y) end.

(** sample.py:284-299 gradient: [bin][poi], 301-316 hessian: [bin][poi][poi] *)
Definition sample_gradient (fuel : nat) (s : Sample) (pois : list string) (rls : dict expr) (rv : dict R) : res (list vec) :=
  let! g := norm_gradient_of fuel (s_norm s) pois rls rv in
  match s_yields s, s_nominal_norm s with
  | Some y, Some nn => if Reqb nn 0 then Err NonFinite else Ok (map (fun yb i => yb * g i / nn) y)
  | _, _ => Err TypeError
  end.
Definition sample_hessian (fuel : nat) (s : Sample) (pois : list string) (rls : dict expr) (rv : dict R) : res (list mat) :=
  let! h := norm_hessian_of fuel (s_norm s) pois rls rv in
  match s_yields s, s_nominal_norm s with
  | Some y, Some nn => if Reqb nn 0 then Err NonFinite else Ok (map (fun yb i j => yb * h i j / nn) y)
  | _, _ => Err TypeError
  end.
