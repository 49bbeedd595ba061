(** Model of src/fastprof_import/convert_ws.py: conversion of a ROOT workspace.

    The workspace is seen through the values of its variables ([env]) and through the functions of these values that ROOT
    computes (the integral of the channel PDF over a bin, or the Poisson mean): universally quantified functions here.
    Variables have ranges: setVal moves a value outside of the range to the nearest bound, as ROOT does.  The identification
    of PDFs, observables and datasets (run, 100-330), printing and the writing of files are not modelled, except for the
    parts below. *)
From Verif Require Import Py Base Expressions Norms Sample.
Local Open Scope string_scope.
Local Open Scope list_scope.
Local Open Scope R_scope.

(** the values of the workspace variables *)
Definition env := string -> R.
(** range of each variable *)
Definition ranges := string -> option R * option R.
Definition clip (r : option R * option R) (v : R) : R :=
  let v := match fst r with Some lo => if Rltb v lo then lo else v | None => v end in
  match snd r with Some hi => if Rltb hi v then hi else v | None => v end.
(** RooRealVar.setVal *)
Definition setval (rng : ranges) (n : string) (v : R) (e : env) : env :=
  fun x => if String.eqb x n then clip (rng n) v else e x.

(** convert_ws.py:63 WSSample, with the attributes set in 538-733.  [w_valid] holds the rows [sample, bin, point] of
    channel.valid_data that belong to the sample, for each NP. *)
Record WSample := mkWS {
  w_name : string;
  w_norm : option string;            (* normpar *)
  w_nn : R;                          (* nominal_norm *)
  w_save : R;                        (* normpar_save *)
  w_yields : dict R;                 (* yields *)
  w_nom : list R;                    (* nominal_yields *)
  w_imps : dict (list (dict R));     (* impacts *)
  w_valid : dict (list (list R)) }.
Definition with_nn (x : R) (s : WSample) := mkWS (w_name s) (w_norm s) x (w_save s) (w_yields s) (w_nom s) (w_imps s) (w_valid s).
Definition with_save (x : R) (s : WSample) := mkWS (w_name s) (w_norm s) (w_nn s) x (w_yields s) (w_nom s) (w_imps s) (w_valid s).
Definition with_yield (k : string) (x : R) (s : WSample) := mkWS (w_name s) (w_norm s) (w_nn s) (w_save s) (dset k x (w_yields s)) (w_nom s) (w_imps s) (w_valid s).
Definition with_nom (l : list R) (s : WSample) := mkWS (w_name s) (w_norm s) (w_nn s) (w_save s) (w_yields s) l (w_imps s) (w_valid s).
Definition with_imps (d : dict (list (dict R))) (s : WSample) := mkWS (w_name s) (w_norm s) (w_nn s) (w_save s) (w_yields s) (w_nom s) d (w_valid s).
Definition with_valid (d : dict (list (list R))) (s : WSample) := mkWS (w_name s) (w_norm s) (w_nn s) (w_save s) (w_yields s) (w_nom s) (w_imps s) d.

(** convert_ws.py:625-628 save_normpars, 630-633 save_nominal *)
Definition save_normpars (e : env) (l : list WSample) : list WSample :=
  map (fun s => match w_norm s with Some n => with_save (e n) s | None => s end) l.
Definition save_nominal (e : env) (l : list WSample) : list WSample :=
  map (fun s => match w_norm s with Some n => with_nn (e n) s | None => s end) l.
(** convert_ws.py:635-638 set_normpars *)
Definition set_normpars (rng : ranges) (value : option R) (l : list WSample) (e : env) : env :=
  fold_left (fun e s => match w_norm s with
                        | Some n => setval rng n (match value with None => w_nn s | Some v => v end) e
                        | None => e
                        end) l e.

(** convert_ws.py:642-653 fill_yields.  [I] is integral(channel) (619-623) for the current bin; [dflt] is the position of
    channel.default_sample in channel.samples. *)
Fixpoint fill_samples (rng : ranges) (I : env -> R) (key : string) (nun : R) (l : list WSample) (e : env) : list WSample * env :=
  match l with
  | [] => ([], e)
  | s :: l' =>
    match w_norm s with
    | None => let r := fill_samples rng I key nun l' e in (with_yield key 0 s :: fst r, snd r)
    | Some n =>
      let e1 := setval rng n (w_save s) e in
      let y := I e1 - nun in
      let e2 := setval rng n 0 e1 in
      let r := fill_samples rng I key nun l' e2 in (with_yield key y s :: fst r, snd r)
    end
  end.
Fixpoint add_default (dflt : nat) (key : string) (nun : R) (l : list WSample) : list WSample :=
  match l, dflt with
  | [], _ => []
  | s :: l', O => with_yield key (match dget key (w_yields s) with Some y => y | None => 0 end + nun) s :: l'
  | s :: l', S d => s :: add_default d key nun l'
  end.
Definition fill_yields (rng : ranges) (I : env -> R) (dflt : nat) (key : string) (l : list WSample) (e : env) : list WSample * env :=
  let l1 := save_normpars e l in
  let e1 := set_normpars rng (Some 0) l1 e in
  let nun := I e1 in
  let r := fill_samples rng I key nun l1 e1 in
  (add_default dflt key nun (fst r), snd r).

(** x**y on Python floats.  A negative number to a power other than 1: a complex number comes out, which json.dump refuses;
    TypeError here (whole powers other than 1, for which it would be a float, included). *)
Definition py_pow (x y : R) : res R :=
  if Reqb y 1 then Ok x
  else if Rltb 0 x then Ok (Rpower x y)
  else if Reqb x 0 then (if Rltb 0 y then Ok 0 else if Reqb y 0 then Ok 1 else Err ZeroDivisionError)
  else Err TypeError.
(** an NP of the workspace: NuisancePar of convert_ws.py:196-207 with nominal and error of 343-358 *)
Record WPar := mkWPar { p_name : string; p_nominal : R; p_error : R }.

(** l[-1][k] = x *)
Fixpoint set_last (k : string) (x : R) (l : list (dict R)) : list (dict R) :=
  match l with
  | [] => []
  | [d] => [dset k x d]
  | d :: l' => d :: set_last k x l'
  end.
(** convert_ws.py:715-717: impact of the current variation, appended to the table of the current bin *)
Definition sample_impact (eps : R) (s : WSample) : res R :=
  let! v := dgetE "var" (w_yields s) in
  let! n := dgetE "nominal" (w_yields s) in
  if Reqb n 0 then Ok 0
  else if Reqb eps 0 then Err ZeroDivisionError else let! p := py_pow (v / n) (1 / eps) in Ok (p - 1).
Definition record_impact (fmt : R -> string) (eps : R) (par : string) (v : R) (s : WSample) : res WSample :=
  let! x := sample_impact eps s in
  let! t := dgetE par (w_imps s) in
  Ok (with_imps (dset par (set_last (fmt v) x t) (w_imps s)) s).
(** convert_ws.py:705-717, one variation of one NP in one bin.  [fmt] is '%+g'. *)
Definition do_variation (rng : ranges) (fmt : R -> string) (eps : R) (I : env -> R) (dflt : nat) (p : WPar)
    (st : list WSample * env) (v : R) : res (list WSample * env) :=
  let e1 := set_normpars rng None (fst st) (snd st) in
  let e2 := setval rng (p_name p) (p_nominal p + v * (p_error p * eps)) e1 in
  let r := fill_yields rng I dflt "var" (fst st) e2 in
  let e4 := setval rng (p_name p) (p_nominal p) (snd r) in
  let! l := mapM (record_impact fmt eps (p_name p) v) (fst r) in Ok (l, e4).
(** convert_ws.py:724-730, one validation point of one NP in one bin.  [trim] is trim_float(., options.digits); the bin is the last one
    of the rows kept so far. *)
Fixpoint push_last (x : R) (l : list (list R)) : list (list R) :=
  match l with
  | [] => []
  | [r] => [r ++ [x]]
  | r :: l' => r :: push_last x l'
  end.
Definition record_valid (trim : R -> R) (par : string) (s : WSample) : res WSample :=
  let! v := dgetE "valid" (w_yields s) in
  let! n := dgetE "nominal" (w_yields s) in
  let! t := dgetE par (w_valid s) in
  Ok (with_valid (dset par (push_last (trim (v / Rmax n (1 / 100000))) t) (w_valid s)) s).
Definition do_valid (rng : ranges) (trim : R -> R) (I : env -> R) (dflt : nat) (p : WPar) (st : list WSample * env) (v : R) : res (list WSample * env) :=
  let e1 := set_normpars rng None (fst st) (snd st) in
  let e2 := setval rng (p_name p) (p_nominal p + v * p_error p) e1 in
  let r := fill_yields rng I dflt "valid" (fst st) e2 in
  let e4 := setval rng (p_name p) (p_nominal p) (snd r) in
  let! l := mapM (record_valid trim (p_name p)) (fst r) in Ok (l, e4).
(** convert_ws.py:700-731, one NP in one bin; [valid] is the list of validation points, None without the option *)
Definition new_bin (par : string) (s : WSample) : res WSample :=
  let! t := dgetE par (w_imps s) in Ok (with_imps (dset par (t ++ [[]]) (w_imps s)) s).
Definition new_valid_bin (par : string) (s : WSample) : res WSample :=
  let! t := dgetE par (w_valid s) in Ok (with_valid (dset par (t ++ [[]]) (w_valid s)) s).
Definition do_par (rng : ranges) (fmt : R -> string) (trim : R -> R) (eps : R) (I : env -> R) (dflt : nat) (variations : list R) (valid : option (list R))
    (st : list WSample * env) (p : WPar) : res (list WSample * env) :=
  let! l := mapM (new_bin (p_name p)) (fst st) in
  let! st1 := foldM (do_variation rng fmt eps I dflt p) variations (l, snd st) in
  match valid with
  | None => Ok st1
  | Some pts => let! l := mapM (new_valid_bin (p_name p)) (fst st1) in foldM (do_valid rng trim I dflt p) pts (l, snd st1)
  end.
(** convert_ws.py:677-731, one bin *)
Definition set_nominal (trim : R -> R) (b : nat) (s : WSample) : res WSample :=
  let! y := dgetE "nominal" (w_yields s) in Ok (with_nom (set_nth b (trim y) (w_nom s)) s).
Definition do_bin (rng : ranges) (fmt : R -> string) (trim : R -> R) (eps : R) (I : nat -> env -> R) (dflt : nat) (pars : list WPar) (variations : list R)
    (valid : option (list R)) (st : list WSample * env) (b : nat) : res (list WSample * env) :=
  let e1 := set_normpars rng None (fst st) (snd st) in
  let r := fill_yields rng (I b) dflt "nominal" (fst st) e1 in
  let! l := mapM (set_nominal trim b) (fst r) in
  foldM (do_par rng fmt trim eps (I b) dflt variations valid) pars (l, snd r).
(** convert_ws.py:657-733 fill_channel_yields.  666-669: the values are set to the nominal ones and back to zero. *)
Definition init_sample (nbins : nat) (pars : list WPar) (s : WSample) : WSample :=
  mkWS (w_name s) (w_norm s) (w_nn s) (w_save s) [] (repeat 0 nbins)
    (fold_left (fun d p => dset (p_name p) [] d) pars []) (fold_left (fun d p => dset (p_name p) [] d) pars []).
Definition reset_normpars (rng : ranges) (l : list WSample) (e : env) : env :=
  fold_left (fun e s => match w_norm s with Some n => setval rng n 0 (setval rng n (w_nn s) e) | None => e end) l e.
Definition fill_channel_yields (rng : ranges) (fmt : R -> string) (trim : R -> R) (eps : R) (I : nat -> env -> R) (nbins dflt : nat) (pars : list WPar)
    (variations : list R) (valid : option (list R)) (samples : list WSample) (e : env) : res (list WSample * env) :=
  let l0 := save_nominal e samples in
  let e1 := reset_normpars rng l0 (set_normpars rng (Some 0) l0 e) in
  let l1 := map (init_sample nbins pars) l0 in
  let! st := foldM (do_bin rng fmt trim eps I dflt pars variations valid) (seq 0 nbins) (l1, e1) in
  Ok (fst st, set_normpars rng None (fst st) (snd st)).

(** convert_ws.py:360-367: the list of variations: +v and -v for each v of the option *)
Definition variation_list (vs : list R) : list R := flat_map (fun v => [v; - v]) vs.

(** convert_ws.py:757-782 pack.  [trim] is None when num_digits is None.  The result: PNone when no impact is left, POne for the
    average, PMany for the list (whose entries may have been changed in place). *)
Inductive packed := PNone | POne (d : dict R) | PMany (l : list (dict R)).
Definition pack_average (l : list (dict R)) : res (dict R) :=
  match l with
  | [] => Ok []
  | d0 :: _ =>
    let n := INR (length l) in
    foldM (fun avg im => mapM (fun kv => let! x := dgetE (fst kv) im in Ok (fst kv, snd kv + x / n)) avg)
      l (map (fun kv => (fst kv, 0)) d0)
  end.
(** convert_ws.py:764-771, one bin: trims the entries that differ from the average; false if there is one *)
Definition pack_entry (tol : R) (trim : R -> R) (st : dict R * bool) (kv : string * R) : res (dict R * bool) :=
  let! x := dgetE (fst kv) (fst st) in
  if Rltb tol (Rabs (x - snd kv)) then Ok (dset (fst kv) (trim x) (fst st), false) else Ok st.
Definition pack_bin (tol : R) (trim : R -> R) (avg : dict R) (im : dict R) : res (dict R * bool) :=
  foldM (pack_entry tol trim) avg (im, true).
Definition pack (tol : R) (otrim : option (R -> R)) (l : list (dict R)) : res packed :=
  match l with
  | [] => Ok (PMany [])
  | _ =>
    let! avg := pack_average l in
    let trim := match otrim with Some t => t | None => fun x => x end in
    let! r := mapM (pack_bin tol trim avg) l in
    let ok := forallb snd r in
    let avg' := map (fun kv => (fst kv, trim (snd kv))) avg in
    if ok then (if forallb (fun kv => Rleb (Rabs (snd kv)) tol) avg' then Ok PNone else Ok (POne avg'))
    else match otrim with Some _ => Ok (PMany (map fst r)) | None => Ok (PMany l) end
  end.
(** convert_ws.py:375-382: packing of the impacts of a sample *)
Definition pack_impacts (tol : R) (otrim : option (R -> R)) (d : dict (list (dict R))) : res (dict packed) :=
  foldM (fun acc kv => let! p := pack tol otrim (snd kv) in
                       match p with PNone => Ok acc | _ => Ok (dset (fst kv) p acc) end) d [].

(** convert_ws.py:375: without tolerance the impacts are left as they are *)
Definition packing (ptol : option R) (otrim : option (R -> R)) (d : dict (list (dict R))) : res (dict packed) :=
  match ptol with None => Ok (map (fun kv => (fst kv, PMany (snd kv))) d) | Some tol => pack_impacts tol otrim d end.

(** the markup of impacts *)
Definition j_table (d : dict R) : jv := JObj (map (fun kv => (fst kv, JFlt (snd kv))) d).
Definition j_packed (p : packed) : jv := match p with PNone => JNull | POne d => j_table d | PMany l => JList (map j_table l) end.
(** convert_ws.py:446-455, the markup of a sample that is kept; [is_par] says whether a name is a POI or an NP of the model.  The norm
    written is the name of the normalization parameter if it is a parameter of the model, and 1 otherwise. *)
Definition sample_spec (is_par : string -> bool) (impacts : dict packed) (s : WSample) : dict jv :=
  [("name", JStr (w_name s))] ++
  match w_norm s with
  | Some n => if is_par n then [("norm", JStr n); ("nominal_norm", JFlt (w_nn s))] else [("norm", JInt 1)]
  | None => [("norm", JInt 1)]
  end ++
  [("nominal_yields", JList (map JFlt (w_nom s))); ("impacts", JObj (map (fun kv => (fst kv, j_packed (snd kv))) impacts))].
(** convert_ws.py:445 np.count_nonzero(sample.nominal_yields) == 0 *)
Definition all_zero (s : WSample) : bool := forallb (fun y => Reqb y 0) (w_nom s).
(** convert_ws.py:443-455 *)
Definition sample_specs (is_par : string -> bool) (imps : WSample -> dict packed) (l : list WSample) : list (dict jv) :=
  map (fun s => sample_spec is_par (imps s) s) (filter (fun s => negb (all_zero s)) l).

(** convert_ws.py:520-526: the validation rows of the samples without yields are taken out of the list, by their position in the
    original list of samples *)
Definition drop_row {A} (i : nat) (l : list A) : list A := firstn i l ++ skipn (S i) l.
Fixpoint drop_rows {A} (zero : list bool) (i : nat) (rows : list A) : list A :=
  match zero with
  | [] => rows
  | z :: zero' => drop_rows zero' (S i) (if z then drop_row i rows else rows)
  end.
