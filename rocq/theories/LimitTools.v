(** Model of the steps of the command-line programs of src/fastprof_utils that are not calls to the library:
    positions and commands (iterate.py, collect_results.py), collection of results (collect_results.py), parameter bounds
    (compute_limits.py, compute_fast_limits.py, test_hypos.py), cached rasters (compute_fast_limits.py).

    As in UtilTools, [pf] is float() and [pi] int() on strings. *)
From Verif Require Import Py Base Expressions Norms Sample Channels Params Core PoiMin UtilTools.
Local Open Scope string_scope.
Local Open Scope list_scope.

(** * Positions: iterate.py:32-48 and collect_results.py:89-105 (the same code) *)
(** A position: a float, an int (after math.floor) or a string. *)
Inductive posv := PFlt (x : R) | PInt (z : Z) | PStr (s : string).

(** math.floor *)
Definition pfloor (x : R) : Z := Int_part x.
(** np.logspace(1, log(y)/log(x), n, True, x); math.log refuses numbers that are not positive, and log(1) = 0 divides.
    A negative number of points is refused by numpy. *)
Definition logspace (x y : R) (n : Z) : res (list R) :=
  if Rleb y 0 then Err ValueError else if Rleb x 0 then Err ValueError else
  if Reqb (ln x) 0 then Err ZeroDivisionError else
  if (n <? 0)%Z then Err ValueError else Ok (map (fun e => Rpower x e) (linspace 1 (ln y / ln x) (Z.to_nat n) true)).
(** [positions[i] for i], pairs of neighbours (iterate.py:43) *)
Fixpoint midpoints (l : list R) : list Z :=
  match l with
  | x :: ((y :: _) as r) => pfloor ((x + y + 1) / 2) :: midpoints r
  | _ => []
  end.
(** iterate.py 33-48; every exception becomes a ValueError *)
Definition positions (pf : string -> option R) (pi : string -> option Z) (spec : string) : res (list posv) :=
  let lin a b n := match pf a, pf b, pi n with
                   | Some x, Some y, Some k => if (k <? 0)%Z then Err ValueError else Ok (linspace x y (Z.to_nat k) true)
                   | _, _, _ => Err ValueError
                   end in
  let log a b n := match pf b, pf a, pi n with
                   | Some y, Some x, Some k => match logspace x y (k + 1) with Ok l => Ok l | Err _ => Err ValueError end
                   | _, _, _ => Err ValueError
                   end in
  let other := Ok (map PStr (split "," spec)) in
  match split ":" spec with
  | [a; b; n] => let! l := lin a b n in Ok (map PFlt l)
  | [a; b; n; mode] =>
    if String.eqb mode "int" then let! l := lin a b n in Ok (map (fun x => PInt (pfloor x)) l)
    else if String.eqb mode "log" then let! l := log a b n in Ok (map PFlt l)
    else if String.eqb mode "logint" then let! l := log a b n in Ok (map PInt (midpoints l))
    else other
  | _ => other
  end.

(** str.replace of one character *)
Fixpoint replace_char (c : ascii) (by_ s : string) : string :=
  match s with
  | EmptyString => EmptyString
  | String a r => if Ascii.eqb a c then (by_ ++ replace_char c by_ r)%string else String a (replace_char c by_ r)
  end.
(** str.replace('\\n', '\n'): a backslash followed by n becomes a newline *)
Definition backslash : ascii := "092"%char.
Definition newline : ascii := "010"%char.
Fixpoint replace_newline (s : string) : string :=
  match s with
  | String a ((String b r') as r) => if (Ascii.eqb a backslash && Ascii.eqb b "n")%bool then String newline (replace_newline r') else String a (replace_newline r)
  | _ => s
  end.
(** iterate.py:53-54 one command; [str] is str() on a position *)
Definition command (str : posv -> string) (pattern : string) (p : posv) : string :=
  replace_newline (replace_char "%" (str p) (replace_char "*" (str p) pattern)).
(** iterate.py:51-55 *)
Definition script (str : posv -> string) (pattern : string) (l : list posv) : string :=
  fold_left (fun acc p => (acc ++ (command str pattern p ++ String newline EmptyString))%string) l EmptyString.
(** collect_results.py:127 the name of the file of a position *)
Definition result_file (str : posv -> string) (pattern : string) (p : posv) : string := replace_char "%" (str p) (replace_char "*" (str p) pattern).

(** * Collection of results: collect_results.py:108-190 *)
(** float() on a markup value; [pf] on strings *)
Definition pyfloat (pf : string -> option R) (v : jv) : res R :=
  match v with
  | JStr s => match pf s with Some x => Ok x | None => Err ValueError end
  | _ => match jnum v with Some x => Ok x | None => Err TypeError end
  end.
(** What is accumulated for one key.  The lists of the bands are in the order -n..n. *)
Record collected (P : Type) := mkCol { co_bands : list (list R); co_bpos : list P; co_results : list (list R); co_pos : list P }.
Arguments mkCol {P}. Arguments co_bands {P}. Arguments co_bpos {P}. Arguments co_results {P}. Arguments co_pos {P}.

(** collect_results.py 122, 144: the bands, and (145, 148) their keys; '%+d' writes the sign of zero too.  [dec] writes a natural number. *)
Definition band_ids (n : nat) : list Z := map (fun i => (Z.of_nat i - Z.of_nat n)%Z) (seq 0 (2 * n + 1)).
Definition band_key (dec : nat -> string) (key : string) (b : Z) : string :=
  (key ++ "_expected_band_" ++ (if (b <? 0)%Z then "-" else "+") ++ dec (Z.to_nat (Z.abs b)))%string.

(** a value that is there and not null *)
Definition present (k : string) (d : dict jv) : option jv := match dget k d with Some JNull => None | o => o end.

(** collect_results.py 147-149: values are appended to the bands one after the other, until one of them is not a number *)
Fixpoint append_bands (pf : string -> option R) (vals : list jv) (bands : list (list R)) : list (list R) * bool :=
  match vals, bands with
  | v :: vs, b :: bs => match pyfloat pf v with
                        | Ok x => let '(bs', ok) := append_bands pf vs bs in ((b ++ [x]) :: bs', ok)
                        | Err _ => (bands, false)
                        end
  | _, _ => (bands, true)
  end.
(** the values of all keys, if all of them are there *)
Fixpoint all_present (ks : list string) (d : dict jv) : option (list jv) :=
  match ks with
  | [] => Some []
  | k :: ks' => match present k d, all_present ks' d with Some v, Some vs => Some (v :: vs) | _, _ => None end
  end.

(** collect_results.py 127-181 one position of one key.  [read p] is the contents of the file, None if it cannot be opened or parsed (a file
    whose contents are not an object is outside the model).  [nb] is the number of bands, for the first key only.  Only the
    conversions of the results (178, 180) are outside of the try blocks. *)
Definition collect_pos {P} (pf : string -> option R) (dec : nat -> string) (read : P -> option (dict jv)) (nb : option nat) (errors : bool) (key : string)
    (st : collected P) (p : P) : res (collected P) :=
  match read p with
  | None => Ok st
  | Some d =>
    let '(st1, ok) := match nb with
                      | None => (st, true)
                      | Some n => match all_present (map (band_key dec key) (band_ids n)) d with
                                  | None => (st, false)
                                  | Some vs => let '(b', ok) := append_bands pf vs (co_bands st) in
                                               if ok then (mkCol b' (co_bpos st ++ [p]) (co_results st) (co_pos st), true)
                                               else (mkCol b' (co_bpos st) (co_results st) (co_pos st), false)
                                  end
                      end in
    if negb ok then Ok st1 else
    match present key d with
    | None => Ok st1
    | Some v =>
      if errors then
        match present (key ++ "_up")%string d, present (key ++ "_dn")%string d with
        | Some u, Some l => let! x := pyfloat pf v in let! y := pyfloat pf u in let! z := pyfloat pf l in
                            Ok (mkCol (co_bands st1) (co_bpos st1) (co_results st1 ++ [[x; y; z]]) (co_pos st1 ++ [p]))
        | _, _ => Ok st1
        end
      else let! x := pyfloat pf v in Ok (mkCol (co_bands st1) (co_bpos st1) (co_results st1 ++ [[x]]) (co_pos st1 ++ [p]))
    end
  end.
(** collect_results.py 119-126 one key.  -b 0 is the same as no -b (119). *)
Definition collect_key {P} (pf : string -> option R) (dec : nat -> string) (read : P -> option (dict jv)) (nb : option nat) (errors : bool) (ps : list P) (key : string) : res (collected P) :=
  let nb' := match nb with Some 0%nat => None | o => o end in
  foldM (collect_pos pf dec read nb' errors key) ps
    (mkCol (match nb' with Some n => repeat [] (2 * n + 1) | None => [] end) [] [] []).
(** collect_results.py 118-190 all the keys: the bands are for the first one only *)
Definition collect {P} (pf : string -> option R) (dec : nat -> string) (read : P -> option (dict jv)) (nb : option nat) (errors : bool) (ps : list P) (keys : list string)
    : res (list (string * collected P)) :=
  mapM (fun ik => let! c := collect_key pf dec read (if (fst ik =? 0)%nat then nb else None) errors ps (snd ik) in Ok (snd ik, c)) (combine (seq 0 (length keys)) keys).

(** * Bounds: compute_limits.py:132-145, compute_fast_limits.py:130-143, test_hypos.py:85-98 *)
Definition bound_spec (pf : string -> option R) (spec : string) : res (list ParBound) :=
  match split "=" spec with
  | name :: rng :: _ =>
    match split ":" rng with
    | [a; b] => let! x := opt_float pf a in let! y := opt_float pf b in Ok [mkPB name x y]
    | [a] => match pf a with Some x => Ok [mkPB name (Some x) (Some x)] | None => Err ValueError end
    | _ => Ok []
    end
  | _ => Err ValueError (* IndexError, turned into ValueError *)
  end.
Definition parse_bounds (pf : string -> option R) (spec : string) : res (list ParBound) :=
  if String.eqb spec "" then Ok [] else let! l := mapM (bound_spec pf) (split "," spec) in Ok (concat l).

(** * Cached rasters: compute_fast_limits.py:163-180 (test_hypos.py:102-115 is the same without -x) *)
(** One run of the program as far as the raster is concerned: [inputs] stands for everything on the command line (model,
    hypotheses, data, bounds, ...), [compute] for compute_fast_results, [saved] for what saving and loading the raster file
    gives.  A file that exists is loaded; other errors of the loading end the run. *)
Record RunEnv (In Ra : Type) := mkRun { r_compute : In -> res Ra; r_reload : Ra -> res Ra }.
Arguments mkRun {In Ra}. Arguments r_compute {In Ra}. Arguments r_reload {In Ra}.
Definition limit_run {In Ra} (E : RunEnv In Ra) (overwrite : bool) (inputs : In) (file : option Ra) : option Ra * res Ra :=
  match file with
  | Some r =>
    match r_reload E r with
    | Err e => (file, Err e)
    | Ok r' => if overwrite then match r_compute E inputs with Ok n => (Some n, Ok n) | Err e => (file, Err e) end
               else (file, Ok r')
    end
  | None => match r_compute E inputs with Ok n => (Some n, Ok n) | Err e => (file, Err e) end
  end.
(** a history of runs with the same output name: the results they use *)
Fixpoint limit_runs {In Ra} (E : RunEnv In Ra) (l : list (bool * In)) (file : option Ra) : list (res Ra) :=
  match l with
  | [] => []
  | (o, i) :: l' => let '(f', r) := limit_run E o i file in r :: limit_runs E l' f'
  end.
