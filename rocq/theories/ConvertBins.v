(** Model of the bin specifications of src/fastprof_import/convert_ws.py (option --binning). *)
From Verif Require Import Py Base Expressions Norms Sample Channels Params Core UtilTools.
Local Open Scope string_scope.
Local Open Scope list_scope.
Local Open Scope R_scope.

(** np.linspace(lo, hi, n, endpoint) *)
Definition linspace (lo hi : R) (n : nat) (endpoint : bool) : list R :=
  let d := if endpoint then INR (n - 1) else INR n in
  map (fun k => lo + INR k * ((hi - lo) / d)) (seq 0 n).
(** a specification xmin:xmax:nbins[+][:log] *)
Record BinSpec := mkBin { b_lo : R; b_hi : R; b_n : nat; b_last : bool; b_log : bool }.
(** convert_ws.py:124-127: np.logspace(1, log(hi)/log(lo), n, endpoint, base=lo) is lo to the power of the points of linspace.  math.log
    of a number that is not positive, and a division by log(1), raise. *)
Definition edges (b : BinSpec) : res (list R) :=
  if b_log b then
    if (Rleb (b_lo b) 0 || Rleb (b_hi b) 0 || Reqb (b_lo b) 1)%bool then Err ValueError
    else Ok (map (fun x => Rpower (b_lo b) x) (linspace 1 (ln (b_hi b) / ln (b_lo b)) (b_n b) (b_last b)))
  else Ok (linspace (b_lo b) (b_hi b) (b_n b) (b_last b)).
(** the last character, and the string without it *)
Fixpoint last_char (s : string) : option (ascii * string) :=
  match s with
  | EmptyString => None
  | String a r => match last_char r with None => Some (a, EmptyString) | Some (c, i) => Some (c, String a i) end
  end.
(** convert_ws.py:116-127, one specification; [pf] is float(), [pi] is int().  The exceptions are all turned into ValueError (128-130).
    A negative number of bins is refused by np.linspace. *)
Definition parse_spec (pf : string -> option R) (pi : string -> option Z) (spec : string) : res BinSpec :=
  match split ":" spec with
  | f0 :: f1 :: f2 :: rest =>
    match last_char f2 with
    | None => Err ValueError
    | Some (c, i) =>
      let add_last := Ascii.eqb c "+" in
      match pi (if add_last then i else f2), pf f0, pf f1 with
      | Some n, Some lo, Some hi =>
        if (n <? 0)%Z then Err ValueError
        else Ok (mkBin lo hi (Z.to_nat n) add_last (match rest with [f3] => String.eqb f3 "log" | _ => false end))
      | _, _, _ => Err ValueError
      end
    end
  | _ => Err ValueError
  end.
(** convert_ws.py:113-131 *)
Definition parse_binning (pf : string -> option R) (pi : string -> option Z) (spec : string) : res (list R) :=
  foldM (fun bins sp => let! b := parse_spec pf pi sp in let! l := edges b in Ok (bins ++ l)) (split "~" spec) [].
(** convert_ws.py:435-441 and 479-486: the bins are the pairs of consecutive edges *)
Fixpoint bin_list (l : list R) : list (R * R) :=
  match l with a :: (b :: _) as l' => (a, b) :: bin_list l' | _ => [] end.
