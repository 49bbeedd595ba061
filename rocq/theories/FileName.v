(** Model of src/fastprof/sampling.py:264-275 Samples.file_name, with the formatting '%g' of Python. *)
From Coq Require Import DecimalString.
From Verif Require Import Py.
Local Open Scope R_scope.
Local Open Scope list_scope.

(** nearest integer, ties to even *)
Definition rne (y : R) : Z :=
  let f := Int_part y in let r := y - IZR f in
  if Rltb r (1 / 2) then f else if Rltb (1 / 2) r then (f + 1)%Z else if Z.even f then f else (f + 1)%Z.
(** exponent of the leading decimal digit *)
Definition dec_exp (v : R) : Z := Int_part (ln v / ln 10).
(** '%g' keeps six significant digits: [v] > 0 is rounded to m * 10^(x-5) with 100000 <= m <= 999999 *)
Definition g_digits (v : R) : Z * Z :=
  let e := dec_exp v in let m := rne (v / powerRZ 10 (e - 5)) in
  if (m =? 1000000)%Z then (100000%Z, (e + 1)%Z) else (m, e).

(** the six digits of m *)
Definition dig (z : Z) : ascii := ascii_of_nat (48 + Z.to_nat z).
Definition digits6 (m : Z) : list ascii :=
  map (fun k => dig (m / 10 ^ k mod 10)%Z) [5; 4; 3; 2; 1; 0]%Z.
(** removal of trailing zeros, and of the point if nothing follows it *)
Fixpoint strip (l : list ascii) : list ascii :=
  match l with
  | [] => []
  | c :: l' => match strip l' with [] => if Ascii.eqb c "0" then [] else [c] | t => c :: t end
  end.
Definition frac (l : list ascii) : list ascii := match strip l with [] => [] | t => "."%char :: t end.
(** exponent with at least two digits *)
Definition exp_digits (n : nat) : list ascii :=
  let d := list_ascii_of_string (NilEmpty.string_of_uint (Nat.to_uint n)) in
  match d with [c] => ["0"%char; c] | _ => d end.
(** '%g' of a positive number with digits m and exponent x: fixed point when -4 <= x < 6, else scientific *)
Definition fmt_pos (m x : Z) : list ascii :=
  let ds := digits6 m in
  if (0 <=? x)%Z && (x <? 6)%Z then firstn (S (Z.to_nat x)) ds ++ frac (skipn (S (Z.to_nat x)) ds)
  else if (-4 <=? x)%Z && (x <? 0)%Z then "0"%char :: frac (repeat "0"%char (Z.to_nat (- x - 1)) ++ ds)
  else firstn 1 ds ++ frac (skipn 1 ds) ++ "e"%char :: (if (0 <=? x)%Z then "+"%char else "-"%char) :: exp_digits (Z.to_nat (Z.abs x)).
(** '%g' % v *)
Definition fmt_g (v : R) : list ascii :=
  if Reqb v 0 then ["0"%char]
  else if Rltb v 0 then "-"%char :: (let '(m, x) := g_digits (- v) in fmt_pos m x)
  else let '(m, x) := g_digits v in fmt_pos m x.

(** '_'.join *)
Fixpoint join (l : list (list ascii)) : list ascii :=
  match l with [] => [] | [a] => a | a :: l' => a ++ "_"%char :: join l' end.
(** file_name: [vals] are the POI values of the hypothesis *)
Definition file_name (file_root : string) (vals : list R) (suffix : string) : string :=
  string_of_list_ascii (join (list_ascii_of_string file_root :: map fmt_g vals) ++ list_ascii_of_string suffix).
