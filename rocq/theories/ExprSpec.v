(** Specification of expressions, independent of the code: the mathematical function denoted by a list of
    named definitions over an environment of real values. *)
From Verif Require Import Py Expressions.
Local Open Scope string_scope.
Local Open Scope list_scope.

Definition env := string -> R.
Definition upd (rho : env) (k : string) (v : R) : env := fun x => if String.eqb x k then v else rho x.

(** meaning of one expression: a constant, a parameter, nominal + sum of c_k * k,
    prefactor * product / product, exponential *)
Definition expr_den (e : expr) (rho : env) : R :=
  match e with
  | ENumber _ v => v
  | ESingle n => rho n
  | ELinComb _ nom coeffs => nom + lsum (map (fun kc => snd kc * rho (fst kc)) coeffs)
  | EProdRatio _ pref num den => pref * lprod (map rho num) / lprod (map rho den)
  | EExp _ k => exp (rho k)
  | EFormula _ _ => 0
  end.

(** meaning of a list of definitions: each one may use the parameters and the previous definitions *)
Fixpoint env_den (exprs : list expr) (rho : env) : env :=
  match exprs with
  | [] => rho
  | e :: rest => env_den rest (upd rho (expr_name e) (expr_den e rho))
  end.

(** parameter values as an environment *)
Definition env_of (d : dict R) : env := fun k => match dget k d with Some v => v | None => 0 end.
