(** Model of src/fastprof/norms.py : normalization terms of samples. *)
From Verif Require Import Py Base Expressions.
Local Open Scope string_scope.
Local Open Scope list_scope.

(** norms.py:125-140 NumberNorm (norm_value is None when the markup holds a null), 237-254 ExpressionNorm *)
Inductive norm := NumberNorm (v : option R) | ExprNorm (expr_name : string).

(** norms.py:94-122 Norm.instantiate, followed by NumberNorm.load_dict 204-217 or ExpressionNorm.load_dict 324-334.
    [float_of s] is what Python's float(s) gives: None when it raises. *)
Definition norm_instantiate (float_of : string -> option R) (sdict : dict jv) : res norm :=
  let! f := load_field "norm" sdict JNull [TInt; TFloat; TStr] in
  let is_number := match f with
                   | FVal (JStr s) => match float_of s with Some _ => true | None => false end
                   | _ => true
                   end in
  if is_number then
    let! g := load_field "norm" sdict (JStr "") [TInt; TFloat; TStr] in
    match g with
    | FVal (JStr s) => if String.eqb s "" then Ok (NumberNorm (Some 1)) else Err ValueError
    | FVal JNull => Ok (NumberNorm None)
    | FVal v => match jnum v with Some x => Ok (NumberNorm (Some x)) | None => Err TypeError end
    | FArr _ => Err TypeError
    end
  else
    let! g := load_field "norm" sdict (JStr "") [TStr] in
    match g with FVal (JStr s) => Ok (ExprNorm s) | _ => Err TypeError end.

(** norms.py:219-225 and 336-342 fill_dict *)
Definition norm_fill (n : norm) (sdict : dict jv) : dict jv :=
  match n with
  | NumberNorm v => dset "norm" (jnum_of v) sdict
  | ExprNorm s => dset "norm" (JStr s) sdict
  end.

(** norms.py:161-170 and 276-288 value.  NumberNorm.value returns None for a null norm; every caller then does
    arithmetic with it: TypeError. *)
Definition norm_value (n : norm) (real_vals : dict R) : res R :=
  match n with
  | NumberNorm (Some v) => Ok v
  | NumberNorm None => Err TypeError
  | ExprNorm s => if String.eqb s "" then Ok 1 else dgetE s real_vals
  end.

(** norms.py:172-186 and 290-305 gradient *)
Definition norm_gradient_of (fuel : nat) (n : norm) (pars : list string) (rls : dict expr) (rv : dict R) : res vec :=
  match n with
  | NumberNorm _ => Ok (fun _ => 0)
  | ExprNorm s => let! e := dgetE s rls in gradient fuel pars rls rv e
  end.

(** norms.py:188-202 and 307-322 hessian *)
Definition norm_hessian_of (fuel : nat) (n : norm) (pars : list string) (rls : dict expr) (rv : dict R) : res mat :=
  match n with
  | NumberNorm _ => Ok (fun _ _ => 0)
  | ExprNorm s => let! e := dgetE s rls in hessian fuel pars rls rv e
  end.

(** norms.py:142-159 and 256-274 implicit_impact.  [fmt] is the '%+g' formatting.  The conditional expression
    evaluates the gradient only for a non-zero nominal value. *)
Definition implicit_impact (fuel : nat) (fmt : R -> string) (n : norm) (par_name : string) (nominal par_variation : R)
    (rls : dict expr) (rv : dict R) (variation : R) : res (option (dict jv)) :=
  match n with
  | NumberNorm _ => Ok None
  | ExprNorm _ =>
    let! rel := if Reqb nominal 0 then Ok 0
                else let! g := norm_gradient_of fuel n [par_name] rls rv in
                     Ok (variation * par_variation * g 0%nat / nominal) in
    Ok (Some (dset (fmt (- variation)) (JFlt (- rel)) [(fmt variation, JFlt rel)]))
  end.
