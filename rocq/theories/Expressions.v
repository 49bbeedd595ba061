(** Model of src/fastprof/expressions.py and of the evaluation order of core.py (reals, real_vals).
    Numpy arrays over the parameter list [pars] are functions of the index (0 .. len(pars)-1);
    numpy elementwise arithmetic is pointwise. *)
From Verif Require Import Py Base.
Local Open Scope string_scope.
Local Open Scope list_scope.

(** The expression classes, with their attributes.
    Number 172-288, SingleParameter 290-406, LinearCombination 409-555, ProductRatio 558-747,
    Exponential 750-878, Formula 881-951. *)
Inductive expr :=
| ENumber (name : string) (val : R)
| ESingle (name : string)
| ELinComb (name : string) (nominal : R) (coeffs : dict R)
| EProdRatio (name : string) (prefactor : R) (num den : list string)
| EExp (name : string) (exponent : string)
| EFormula (name formula : string).

Definition expr_name (e : expr) : string :=
  match e with
  | ENumber n _ | ESingle n | ELinComb n _ _ | EProdRatio n _ _ _ | EExp n _ | EFormula n _ => n
  end.

(** expressions.py:448-455, the loop of LinearCombination.value *)
Fixpoint lincomb_loop (coeffs : dict R) (real_vals : dict R) (val : R) : res R :=
  match coeffs with
  | [] => Ok val
  | (k, c) :: rest =>
    match dget k real_vals with
    | None => Err KeyError
    | Some v => lincomb_loop rest real_vals (val + c * v)
    end
  end.

(** expressions.py:580-590 numerator_value / denominator_value *)
Definition product_value (names : list string) (real_vals : dict R) : res R :=
  let! vs := mapM (fun k => dgetE k real_vals) names in Ok (lprod vs).

(** X.value(real_vals) : Number 191-201, SingleParameter 302-315, LinearCombination 436-455,
    ProductRatio 592-606 (the products are numpy scalars, so a vanishing denominator gives inf/nan and
    no ZeroDivisionError: line 604 is never reached), Exponential 770-782.
    Formula.value evaluates Python source text and is not modelled: reported as NameError. *)
Definition expr_value (e : expr) (real_vals : dict R) : res R :=
  match e with
  | ENumber _ v => Ok v
  | ESingle n => dgetE n real_vals
  | ELinComb _ nom coeffs => lincomb_loop coeffs real_vals nom
  | EProdRatio _ pref num den =>
    let! n := product_value num real_vals in
    let! d := product_value den real_vals in
    if Reqb d 0 then Err NonFinite else Ok (pref * n / d)
  | EExp _ k => let! v := dgetE k real_vals in Ok (exp v)
  | EFormula _ _ => Err NameError
  end.

(** core.py:655-672 Model.real_vals: expressions are evaluated in the listed order, each value is stored
    under the expression name.  [vals] starts as the dictionary of parameter values. *)
Fixpoint real_vals (exprs : list expr) (vals : dict R) : res (dict R) :=
  match exprs with
  | [] => Ok vals
  | e :: rest => let! v := expr_value e vals in real_vals rest (dset (expr_name e) v vals)
  end.

(** core.py:575-585 Model.reals : every parameter as a SingleParameter, then the expressions
    (an expression replaces a parameter of the same name). *)
Definition reals (params : list string) (exprs : list expr) : dict expr :=
  fold_left (fun d e => dset (expr_name e) e d) exprs
    (fold_left (fun d p => dset p (ESingle p) d) params []).

Definition vec := nat -> R.
Definition mat := nat -> nat -> R.

(** expressions.py:610-616 prod_gradient: sum over the factors of the product of the other factors
    (diagonal replaced by 1) times the gradient of the factor *)
Definition prod_gradient (vals : list R) (grads : list vec) : vec :=
  fun i => rsum (length vals) (fun j => lprod (set_nth j 1 vals) * nth j grads (fun _ => 0) i).

(** expressions.py:619-623 norm_gradient: sum of T'/T.  A vanishing factor gives inf or nan. *)
Definition norm_gradient (vals : list R) (grads : list vec) : res vec :=
  if existsb (fun v => Reqb v 0) vals then Err NonFinite
  else Ok (fun i => rsum (length vals) (fun j => nth j grads (fun _ => 0) i / nth j vals 1)).

(** expressions.py:642-647 norm_hessian: sum of (T'' - T'T'/T)/T *)
Definition norm_hessian (vals : list R) (grads : list vec) (hesss : list mat) : res mat :=
  if existsb (fun v => Reqb v 0) vals then Err NonFinite
  else Ok (fun i1 i2 => rsum (length vals) (fun j =>
             (nth j hesss (fun _ _ => 0) i1 i2
              - nth j grads (fun _ => 0) i2 * nth j grads (fun _ => 0) i1 / nth j vals 1) / nth j vals 1)).

(** X.gradient(pars, reals, real_vals).  The Python functions recurse through [reals]; [fuel] bounds the
    recursion depth and its exhaustion is Python's RecursionError.
    Number 203-213, SingleParameter 317-334, LinearCombination 457-472, ProductRatio 625-640,
    Exponential 784-802.  Formula inherits Expression.gradient (71-84), which returns None: TypeError on use. *)
Fixpoint gradient (fuel : nat) (pars : list string) (rls : dict expr) (rv : dict R) (e : expr) : res vec :=
  match fuel with
  | O => Err RecursionError
  | S fuel' =>
    let sub := fun k => let! r := dgetE k rls in gradient fuel' pars rls rv r in
    match e with
    | ENumber _ _ => Ok (fun _ => 0)
    | ESingle n => Ok (fun i => match nth_error pars i with
                                | Some p => if String.eqb p n then 1 else 0
                                | None => 0 end)
    | ELinComb _ _ coeffs =>
      let! gs := mapM (fun kc => let! g := sub (fst kc) in Ok (snd kc, g)) coeffs in
      Ok (fun i => lsum (map (fun cg => fst cg * snd cg i) gs))
    | EProdRatio _ pref num den =>
      let! nvals := mapM (fun k => dgetE k rv) num in
      let! ngr := mapM sub num in
      let! dvals := mapM (fun k => dgetE k rv) den in
      let! dgr := mapM sub den in
      let! grad_den := norm_gradient dvals dgr in
      let! d := product_value den rv in
      let! v := expr_value e rv in
      Ok (fun i => pref * prod_gradient nvals ngr i / d - v * grad_den i)
    | EExp _ k =>
      let! v := expr_value e rv in
      let! g := sub k in Ok (fun i => v * g i)
    | EFormula _ _ => Err TypeError
    end
  end.

(** X.hessian(pars, reals, real_vals).  Number 215-229, SingleParameter 336-351, LinearCombination 474-490,
    ProductRatio 649-667, Exponential 804-820. *)
Fixpoint hessian (fuel : nat) (pars : list string) (rls : dict expr) (rv : dict R) (e : expr) : res mat :=
  match fuel with
  | O => Err RecursionError
  | S fuel' =>
    let subg := fun k => let! r := dgetE k rls in gradient fuel' pars rls rv r in
    let subh := fun k => let! r := dgetE k rls in hessian fuel' pars rls rv r in
    match e with
    | ENumber _ _ => Ok (fun _ _ => 0)
    | ESingle _ => Ok (fun _ _ => 0)
    | ELinComb _ _ coeffs =>
      let! hs := mapM (fun kc => let! h := subh (fst kc) in Ok (snd kc, h)) coeffs in
      Ok (fun i j => lsum (map (fun ch => fst ch * snd ch i j) hs))
    | EProdRatio _ _ num den =>
      let! nvals := mapM (fun k => dgetE k rv) num in
      let! ngr := mapM subg num in
      let! nhs := mapM subh num in
      let! dvals := mapM (fun k => dgetE k rv) den in
      let! dgr := mapM subg den in
      let! dhs := mapM subh den in
      let! hess_num := norm_hessian nvals ngr nhs in
      let! hess_den := norm_hessian dvals dgr dhs in
      let! grad_num := norm_gradient nvals ngr in
      let! grad_den := norm_gradient dvals dgr in
      let! v := expr_value e rv in
      Ok (fun i j => v * (hess_num i j - hess_den i j
                          + (grad_num i - grad_den i) * (grad_num j - grad_den j)))
    | EExp _ k =>
      let! v := expr_value e rv in
      let! g := subg k in
      let! h := subh k in Ok (fun i j => v * (h i j + g i * g j))
    | EFormula _ _ => Err TypeError
    end
  end.

(** markup readers used by load_dict: a list of names, a dictionary of coefficients.
    Python stores the raw list/dict; entries of a wrong type fail only when used. They are rejected here. *)
Definition as_names (f : field) : res (list string) :=
  match f with
  | FVal (JList l) => mapM (fun v => match v with JStr s => Ok s | _ => Err TypeError end) l
  | _ => Err TypeError
  end.
Definition as_coeffs (f : field) : res (dict R) :=
  match f with
  | FVal (JObj d) => mapM (fun kv => match jnum (snd kv) with Some x => Ok (fst kv, x) | None => Err TypeError end) d
  | _ => Err TypeError
  end.
Definition as_num (f : field) : res R :=
  match f with FVal v => match jnum v with Some x => Ok x | None => Err TypeError end | _ => Err TypeError end.
Definition as_str (f : field) : res string :=
  match f with FVal (JStr s) => Ok s | _ => Err TypeError end.

(** expressions.py:121-131 Expression.load_dict reads sdict['name'] *)
Definition load_name (sdict : dict jv) : res string :=
  let! v := dgetE "name" sdict in match v with JStr s => Ok s | _ => Err TypeError end.

(** expressions.py:142-168 Expression.instantiate followed by the load_dict of the class:
    Number 255-268, SingleParameter 376-388, LinearCombination 521-535, ProductRatio 706-721,
    Exponential 846-859.  Formula.load_dict (917-930) refers to the undefined name FormulaFunction: NameError. *)
Definition expr_instantiate (sdict : dict jv) : res expr :=
  let formula := let! _ := load_name sdict in
                 match dget "type" sdict with None => Err KeyError | Some _ => Err NameError end in
  match dget "type" sdict with
  | None => formula
  | Some (JStr "formula") => formula
  | Some (JStr "number") =>
    let! n := load_name sdict in
    let! v := bind (load_field "value" sdict (JInt 0) [TInt; TFloat]) as_num in Ok (ENumber n v)
  | Some (JStr "single_parameter") => let! n := load_name sdict in Ok (ESingle n)
  | Some (JStr "linear_combination") =>
    let! n := load_name sdict in
    let! nom := bind (load_field "nominal_value" sdict (JInt 0) [TFloat; TInt]) as_num in
    let! co := bind (load_field "coeffs" sdict (JObj []) [TDict]) as_coeffs in Ok (ELinComb n nom co)
  | Some (JStr "product_ratio") =>
    let! n := load_name sdict in
    let! pf := bind (load_field "prefactor" sdict (JInt 1) [TInt; TFloat]) as_num in
    let! nu := bind (load_field "numerator" sdict (JList []) [TList]) as_names in
    let! de := bind (load_field "denominator" sdict (JList []) [TList]) as_names in
    Ok (EProdRatio n pf nu de)
  | Some (JStr "exp") =>
    let! n := load_name sdict in
    let! k := bind (load_field "exponent" sdict (JStr "") [TStr]) as_str in Ok (EExp n k)
  | Some _ => Err ValueError
  end.

(** fill_dict: Expression 133-139, Number 270-278, SingleParameter 390-397, LinearCombination 537-546,
    ProductRatio 723-733, Exponential 861-869, Formula 932-940 *)
Definition expr_fill (e : expr) (sdict : dict jv) : dict jv :=
  let d := dset "name" (JStr (expr_name e)) sdict in
  match e with
  | ENumber _ v => dset "value" (JFlt v) (dset "type" (JStr "number") d)
  | ESingle _ => dset "type" (JStr "single_parameter") d
  | ELinComb _ nom co =>
    dset "coeffs" (JObj (map (fun kv => (fst kv, JFlt (snd kv))) co))
      (dset "nominal_value" (JFlt nom) (dset "type" (JStr "linear_combination") d))
  | EProdRatio _ pf nu de =>
    dset "denominator" (JList (map JStr de)) (dset "numerator" (JList (map JStr nu))
      (dset "prefactor" (JFlt pf) (dset "type" (JStr "product_ratio") d)))
  | EExp _ k => dset "exponent" (JStr k) (dset "type" (JStr "exp") d)
  | EFormula _ f => dset "formula" (JStr f) (dset "type" (JStr "formula") d)
  end.

(** expressions.py:513-517, the loop of LinearCombination.replace: reads self.coeffs, accumulates into
    self.nominal_value and drops the coefficients of the sub-expressions that became numbers *)
Fixpoint replace_lincomb (sub : dict expr -> string -> res (dict expr * option R))
    (cs : dict R) (s : dict expr) (acc : R) (kept : dict R) : res (dict expr * R * dict R) :=
  match cs with
  | [] => Ok (s, acc, kept)
  | (k, c) :: cs' =>
    match sub s k with
    | Err e => Err e
    | Ok (s', Some v) => replace_lincomb sub cs' s' (acc + c * v) kept
    | Ok (s', None) => replace_lincomb sub cs' s' acc (kept ++ [(k, c)])
    end
  end.

(** expressions.py:687-692 and 694-701, the loops of ProductRatio.replace; the boolean tells whether to_remove
    is non-empty; [den] selects the second loop, which refuses a vanishing replacement *)
Fixpoint replace_product (den : bool) (sub : dict expr -> string -> res (dict expr * option R))
    (ks : list string) (s : dict expr) : res (dict expr * bool) :=
  match ks with
  | [] => Ok (s, false)
  | k :: ks' =>
    match sub s k with
    | Err e => Err e
    | Ok (s', Some v) =>
      if (den && Reqb v 0)%bool then Err ValueError
      else match replace_product den sub ks' s' with Ok (s2, _) => Ok (s2, true) | Err e => Err e end
    | Ok (s', None) => replace_product den sub ks' s'
    end
  end.

(** X.replace(name, value, reals) on the object stored under [key] of the heap [st] of expression objects
    (LinearCombination.replace mutates the object; the recursion goes through reals[...], whose entries are
    the same objects).  The result is the new heap, and [Some v] when a new Number object of value v is
    returned (the "!=" comparisons of the code compare object identity), [None] when self is returned.
    Names absent from the heap are parameters (SingleParameter objects).
    Number 232-253, SingleParameter 354-374, LinearCombination 493-519, ProductRatio 669-704
    (lines 693 and 702: del of a list element with a string index raises TypeError), Exponential 822-844,
    Formula: Expression.replace 101-119 raises KeyError. *)
Fixpoint replace (fuel : nat) (name : string) (value : option R) (params : list string)
                 (st : dict expr) (key : string) : res (dict expr * option R) :=
  match fuel with
  | O => Err RecursionError
  | S fuel' =>
    let sub := fun s k => replace fuel' name value params s k in
    let single := fun n =>
      if String.eqb name n then match value with None => Err KeyError | Some v => Ok (st, Some v) end
      else Ok (st, None) in
    match dget key st with
    | None => if existsb (String.eqb key) params then single key else Err KeyError
    | Some (ENumber _ _) => Ok (st, None)
    | Some (ESingle n) => single n
    | Some (ELinComb n nom coeffs) =>
      match replace_lincomb sub coeffs st nom [] with
      | Err e => Err e
      | Ok (s, nom', kept) =>
        let s' := dset key (ELinComb n nom' kept) s in
        match kept with
        | [] => Ok (s', Some nom')
        | _ => Ok (s', None)
        end
      end
    | Some (EProdRatio n pf nu de) =>
      match replace_product false sub nu st with
      | Err e => Err e
      | Ok (s, true) => Err TypeError
      | Ok (s, false) =>
        match replace_product true sub de s with
        | Err e => Err e
        | Ok (s2, true) => Err TypeError
        | Ok (s2, false) => if (length nu + length de =? 0)%nat then Ok (s2, Some pf) else Ok (s2, None)
        end
      end
    | Some (EExp n k) =>
      match sub st k with
      | Err e => Err e
      | Ok (s, Some v) => Ok (s, Some (exp v))
      | Ok (s, None) => Ok (s, None)
      end
    | Some (EFormula _ _) => Err KeyError
    end
  end.
