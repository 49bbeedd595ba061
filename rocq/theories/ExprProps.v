(** Property theorems C05-C08 (src/fastprof/expressions.py, evaluation order of core.py) *)
From Coquelicot Require Import Coquelicot.
From Verif Require Import Py PyFacts Base Expressions ExprSpec Deriv ExprFacts ExprGrad ExprReplace.
Local Open Scope string_scope.
Local Open Scope list_scope.

(** C05: the reported values are the values of the mathematical functions (ExprSpec) *)
Theorem C05_values_are_denotation : forall (exprs : list expr) (base vals : dict R),
  NoDup (keys base ++ map expr_name exprs) ->
  real_vals exprs base = Ok vals ->
  forall n v, dget n vals = Some v -> v = env_den exprs (env_of base) n.
Proof. intros exprs base vals Hn Hv n v H. exact (value_agrees exprs base vals Hv Hn n v H). Qed.
Print Assumptions C05_values_are_denotation.

(** C05: for every expression of the model the gradient call succeeds (given enough stack) and each component is
    the partial derivative of the value of the expression with respect to that parameter. *)
Theorem C05_gradient_is_derivative : forall (exprs : list expr) (base vals : dict R) (pars : list string) (e : expr) (stack : nat),
  NoDup (keys base ++ map expr_name exprs) ->
  real_vals exprs base = Ok vals ->
  In e exprs -> (length exprs + 1 <= stack)%nat ->
  exists grad, gradient stack pars (reals (keys base) exprs) vals e = Ok grad /\
    forall i p, nth_error pars i = Some p ->
      is_derive (fun x => env_den exprs (upd (env_of base) p x) (expr_name e)) (env_of base p) (grad i).
Proof.
  intros exprs base vals pars e stack Hn Hv He Hs.
  destruct (grad_total exprs base vals Hv Hn pars e stack He Hs) as (gv & Hg).
  exists gv; split; [exact Hg|]. intros i p Hp. apply der_iff.
  exact (grad_known exprs base vals Hv Hn pars stack p i e gv Hp (or_introl He) Hg).
Qed.
Print Assumptions C05_gradient_is_derivative.

(** ... and for any parameter used directly as an expression *)
Theorem C05_parameter_gradient : forall (exprs : list expr) (base vals : dict R) (pars : list string) (k : string) (stack : nat),
  NoDup (keys base ++ map expr_name exprs) -> real_vals exprs base = Ok vals -> In k (keys base) -> (1 <= stack)%nat ->
  exists grad, gradient stack pars (reals (keys base) exprs) vals (ESingle k) = Ok grad /\
    forall i p, nth_error pars i = Some p ->
      is_derive (fun x => env_den exprs (upd (env_of base) p x) k) (env_of base p) (grad i).
Proof.
  intros exprs base vals pars k stack Hn Hv Hk Hs. destruct stack as [|stack]; [lia|].
  eexists; split; [reflexivity|]. intros i p Hp. apply der_iff.
  exact (grad_known exprs base vals Hv Hn pars (S stack) p i (ESingle k) _ Hp (or_intror (ex_intro _ k (conj Hk eq_refl))) eq_refl).
Qed.
Print Assumptions C05_parameter_gradient.

(** a nested example meeting the hypotheses: e1 = 1 + 2 x, e2 = 3 x / e1, e3 = exp(e2) *)
Definition ex_exprs := [ELinComb "e1" 1 [("x", 2)]; EProdRatio "e2" 3 ["x"] ["e1"]; EExp "e3" "e2"].
Example C05_nonvacuous :
  NoDup (keys [("x", 1); ("y", 5)] ++ map expr_name ex_exprs) /\
  exists vals, real_vals ex_exprs [("x", 1); ("y", 5)] = Ok vals /\ dget "e3" vals = Some (exp (3 * (1 * 1) / ((1 + 2 * 1) * 1))).
Proof.
  split.
  - repeat constructor; cbn; intuition discriminate.
  - eexists. unfold ex_exprs. cbn -[Rmult Rplus Rdiv exp Reqb]. split.
    + rewrite (proj2 (Reqb_false _ _)) by lra. cbn -[Rmult Rplus Rdiv exp]. reflexivity.
    + cbn. reflexivity.
Qed.

(** C06: the Hessian is the matrix of second partial derivatives, wherever the factors of the numerators of the
    products do not vanish *)
Theorem C06_hessian_is_second_derivative : forall (exprs : list expr) (base vals : dict R) (pars : list string) (e : expr) (stack : nat),
  NoDup (keys base ++ map expr_name exprs) ->
  real_vals exprs base = Ok vals ->
  (forall n pf nu de k, In (EProdRatio n pf nu de) exprs -> In k nu -> env_den exprs (env_of base) k <> 0) ->
  In e exprs -> (length exprs + 1 <= stack)%nat ->
  exists hess, hessian stack pars (reals (keys base) exprs) vals e = Ok hess /\
    forall i j pi pj, nth_error pars i = Some pi -> nth_error pars j = Some pj ->
      let f := fun x y => env_den exprs (upd (upd (env_of base) pi x) pj y) (expr_name e) in
      let yx := fun x => upd (env_of base) pi x pj in
      locally (env_of base pi) (fun x => ex_derive (f x) (yx x)) /\
      is_derive (fun x => Derive (f x) (yx x)) (env_of base pi) (hess i j).
Proof.
  intros exprs base vals pars e stack Hn Hv Hnum He Hs.
  assert (Hnum' : forall e, In e exprs -> nums_ok1 e (env_den exprs (env_of base))).
  { intros e' He'. destruct e'; cbn [nums_ok1]; auto. intros k Hk. eapply Hnum; eauto. }
  destruct (hess_total exprs base vals Hv Hn pars e stack Hnum' He Hs) as (hv & Hh).
  exists hv; split; [exact Hh|]. intros i j pi pj Hpi Hpj. cbn zeta. rewrite <- der_iff.
  exact (hess_known exprs base vals Hv Hn pars stack pi pj i j e hv Hpi Hpj (or_introl He) Hh).
Qed.
Print Assumptions C06_hessian_is_second_derivative.

(** C06 fails where a factor of a numerator vanishes: for the product x*y at (0,1) the value (0), the gradient
    and the second derivative (1) exist, but the reported Hessian is not a number. *)
Theorem C06_hessian_vanishing_factor_refuted :
  let exprs := [EProdRatio "xy" 1 ["x"; "y"] []] in
  let base := [("x", 0); ("y", 1)] in
  exists vals, real_vals exprs base = Ok vals /\
    is_derive (fun x => Derive (fun y => env_den exprs (upd (upd (env_of base) "x" x) "y" y) "xy") 1) 0 1 /\
    forall stack, (2 <= stack)%nat -> hessian stack ["x"; "y"] (reals (keys base) exprs) vals (EProdRatio "xy" 1 ["x"; "y"] []) = Err NonFinite.
Proof.
  cbn zeta. eexists. split; [|split].
  - cbn -[Rmult Reqb Rdiv]. rewrite (proj2 (Reqb_false _ _)) by lra. reflexivity.
  - apply der_iff. apply (der_ext (fun x => x)); [|apply der_id].
    intros x. symmetry. apply der_Derive. cbn -[Rmult Rdiv]. eapply der_val.
    + apply (der_ext (fun y => x * y)); [|apply der_scal; apply der_id].
      intros y. unfold upd. cbn -[Rmult Rdiv]. field.
    + ring.
  - intros stack Hs. destruct stack as [|[|stack]]; try lia. cbn -[Rmult Reqb Rdiv].
    unfold norm_hessian. cbn [existsb]. rewrite (proj2 (Reqb_true 0 0)) by reflexivity. cbn [orb bind]. reflexivity.
Qed.
Print Assumptions C06_hessian_vanishing_factor_refuted.

Example C06_nonvacuous : forall n pf nu de k, In (EProdRatio n pf nu de) ex_exprs -> In k nu ->
  env_den ex_exprs (env_of [("x", 1); ("y", 5)]) k <> 0.
Proof.
  intros n pf nu de k [H|[H|[H|[]]]] Hk; inversion H; subst. destruct Hk as [<-|[]].
  unfold ex_exprs, env_den, upd, env_of; cbn -[Rmult Rplus Rdiv]. lra.
Qed.

(** C07: dump_dict then instantiate *)
Lemma as_names_JStr l : mapM (fun v => match v with JStr s => Ok s | _ => Err TypeError end) (map JStr l) = Ok l.
Proof. induction l as [|s l IH]; cbn [map mapM bind]; [reflexivity|]. rewrite IH. reflexivity. Qed.
Lemma as_coeffs_JFlt (co : dict R) :
  mapM (fun kv => match jnum (snd kv) with Some x => Ok (fst kv, x) | None => Err TypeError end)
       (map (fun kv => (fst kv, JFlt (snd kv))) co) = Ok co.
Proof. induction co as [|[k c] co IH]; cbn [map mapM bind fst snd jnum]; [reflexivity|]. rewrite IH. reflexivity. Qed.

Theorem C07_expression_save_load_roundtrip : forall e : expr,
  (forall n f, e <> EFormula n f) -> expr_instantiate (expr_fill e []) = Ok e.
Proof.
  intros e He. destruct e as [n v|n|n nom co|n pf nu de|n k|n f]; try reflexivity.
  - unfold expr_instantiate, expr_fill. cbn. rewrite as_coeffs_JFlt. reflexivity.
  - unfold expr_instantiate, expr_fill. cbn. rewrite !as_names_JStr. reflexivity.
  - exfalso; apply (He n f); reflexivity.
Qed.
Print Assumptions C07_expression_save_load_roundtrip.

Example C07_nonvacuous : expr_fill (ELinComb "e1" 1 [("x", 2)]) [] =
  [("name", JStr "e1"); ("type", JStr "linear_combination"); ("nominal_value", JFlt 1); ("coeffs", JObj [("x", JFlt 2)])].
Proof. reflexivity. Qed.

(** C07 is violated by formulas: reloading a saved formula always raises NameError *)
Theorem C07_formula_reload_refuted : forall n f, expr_instantiate (expr_fill (EFormula n f) []) = Err NameError.
Proof. reflexivity. Qed.
Print Assumptions C07_formula_reload_refuted.
(** and an expression given without a type, which is documented to be a formula, raises KeyError *)
Theorem C07_untyped_formula_refuted : forall n f,
  expr_instantiate [("name", JStr n); ("formula", JStr f)] = Err KeyError.
Proof. reflexivity. Qed.
Print Assumptions C07_untyped_formula_refuted.

(** C08: after a successful replacement of parameter [name] by its value [v], evaluating the modified expressions
    gives exactly the values of the original ones; if a number is returned it is the value of the expression. *)
Theorem C08_replace_preserves_values : forall (stack : nat) (name : string) (v : R) (exprs : list expr) (base vals : dict R)
    (key : string) (st' : dict expr) (r : option R),
  NoDup (keys base ++ map expr_name exprs) ->
  real_vals exprs base = Ok vals -> dget name base = Some v ->
  replace stack name (Some v) (keys base) (heap exprs) key = Ok (st', r) ->
  real_vals (after st' exprs) base = Ok vals /\ (forall x, r = Some x -> dget key vals = Some x).
Proof. intros; eapply replace_values; eauto. Qed.
Print Assumptions C08_replace_preserves_values.

(** C08: and if the expression does not become a number, its value no longer depends on the parameter *)
Theorem C08_replace_removes_dependence : forall (stack : nat) (name : string) (v w : R) (exprs : list expr)
    (base vals vals2 : dict R) (key : string) (st' : dict expr),
  NoDup (keys base ++ map expr_name exprs) ->
  real_vals exprs base = Ok vals -> dget name base = Some v -> In key (keys vals) ->
  replace stack name (Some v) (keys base) (heap exprs) key = Ok (st', None) ->
  real_vals (after st' exprs) (dset name w base) = Ok vals2 ->
  dget key vals2 = dget key vals.
Proof. intros; eapply replace_independent; eauto. Qed.
Print Assumptions C08_replace_removes_dependence.

(** x = 2 replaced in e2 = 1 + 3 e1 + 5 y with e1 = 4 x: e1 disappears and contributes 3 * 8 *)
Example C08_nonvacuous :
  let exprs := [ELinComb "e1" 0 [("x", 4)]; ELinComb "e2" 1 [("e1", 3); ("y", 5)]] in
  replace 3 "x" (Some 2) ["x"; "y"] (heap exprs) "e2" =
    Ok ([("e1", ELinComb "e1" (0 + 4 * 2) []); ("e2", ELinComb "e2" (1 + 3 * (0 + 4 * 2)) [("y", 5)])], None).
Proof. reflexivity. Qed.

(** C08 fails for products: replacing a factor always raises TypeError *)
Theorem C08_product_replace_refuted : forall stack name v pf other, (2 <= stack)%nat -> other <> "prod" -> name <> "prod" ->
  replace stack name (Some v) [name; other] (heap [EProdRatio "prod" pf [name] []]) "prod" = Err TypeError.
Proof.
  intros stack name v pf other Hs Ho Hn. destruct stack as [|[|stack]]; try lia.
  unfold heap. cbn [map expr_name]. unfold replace; fold replace. cbn [dget]. rewrite String.eqb_refl. cbn [replace_product dget].
  apply String.eqb_neq in Hn. rewrite Hn. cbn [existsb]. rewrite !String.eqb_refl. reflexivity.
Qed.
Print Assumptions C08_product_replace_refuted.
(** and without a replacement value a used parameter cannot be removed: KeyError *)
Theorem C08_no_value_is_rejected : forall stack name params st, (1 <= stack)%nat ->
  dget name st = None -> In name params -> replace stack name None params st name = Err KeyError.
Proof.
  intros stack name params st Hs Hd Hp. destruct stack; [lia|]. cbn [replace]. rewrite Hd.
  assert (E : existsb (String.eqb name) params = true) by (apply existsb_exists; exists name; split; [exact Hp|apply String.eqb_refl]).
  rewrite E, String.eqb_refl. reflexivity.
Qed.
Print Assumptions C08_no_value_is_rejected.
