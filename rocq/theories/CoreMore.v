(** core.py: pseudo-data generation, covariance and correlation matrices of the POIs. *)
From Verif Require Import Py PyFacts Base Expressions Norms Sample Channels Params Core ModelIO.
Local Open Scope string_scope.
Local Open Scope list_scope.
Local Open Scope R_scope.

(** The random draws of numpy: the [i]-th element of np.random.poisson(means), the [i]-th call of
    np.random.normal(mean, width), and np.random.multivariate_normal(mean, cov). *)
Record Rand := mkRand { r_poisson : nat -> R -> R; r_normal : nat -> R -> R -> R; r_mvn : list R -> mat -> list R }.

(** base.py:516-528 generate_aux for the [i]-th NP; np.random.normal refuses a negative width *)
Definition gen_aux (r : Rand) (i : nat) (p : NP) (value : R) : res R :=
  match np_constraint p with
  | Some c => if Rltb c 0 then Err ValueError else Ok (generate_aux (r_normal r i) p value)
  | None => Ok (generate_aux (r_normal r i) p value)
  end.

(** core.py:1116-1134 generate_data for a Parameters object (1129 is the identity then).  np.random.poisson refuses
    negative means (1132); the covariance given to multivariate_normal is poi_hessian (1133).  The name of an NP is its
    key in the dictionary of NPs. *)
Definition generate_data (r : Rand) (m : Model) (I : Internal) (p : Params) : res Data :=
  let! t := tot_bin_exp m I (pois p) (nps p) None in
  let Np := i_nbins_p I in
  let! cp := (if (0 <? Np)%nat
              then if existsb (fun b => Rltb (t b) 0) (seq 0 Np) then Err ValueError else Ok (map (fun b => r_poisson r b (t b)) (seq 0 Np))
              else Ok []) in
  let cg := if (0 <? i_nbins_g I)%nat then r_mvn r (map t (seq Np (i_nbins_g I))) (i_poi_hess I) else [] in
  let! aux := mapM (fun ip => let! x := pars_get p (fst (snd ip)) in gen_aux r (fst ip) (snd (snd ip)) x) (enumerate (m_nps m)) in
  data_init m I (cp ++ cg) aux.

(** np.linalg.inv, on an n x n matrix; LinAlgError if it is singular *)
Definition inverter := nat -> mat -> res mat.
Definition delta (i j : nat) : R := if (i =? j)%nat then 1 else 0.
(** what is assumed of it: a returned matrix is an inverse *)
Definition inverts (iv : inverter) : Prop :=
  forall n M C, iv n M = Ok C -> forall i j, (i < n)%nat -> (j < n)%nat -> rsum n (fun k => M i k * C k j) = delta i j.

(** core.py:868-884 covariance_matrix: None if the Hessian is None (np.linalg.inv raises LinAlgError on None) or singular *)
Definition covariance_matrix (iv : inverter) (E : Env) (m : Model) (I : Internal) (ps ns : list R) (data : Data) : option mat :=
  match nll_hessian E m I ps ns data with
  | Err _ => None
  | Ok h => match iv (length (m_pois m)) h with Ok c => Some c | Err _ => None end
  end.

(** core.py:886-900 parabolic_errors; the square root of a negative number is NaN; a None matrix has no diagonal *)
Definition esqrt (x : R) : ext := if Rltb x 0 then NaN else Fin (sqrt x).
Definition parabolic_errors (m : Model) (cov : option mat) : res (dict ext) :=
  match cov with
  | None => Err AttributeError
  | Some c => Ok (map (fun ik => (snd ik, esqrt (c (fst ik) (fst ik)))) (enumerate (keys (m_pois m))))
  end.

(** core.py:902-916 correlation_matrix, (cov.T / errors).T / errors.  A zero or negative diagonal element gives
    infinite or NaN elements: reported as NonFinite. *)
Definition correlation_matrix (m : Model) (cov : option mat) : res mat :=
  match cov with
  | None => Err AttributeError
  | Some c =>
    if forallb (fun i => Rltb 0 (c i i)) (seq 0 (length (m_pois m)))
    then let errors := fun i => sqrt (c i i) in
         let ct := fun i j => c j i / errors j in
         Ok (fun i j => ct j i / errors j)
    else Err NonFinite
  end.

(** core.py:588-600 set_constraint: the loop variable hides the argument, and is a name (a string), which has no
    attribute [name]; without NPs the internal variables are computed again *)
Definition set_constraint (E : Env) (m : Model) (par : option string) (val : R) : res (Model * Internal) :=
  match m_nps m with [] => finish E m | _ :: _ => Err AttributeError end.
