(** Specification of the expected yields of a model, independent of the arrays of the code: values of the parameters
    and expressions, normalizations, and the effect of the NPs on a bin of a sample. *)
From Verif Require Import Py Base Expressions ExprSpec Norms Sample SampleFacts Channels Params Core.
Local Open Scope string_scope.
Local Open Scope list_scope.

(** parameter values: the POIs at the given values, the NPs at their nominal values (their effect enters through the
    impacts) *)
Definition par_env (m : Model) (mu : list R) : env := fun x =>
  match index x (keys (m_pois m)) with
  | Some i => nth i mu 0
  | None => match dget x (m_nps m) with
            | Some p => match np_nominal p with Some v => v | None => 0 end
            | None => 0
            end
  end.
(** ... and of the expressions *)
Definition model_env (m : Model) (mu : list R) : env := env_den (values (m_exprs m)) (par_env m mu).

(** POIs, NPs and expressions have different names *)
Definition names_ok (m : Model) : Prop :=
  NoDup (keys (m_pois m) ++ keys (m_nps m) ++ map expr_name (values (m_exprs m))).

(** the value of a normalization term *)
Definition norm_den (n : norm) (rho : env) : R :=
  match n with
  | NumberNorm (Some v) => v
  | NumberNorm None => 0
  | ExprNorm s => if String.eqb s "" then 1 else rho s
  end.

(** one value per bin of the channel for the yields of the sample and for the impacts that are given bin by bin *)
Definition fits (c : Channel) (sm : Sample) : Prop :=
  (exists y, s_yields sm = Some y /\ length y = nbins c) /\
  (forall par l, dget par (s_impacts sm) = Some (JList l) -> length l = nbins c).
Definition all_fit (chs : dict Channel) : Prop :=
  forall k c ks sm, In (k, c) chs -> In (ks, sm) (ch_samples c) -> fits c sm.

(** as many positive as negative variations in every table of impacts *)
Definition balanced (E : Env) (sm : Sample) (par : string) : Prop :=
  forall av, available_variations (e_float E) sm par = Ok av ->
    length (filter (fun v => Rltb 0 v) av) = length (filter (fun v => Rltb v 0) av).

(** number of variations of a NP in a sample (on one side) *)
Definition norders (E : Env) (sm : Sample) (par : string) : nat :=
  match available_variations (e_float E) sm par with
  | Ok av => Nat.max (length (filter (fun v => Rltb 0 v) av)) (length (filter (fun v => Rltb v 0) av))
  | Err _ => 0
  end.
(** no table of impacts has more variations than those of the first NP in the first samples *)
Definition first_np_has_most_variations (E : Env) (chs : dict Channel) (names : list string) : Prop :=
  forall k c ks sm par, In (k, c) chs -> In (ks, sm) (ch_samples c) -> In par names ->
    (norders E sm par <= 1)%nat \/
    exists k0 c0 sm0 par0, In (k0, c0) chs /\ sample_at c0 0 = Some sm0 /\ nth_error names 0 = Some par0 /\
      (norders E sm par <= norders E sm0 par0)%nat.

(** the effect of NP [par] at value [x] on bin [b] of a sample: the interpolating polynomial of its side *)
Definition np_effect (E : Env) (is_log : bool) (sm : Sample) (par : string) (b : nat) (x : R) : R :=
  match impact_coefficients (e_float E) (e_fmt E) (e_inv E) sm par is_log with
  | Ok (pc, nc) => if Rltb 0 x then poly pc b x else poly nc b x
  | Err _ => 0
  end.
(** the factor applied to the yields: 1 + sum of the effects, or the exponential of the sum *)
Definition factor (linear : bool) (x : R) : R := if linear then 1 + x else exp x.

(** ... in symmetric mode: half the difference of the impacts at +1 and -1, times the NP *)
Definition sym_effect (E : Env) (linear : bool) (sm : Sample) (par : string) (b : nat) (x : R) : R :=
  match sym_impact (e_fmt E) sm par with
  | Ok (Some im) => if linear then nth b im 0 * x else ln (1 + nth b im 0) * x
  | _ => 0
  end.
(** the factor applied to bin [b] of a sample when the NPs have values [th] *)
Definition np_factor (E : Env) (m : Model) (sm : Sample) (b : nat) (th : list R) : R :=
  factor (m_linear m) (rsum (length (m_nps m)) (fun p =>
    if m_asym m then np_effect E (negb (m_linear m)) sm (nth p (keys (m_nps m)) "") b (nth p th 0)
    else sym_effect E (m_linear m) sm (nth p (keys (m_nps m)) "") b (nth p th 0))).

(** the yields of one sample in one bin before NP effects: the nominal yields scaled by the change of the
    normalization *)
Definition spec_yield (m : Model) (mu : list R) (sm : Sample) (b : nat) : R :=
  match s_nominal_norm sm, s_yields sm with
  | Some nn, Some y => norm_den (s_norm sm) (model_env m mu) / nn * nth b y 0
  | _, _ => 0
  end.

(** conditions under which the interpolation arrays of the code are meaningful (see the refutations) *)
Definition tables_ok (E : Env) (m : Model) (chs : dict Channel) : Prop :=
  all_fit chs /\
  (m_asym m = true ->
   (forall k c ks sm par, In (k, c) chs -> In (ks, sm) (ch_samples c) -> In par (keys (m_nps m)) -> balanced E sm par) /\
   first_np_has_most_variations E chs (keys (m_nps m))).
