(** Model of the NP minimizer, src/fastprof/minimizers.py:43-243, and of Model.linear_impacts, core.py:918-951. *)
From Verif Require Import Py Base Expressions Norms Sample Channels Params Core.
Local Open Scope string_scope.
Local Open Scope list_scope.

(** np.linalg.det: Laplace expansion along the first row (numpy computes the same number through an LU decomposition,
    up to rounding) *)
Fixpoint det (n : nat) (M : mat) : R :=
  match n with
  | O => 1
  | S n' => rsum (S n') (fun j => (-1) ^ j * M 0%nat j * det n' (fun r c => M (S r) (if (c <? j)%nat then c else S c)))
  end.

(** scipy.linalg.solve(M, q, assume_a='sym'): only the upper triangle of M is read.  LinAlgError if singular. *)
Definition solver := nat -> mat -> vec -> res vec.
Definition upper (M : mat) : mat := fun i j => if (i <=? j)%nat then M i j else M j i.
Definition solves (sv : solver) : Prop :=
  forall n M q d, sv n M q = Ok d -> forall i, (i < n)%nat -> rsum n (fun j => upper M i j * d j) = q i.

(** core.py:918-951 linear_impacts.  On lines 941-944 pos_der and neg_der are read before any assignment; the loop over
    the variations is entered as soon as there is one variation. *)
Definition linear_impacts (m : Model) (I : Internal) (ns : list R) : res (nat -> nat -> nat -> R) :=
  if m_simple_sym m then Ok (i_sym I)
  else if forallb (fun x => Reqb x 0) ns then Ok (i_sym I)
  else if (i_nvar I =? 0)%nat then
    let! k := (if m_linear m then Ok (fun _ _ => 1) else k_exp m I ns) in
    Ok (fun s b p => (if Reqb (nth p ns 0) 0 then i_sym I s b p else 0) * k s b)
  else Err UnboundLocalError.

(** minimizers.py:118-152 pq_einsum_poisson for B bins, S samples.  Where the total yield of a bin is zero the ratios on
    line 141 are NaN or infinite, and scipy.linalg.solve rejects the arrays (unless there is no NP). *)
Definition pq_poisson (ln_terms : bool) (S B P : nat) (n : nat -> nat -> R) (obs : nat -> R) (imp : nat -> nat -> nat -> R) : res (mat * vec) :=
  let t := fun b => rsum S (fun s => n s b) in
  if (negb (P =? 0)%nat && existsb (fun b => Reqb (t b) 0) (seq 0 B))%bool then Err ValueError else
  let dobs := fun b => t b - obs b in
  let ratio := fun s b => n s b / t b in
  let ri := fun b a => rsum S (fun s => ratio s b * imp s b a) in
  let q := fun a => rsum B (fun b => dobs b * ri b a) in
  let p := fun a c => rsum B (fun b => obs b * ri b a * ri b c) in
  Ok (if ln_terms
      then fun a c => p a c + rsum S (fun s => rsum B (fun b => ratio s b * dobs b * imp s b a * imp s b c))
      else p, q).

(** minimizers.py:154-185 pq_einsum_gaussian; [hess] is poi_hessian.  The factor 2 is on line 184. *)
Definition pq_gaussian (ln_terms : bool) (hess : mat) (S B P : nat) (n : nat -> nat -> R) (obs : nat -> R) (imp : nat -> nat -> nat -> R) : mat * vec :=
  let t := fun b => rsum S (fun s => n s b) in
  let dobs := fun b => t b - obs b in
  let ni := fun b a => rsum S (fun s => n s b * imp s b a) in
  let q := fun a => rsum B (fun i => rsum B (fun j => ni i a * hess i j * dobs j)) in
  let p := fun a c => rsum B (fun i => rsum B (fun j => ni i a * hess i j * ni j c)) in
  (if ln_terms
   then fun a c => p a c + 2 * rsum S (fun s => rsum B (fun i => rsum B (fun j => n s i * hess i j * dobs j * imp s i a * imp s i c)))
   else p, q).

(** minimizers.py:76-116 pq_einsum.  Slices [:nbins_poisson] and [nbins_poisson:]. *)
Definition pq_einsum (m : Model) (I : Internal) (data : Data) (ps ns : list R) : res (mat * vec) :=
  let P := length (pm_nps (i_pm I)) in
  let Np := i_nbins_p I in
  let S := i_nsamples I in
  let obs := fun b => nth b (d_counts data) 0 in
  let! n := n_exp m I ps ns in
  let! imp := linear_impacts m I ns in
  let! pqp := (if (0 <? Np)%nat then pq_poisson (m_lognormal m) S Np P n obs imp else Ok (fun _ _ => 0, fun _ => 0)) in
  let pqg := (if (0 <? i_nbins_g I)%nat
              then pq_gaussian (m_lognormal m) (i_poi_hess I) S (i_nbins_g I) P (fun s b => n s (Np + b)%nat) (fun b => obs (Np + b)%nat)
                     (fun s b => imp s (Np + b)%nat)
              else (fun _ _ => 0, fun _ => 0)) in
  Ok (fun a c => fst pqp a c + fst pqg a c + cons_hess I a c,
      fun a => snd pqp a + snd pqg a + rsum P (fun c => cons_hess I a c * (nth c ns 0 - nth c (d_aux data) 0))).

(** minimizers.py:187-225 profile.  The hypothesis is a Parameters object, or something else: line 206 then reads the
    undefined name [model].  Returns (min_deltas, min_pars); Parameters copies its arguments (core.py:97, 104). *)
Inductive hypo_in := HPars (p : Params) | HOther.
Definition profile (sv : solver) (m : Model) (I : Internal) (data : Data) (h : hypo_in) : res (Params * Params) :=
  match h with
  | HOther => Err NameError
  | HPars hypo =>
    let P := length (pm_nps (i_pm I)) in
    let! (p, q) := pq_einsum m I data (pois hypo) (nps hypo) in
    let! deltas := (if Rltb (Rabs (det P p)) ((1 / 1000) ^ P) then Ok (fun _ => 0) else sv P p q) in
    let! min_deltas := pars_init (PIList (pois hypo)) (NIArr (map deltas (seq 0 P))) (Some (i_pm I)) in
    let! min_pars := pars_init (PIList (pois hypo)) (NIArr (map (fun i => nth i (nps hypo) 0 - deltas i) (seq 0 P))) (Some (i_pm I)) in
    Ok (min_deltas, min_pars)
  end.

(** minimizers.py:373-397 profile_nps: niter rounds of profiling; returns min_deltas of the last round and min_pars *)
Fixpoint profile_iter (sv : solver) (m : Model) (I : Internal) (data : Data) (niter : nat) (deltas : option Params) (hypo : Params) : res (option Params * Params) :=
  match niter with
  | O => Ok (deltas, hypo)
  | S k => let! (d, p) := profile sv m I data (HPars hypo) in profile_iter sv m I data k (Some d) p
  end.
Definition profile_nps (sv : solver) (m : Model) (I : Internal) (data : Data) (niter : nat) (floor : option R) (hypo : Params) : res (option Params * Params * ext) :=
  let! (d, p) := profile_iter sv m I data niter None hypo in
  let! v := nll m I (pois p) (nps p) data true floor false in
  Ok (d, p, v).

(** minimizers.py:227-243 profile_nll *)
Definition profile_nll (sv : solver) (m : Model) (I : Internal) (data : Data) (floor : option R) (h : hypo_in) : res ext :=
  let! (d, p) := profile sv m I data h in nll m I (pois p) (nps p) data true floor false.
