(** Specification for NP profiling: the likelihood of the model in which the yields respond to the NPs in the way that
    the impacts describe, around given NP values, and what its second-order expansion is. *)
From Coquelicot Require Import Coquelicot.
From Verif Require Import Py Deriv Base Expressions Norms Sample Channels Params Core.
Local Open Scope R_scope.

(** response of a yield to the sum x of the NP effects: linear, or log-linear *)
Definition resp (loglin : bool) (x : R) : R := if loglin then exp x else 1 + x.

(** total yield of bin b at NP values th, when the yields are n and the impacts imp at NP values th0 *)
Definition approx_tot (loglin : bool) (S P : nat) (n : nat -> nat -> R) (imp : nat -> nat -> nat -> R) (th0 th : nat -> R) (b : nat) : R :=
  rsum S (fun s => n s b * resp loglin (rsum P (fun a => imp s b a * (th a - th0 a)))).

(** negative log-likelihood: Np Poisson bins, then Ng Gaussian bins with inverse covariance H, and constraint terms
    with weights c around aux *)
Definition likelihood (Np Ng P : nat) (H : mat) (c : nat -> R) (obs aux : nat -> R) (tot th : nat -> R) : R :=
  rsum Np (fun b => tot b - obs b * ln (tot b))
  + 1 / 2 * rsum Ng (fun i => rsum Ng (fun j => (tot (Np + i)%nat - obs (Np + i)%nat) * H i j * (tot (Np + j)%nat - obs (Np + j)%nat)))
  + 1 / 2 * rsum P (fun a => c a * (th a - aux a) ^ 2).

(** g and h are the first and second derivatives of f at 0 *)
Definition d2at (f : R -> R) (g h : R) : Prop :=
  exists f', locally 0 (fun t => is_derive f t (f' t)) /\ f' 0 = g /\ is_derive f' 0 h.

(** q and M are the gradient and the Hessian of F at th0: they give the derivatives along every line through th0 *)
Definition second_order (P : nat) (F : (nat -> R) -> R) (th0 : nat -> R) (q : vec) (M : mat) : Prop :=
  forall d : nat -> R, d2at (fun t => F (fun a => th0 a + t * d a)) (rsum P (fun a => q a * d a)) (rsum P (fun a => rsum P (fun c => d a * M a c * d c))).

(** the second-order expansion of a function with gradient q and Hessian M at th0, up to the constant *)
Definition quadratic (P : nat) (q : vec) (M : mat) (th0 th : nat -> R) : R :=
  rsum P (fun a => q a * (th a - th0 a)) + 1 / 2 * rsum P (fun a => rsum P (fun c => (th a - th0 a) * M a c * (th c - th0 c))).
