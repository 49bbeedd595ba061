(** Shared vocabulary: Python exceptions as values, insertion-ordered dictionaries,
    markup (JSON/YAML) values, decidable comparisons on reals, finite sums.
    Nothing here is specific to fastprof; it models the part of the Python runtime that
    the transcribed functions use. *)
From Coq Require Export Reals String Ascii List ZArith Lia Lra Bool Arith.
Export ListNotations.
Open Scope R_scope.
Close Scope string_scope.

(** Python exception classes raised by the modelled code. *)
Inductive exn :=
  TypeError | KeyError | ValueError | AttributeError | NameError | IndexError
| ZeroDivisionError | IOError | LinAlgError | UnboundLocalError | RecursionError
| NonFinite (* not an exception: numpy returns inf or nan, which is outside the real-number model *).

(** A Python call either returns or raises. *)
Inductive res (A : Type) := Ok (a : A) | Err (e : exn).
Arguments Ok {A} a.
Arguments Err {A} e.

Definition bind {A B} (x : res A) (f : A -> res B) : res B :=
  match x with Ok a => f a | Err e => Err e end.
Notation "'let!' x ':=' e1 'in' e2" := (bind e1 (fun x => e2))
  (at level 200, x pattern, e1 at level 100, e2 at level 200, right associativity).

(** map with exceptions, stops at the first one (a list comprehension or for loop). *)
Fixpoint mapM {A B} (f : A -> res B) (l : list A) : res (list B) :=
  match l with
  | [] => Ok []
  | a :: l' => let! b := f a in let! bs := mapM f l' in Ok (b :: bs)
  end.

(** for loop threading a state *)
Fixpoint foldM {A S} (f : S -> A -> res S) (l : list A) (s : S) : res S :=
  match l with
  | [] => Ok s
  | a :: l' => let! s' := f s a in foldM f l' s'
  end.

(** Python dict: insertion ordered, unique keys maintained by [dset]. *)
Definition dict (V : Type) := list (string * V).

Fixpoint dget {V} (k : string) (d : dict V) : option V :=
  match d with
  | [] => None
  | (k', v) :: d' => if String.eqb k k' then Some v else dget k d'
  end.

Definition dmem {V} (k : string) (d : dict V) : bool :=
  match dget k d with Some _ => true | None => false end.

(** d[k] = v : in place if present, appended otherwise *)
Fixpoint dset {V} (k : string) (v : V) (d : dict V) : dict V :=
  match d with
  | [] => [(k, v)]
  | (k', v') :: d' => if String.eqb k k' then (k', v) :: d' else (k', v') :: dset k v d'
  end.

(** d.pop(k) / del d[k] when present *)
Fixpoint dremove {V} (k : string) (d : dict V) : dict V :=
  match d with
  | [] => []
  | (k', v') :: d' => if String.eqb k k' then d' else (k', v') :: dremove k d'
  end.

Definition keys {V} (d : dict V) : list string := map fst d.
Definition values {V} (d : dict V) : list V := map snd d.

(** d[k], KeyError when absent *)
Definition dgetE {V} (k : string) (d : dict V) : res V :=
  match dget k d with Some v => Ok v | None => Err KeyError end.

(** Markup values, as produced by json.load / yaml.load. *)
Inductive jv :=
  JNull | JBool (b : bool) | JInt (z : Z) | JFlt (r : R) | JStr (s : string)
| JList (l : list jv) | JObj (d : list (string * jv)).

(** The Python classes used in type checks. *)
Inductive pyty := TInt | TFloat | TStr | TList | TDict | TNdarray.

(** isinstance on markup values; bool is a subclass of int. *)
Definition isinstance (v : jv) (t : pyty) : bool :=
  match v, t with
  | JBool _, TInt => true
  | JInt _, TInt => true
  | JFlt _, TFloat => true
  | JStr _, TStr => true
  | JList _, TList => true
  | JObj _, TDict => true
  | _, _ => false
  end.

(** numerical value of a markup value in Python arithmetic (bool counts as 0/1) *)
Definition jnum (v : jv) : option R :=
  match v with
  | JBool b => Some (if b then 1 else 0)
  | JInt z => Some (IZR z)
  | JFlt r => Some r
  | _ => None
  end.

(** Decidable comparisons on reals as booleans. *)
Definition Rltb (x y : R) : bool := if Rlt_dec x y then true else false.
Definition Rleb (x y : R) : bool := if Rle_dec x y then true else false.
Definition Reqb (x y : R) : bool := if Req_EM_T x y then true else false.

Lemma Rltb_true x y : Rltb x y = true <-> x < y.
Proof. unfold Rltb; destruct (Rlt_dec x y); split; intros; auto; discriminate. Qed.
Lemma Rltb_false x y : Rltb x y = false <-> y <= x.
Proof. unfold Rltb; destruct (Rlt_dec x y); split; intros; auto; try discriminate; lra. Qed.
Lemma Rleb_true x y : Rleb x y = true <-> x <= y.
Proof. unfold Rleb; destruct (Rle_dec x y); split; intros; auto; discriminate. Qed.
Lemma Rleb_false x y : Rleb x y = false <-> y < x.
Proof. unfold Rleb; destruct (Rle_dec x y); split; intros; auto; try discriminate; lra. Qed.
Lemma Reqb_true x y : Reqb x y = true <-> x = y.
Proof. unfold Reqb; destruct (Req_EM_T x y); split; intros; auto; discriminate. Qed.
Lemma Reqb_false x y : Reqb x y = false <-> x <> y.
Proof. unfold Reqb; destruct (Req_EM_T x y); split; intros; auto; try discriminate; contradiction. Qed.

(** Sum of a list of reals (np.sum). *)
Fixpoint lsum (l : list R) : R :=
  match l with [] => 0 | x :: l' => x + lsum l' end.

(** Finite sum over indices 0..n-1 (an einsum contraction). *)
Fixpoint rsum (n : nat) (f : nat -> R) : R :=
  match n with O => 0 | S n' => rsum n' f + f n' end.

(** Product of a list of reals (np.prod). *)
Fixpoint lprod (l : list R) : R :=
  match l with [] => 1 | x :: l' => x * lprod l' end.

(** l[i] = x *)
Fixpoint set_nth {A} (i : nat) (x : A) (l : list A) : list A :=
  match l, i with
  | [], _ => []
  | _ :: l', O => x :: l'
  | a :: l', S i' => a :: set_nth i' x l'
  end.

(** zip *)
Fixpoint zipwith {A B C} (f : A -> B -> C) (l : list A) (m : list B) : list C :=
  match l, m with
  | a :: l', b :: m' => f a b :: zipwith f l' m'
  | _, _ => []
  end.
