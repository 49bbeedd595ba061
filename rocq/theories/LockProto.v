(** Model of src/fastprof/sampling.py:277-314 Samples.generate_and_save run by any number of jobs that share a directory.
    Each job runs the loop over its hypotheses; the events of the jobs are interleaved in any order, and a job can be
    killed between any two of its actions on the file system.
    Simplifications: a file name is a number; what is kept of a sample file is whether it exists and holds a complete array
    (np.save opens the file, which empties it, and then fills it: two separate actions); the lock file exists from the
    open() call; the number of toys in an existing file is taken to be sufficient; the debug file is left out. *)
From Coq Require Import List Arith Lia Bool.
Import ListNotations.

Inductive npyst := Absent | Partial | Complete.
(** position of a job in the loop *)
Inductive pc :=
| Next               (* line 297: top of the loop *)
| Loading (f : nat)  (* 298-302: the sample file exists, about to load it *)
| NoNpy (f : nat)    (* 303: the sample file did not exist, about to look for the lock *)
| NoLock (f : nat)   (* 306-307: about to create the lock *)
| Locked (f : nat)   (* 309: lock created, generating *)
| Made (f : nat)     (* 310: generated, about to open the sample file *)
| Saving (f : nat)   (* 310: sample file opened, being filled *)
| Saved (f : nat).   (* 313: about to remove the lock *)
Record job := mkJob { todo : list nat; at_ : pc; brk : bool; alive : bool }.
Record sys := mkSys { npy : nat -> npyst; lock : nat -> bool; jobs : nat -> job; made : nat -> nat (* ghost: productions of each file *) }.

Definition upd {A} (m : nat -> A) (i : nat) (x : A) : nat -> A := fun k => if Nat.eqb k i then x else m k.
Definition goto (p : pc) (j : job) : job := mkJob (todo j) p (brk j) (alive j).
Definition kill (j : job) : job := mkJob (todo j) (at_ j) (brk j) false.
Definition set_job (i : nat) (x : job) (s : sys) : sys := mkSys (npy s) (lock s) (upd (jobs s) i x) (made s).

(** one action of job [i]; None: the job is dead or has finished *)
Definition act (i : nat) (s : sys) : option sys :=
  let j := jobs s i in
  if negb (alive j) then None else
  match at_ j with
  | Next => match todo j with
            | [] => None
            | f :: l => let p := match npy s f with Absent => NoNpy f | _ => Loading f end in
                        Some (set_job i (mkJob l p (brk j) true) s)
            end
  | Loading f => match npy s f with
                 | Complete => Some (set_job i (goto Next j) s)
                 | _ => Some (set_job i (kill j) s) (* np.load raises *)
                 end
  | NoNpy f => if lock s f && negb (brk j) then Some (set_job i (goto Next j) s) else Some (set_job i (goto (NoLock f) j) s)
  | NoLock f => Some (mkSys (npy s) (upd (lock s) f true) (upd (jobs s) i (goto (Locked f) j)) (made s))
  | Locked f => Some (mkSys (npy s) (lock s) (upd (jobs s) i (goto (Made f) j)) (upd (made s) f (S (made s f))))
  | Made f => Some (mkSys (upd (npy s) f Partial) (lock s) (upd (jobs s) i (goto (Saving f) j)) (made s))
  | Saving f => Some (mkSys (upd (npy s) f Complete) (lock s) (upd (jobs s) i (goto (Saved f) j)) (made s))
  | Saved f => if lock s f then Some (mkSys (npy s) (upd (lock s) f false) (upd (jobs s) i (goto Next j)) (made s))
               else Some (set_job i (kill j) s) (* os.remove raises *)
  end.
(** an event: an action of a job, or its death *)
Inductive event := Run (i : nat) | Crash (i : nat).
Definition ev (e : event) (s : sys) : option sys :=
  match e with
  | Run i => act i s
  | Crash i => if alive (jobs s i) then Some (set_job i (kill (jobs s i)) s) else None
  end.
Fixpoint run (es : list event) (s : sys) : option sys :=
  match es with [] => Some s | e :: es' => match ev e s with Some s' => run es' s' | None => None end end.

(** the job has gone through its whole list *)
Definition finished (j : job) : Prop := alive j = true /\ at_ j = Next /\ todo j = [].
(** before the start: the jobs have their lists of hypotheses, sample files are absent or complete *)
Record starts (lists : nat -> list nat) (s : sys) : Prop := mkStarts {
  st_jobs : forall i, todo (jobs s i) = lists i /\ at_ (jobs s i) = Next /\ alive (jobs s i) = true;
  st_npy : forall f, npy s f <> Partial;
  st_made : forall f, made s f = 0 }.

(** a schedule where no other job acts while one is between its first look at the sample file and the creation of the lock *)
Definition checking (j : job) : bool := alive j && match at_ j with NoNpy _ | NoLock _ => true | _ => false end.
Definition actor (e : event) : nat := match e with Run i | Crash i => i end.
Fixpoint exclusive (es : list event) (s : sys) : Prop :=
  match es with
  | [] => True
  | e :: es' => (forall k, k <> actor e -> checking (jobs s k) = false) /\ match ev e s with Some s' => exclusive es' s' | None => True end
  end.
