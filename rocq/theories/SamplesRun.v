(** Model of src/fastprof/sampling.py: the classes Samples and CLsSamples, from their construction to the p-values, with the files they read and write.
    One process runs at a time (several at once: LockProto.v).  Simplifications: the messages and the debug files (line 311) are left out; a sampler is
    what its generate() returns for a number of toys, or the exception it raises; np.save and np.load are inverse of each other; sample files and lock
    files are kept apart, since their names end with .npy and .lock. *)
From Verif Require Import Py RSort Base Params FitData Sampling FileName.
Local Open Scope string_scope.
Local Open Scope list_scope.

(** a sampler: its hypothesis (samplers.py, test_hypo) and its generate() *)
Record Sampler := mkSampler { sp_hypo : Hypo; sp_generate : nat -> res (list R) }.
(** the sample files and the lock files *)
Record disk := mkDisk { dk_npy : files; dk_lock : list string }.
Definition has_lock (l : string) (d : disk) : bool := existsb (String.eqb l) (dk_lock d).
Definition add_lock (l : string) (d : disk) : disk := mkDisk (dk_npy d) (l :: dk_lock d).
Definition drop_lock (l : string) (d : disk) : disk := mkDisk (dk_npy d) (filter (fun x => negb (String.eqb x l)) (dk_lock d)).

(** sampling.py:245-262 *)
Record SObj := mkSO { so_hypos : list Hypo; so_samplers : list Sampler; so_root : string; so_dists : hdict (list R) }.
Definition so_init (samplers : list Sampler) (root : string) (hypos : list Hypo) : res SObj :=
  match samplers, hypos with
  | _ :: _, _ :: _ => Err ValueError
  | [], [] => Err ValueError
  | _ :: _, [] => Ok (mkSO (map sp_hypo samplers) samplers root [])
  | [], _ :: _ => Ok (mkSO hypos [] root [])
  end.
(** 264-275 *)
Definition so_file (root : string) (h : Hypo) (suffix : string) : string := file_name root (values h) suffix.

(** 297-313 one hypothesis of generate_and_save.  The files and the distributions are as given in the result also when an exception is raised. *)
Definition gen_one (hash : list string -> Z) (root : string) (ntoys : nat) (break_locks sort : bool) (hs : Hypo * Sampler) (st : disk * hdict (list R))
    : (disk * hdict (list R)) * option exn :=
  let '(h, s) := hs in let '(d, dists) := st in
  if dmem (so_file root h ".npy") (dk_npy d) then
    let zeros := hset hash h (sd_zeros ntoys) dists in
    match sd_load (dk_npy d) (sd_zeros ntoys) (so_file root h ".npy") with
    | Ok a => ((d, hset hash h a zeros), None)
    | Err e => ((d, zeros), Some e)
    end
  else if (has_lock (so_file root h ".lock") d && negb break_locks)%bool then (st, None)
  else
    let d1 := add_lock (so_file root h ".lock") d in
    match sp_generate s ntoys with
    | Err e => ((d1, dists), Some e)
    | Ok a => let '(npy, a') := sd_save (dk_npy d1) (so_file root h "") a sort in
              ((drop_lock (so_file root h ".lock") (mkDisk npy (dk_lock d1)), hset hash h a' dists), None)
    end.
Fixpoint gen_loop (hash : list string -> Z) (root : string) (ntoys : nat) (break_locks sort : bool) (l : list (Hypo * Sampler)) (st : disk * hdict (list R))
    : (disk * hdict (list R)) * option exn :=
  match l with
  | [] => (st, None)
  | hs :: l' => match gen_one hash root ntoys break_locks sort hs st with
                | (st', None) => gen_loop hash root ntoys break_locks sort l' st'
                | (st', Some e) => (st', Some e)
                end
  end.
Definition with_dists (o : SObj) (d : hdict (list R)) : SObj := mkSO (so_hypos o) (so_samplers o) (so_root o) d.
(** 277-314 generate_and_save *)
Definition so_generate_and_save (hash : list string -> Z) (o : SObj) (ntoys : nat) (break_locks sort : bool) (d : disk) : (disk * SObj) * option exn :=
  match so_samplers o with
  | [] => ((d, o), Some ValueError)
  | _ => let '((d', dists), e) := gen_loop hash (so_root o) ntoys break_locks sort (combine (so_hypos o) (so_samplers o)) (d, so_dists o) in ((d', with_dists o dists), e)
  end.
(** 316-329 load.  The handler of line 327 uses the name fname, which is not defined: the exception is a NameError. *)
Definition so_load (hash : list string -> Z) (o : SObj) (d : disk) : res SObj :=
  let! dists := foldM (fun dists h => match sd_load (dk_npy d) [] (so_file (so_root o) h ".npy") with
                                      | Ok a => Ok (hset hash h a (hset hash h [] dists))
                                      | Err _ => Err NameError
                                      end) (so_hypos o) (so_dists o) in
  Ok (with_dists o dists).
(** 331-351 generate: line 348 reads self.sampler, an attribute that does not exist (it is samplers) *)
Definition so_generate (o : SObj) (ntoys : nat) : res SObj :=
  match so_samplers o with
  | [] => Err ValueError
  | _ => foldM (fun _ _ => Err AttributeError) (combine (so_hypos o) (so_samplers o)) o
  end.
(** 353-376 pv, without error *)
Definition so_pv (hash : list string -> Z) (o : SObj) (h : Hypo) (apv : R) : res R :=
  match hget hash h (so_dists o) with Some s => sd_pv s apv | None => Err KeyError end.
(** 414-425 cut *)
Definition so_cut (hash : list string -> Z) (o : SObj) (lo hi : option R) : res SObj :=
  let! dists := foldM (fun dists h => match hget hash h dists with Some s => Ok (hset hash h (sd_cut s lo hi) dists) | None => Err KeyError end) (so_hypos o) (so_dists o) in
  Ok (with_dists o dists).

(** 445-454 CLsSamples *)
Record CObj := mkCO { co_clsb : SObj; co_cl_b : SObj }.
(** 456-477 generate_and_save: both, one after the other *)
Definition co_generate_and_save (hash : list string -> Z) (c : CObj) (ntoys : nat) (break_locks sort : bool) (d : disk) : (disk * CObj) * option exn :=
  match so_generate_and_save hash (co_clsb c) ntoys break_locks sort d with
  | ((d1, o1), Some e) => ((d1, mkCO o1 (co_cl_b c)), Some e)
  | ((d1, o1), None) => let '((d2, o2), e) := so_generate_and_save hash (co_cl_b c) ntoys break_locks sort d1 in ((d2, mkCO o1 o2), e)
  end.
(** 479-490 load *)
Definition co_load (hash : list string -> Z) (c : CObj) (d : disk) : res CObj :=
  let! a := so_load hash (co_clsb c) d in let! b := so_load hash (co_cl_b c) d in Ok (mkCO a b).
(** 492-507 generate *)
Definition co_generate (c : CObj) (ntoys : nat) : res CObj :=
  let! a := so_generate (co_clsb c) ntoys in let! b := so_generate (co_cl_b c) ntoys in Ok (mkCO a b).
(** 509-532 pv, without error *)
Definition co_pv (hash : list string -> Z) (c : CObj) (h : Hypo) (apv : R) : res R :=
  let! a := so_pv hash (co_clsb c) h apv in let! b := so_pv hash (co_cl_b c) h apv in Ok (if Rltb 0 b then a / b else 1).
(** 575-588 cut *)
Definition co_cut (hash : list string -> Z) (c : CObj) (lo hi : option R) : res CObj :=
  let! a := so_cut hash (co_clsb c) lo hi in let! b := so_cut hash (co_cl_b c) lo hi in Ok (mkCO a b).
(** compute_limits.py:184-189 (compute_fast_limits.py 210-215): the two sets of samples of a limit computation *)
Definition limit_samples (clsb cl_b : list Sampler) (output_file : string) : res CObj :=
  let! a := so_init clsb output_file [] in let! b := so_init cl_b (output_file ++ "_clb") [] in Ok (mkCO a b).
