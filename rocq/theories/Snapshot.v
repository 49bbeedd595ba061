(** Model of the command-line program src/fastprof_import/import_snapshot.py.  ROOT is a parameter: what the files contain.  The parsing of the command line is not modelled, printing is not modelled. *)
From Verif Require Import Py Base FileIO.
Local Open Scope string_scope.
Local Open Scope list_scope.

(** a snapshot: its parameters in order, with their values, None for those which are not real (getVal raises an exception); values that are NaN or infinite are not considered *)
Definition snapshot := list (string * option R).
(** a ROOT file: its workspaces, with their snapshots; None for a file which cannot be opened *)
Definition root_files := string -> option (dict (dict snapshot)).
(** 61-70 the options *)
Record SnapOpts := mkSO { sn_ws_file : string; sn_ws_name : string; sn_snapshot : string; sn_out : string; sn_markup : string }.

(** 95-102 the values; real parameters only *)
Definition snapshot_values (s : snapshot) : dict jv :=
  fold_left (fun d p => match snd p with Some x => dset (fst p) (JFlt x) d | None => d end) s [].
(** 104-108 the markup is JSON if it was asked for, and YAML in all other cases *)
Definition snapshot_flavor (markup : string) : string := if String.eqb markup "json" then "json" else "yaml".
(** 83-93 the snapshot *)
Definition find_snapshot (root : root_files) (o : SnapOpts) : res snapshot :=
  match root (sn_ws_file o) with
  | None => Err IOError
  | Some f => let! ws := dgetE (sn_ws_name o) f in dgetE (sn_snapshot o) ws
  end.
(** 72-108 run *)
Definition snapshot_run (C : Codec) (w : string -> bool) (root : root_files) (o : SnapOpts) : list fsop * option exn :=
  match find_snapshot root o with
  | Err e => ([], Some e)
  | Ok s => save_ops C w (sn_out o) (Some (snapshot_flavor (sn_markup o))) (snapshot_values s)
  end.
