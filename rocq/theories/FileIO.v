(** Model of the file input/output of src/fastprof/base.py:34-70 (Serializable.load and save) and of
    core.py:1517-1529 (Data.save_with_model), over an explicit file system. *)
From Verif Require Import Py Base Expressions Norms Sample Channels Params Core ModelIO.
Local Open Scope string_scope.
Local Open Scope list_scope.

(** The file system: the text stored under each path. *)
Definition fs := string -> option string.
(** What the process does to it while saving: opening for writing truncates, each write appends. *)
Inductive fsop := Truncate (path : string) | Append (path text : string).
Definition run_op (f : fs) (o : fsop) : fs :=
  match o with
  | Truncate p => fun q => if String.eqb q p then Some "" else f q
  | Append p t => fun q => if String.eqb q p then Some (String.append (match f q with Some s => s | None => "" end) t) else f q
  end.
Definition run_ops (ops : list fsop) (f : fs) : fs := fold_left run_op ops f.

(** The json and yaml libraries: the pieces of text that reach the disk when dumping a value in a flavor (json.dump and
    yaml.dump write through a buffer: the list of pieces is whatever the buffering makes of it), with the exception that
    interrupts the dump if any, and what parsing a text gives.  Nothing is assumed about them here. *)
Record Codec := mkCodec {
  c_dump : string -> dict jv -> list string * option exn;
  c_parse : string -> string -> res (dict jv)
}.

(** base.py:48 and 66: the flavor argument, or the guess from the file name *)
Definition flavor_of (filename : string) (flavor : option string) : string :=
  match flavor with Some f => f | None => guess_flavor filename "json" end.

(** base.py:58-70 save, with the payload already computed (67): the operations on the file system, and the exception.
    [writable]: the paths that open(_, 'w') accepts. *)
Definition save_ops (C : Codec) (writable : string -> bool) (filename : string) (flavor : option string) (payload : dict jv) : list fsop * option exn :=
  if negb (writable filename) then ([], Some IOError) else
  let fl := flavor_of filename flavor in
  if String.eqb fl "json" || String.eqb fl "yaml" then
    let '(pieces, e) := c_dump C fl payload in (Truncate filename :: map (Append filename) pieces, e)
  else ([Truncate filename], Some KeyError).

(** base.py:34-56 load: the dictionary handed to load_dict *)
Definition load_file (C : Codec) (f : fs) (filename : string) (flavor : option string) : res (dict jv) :=
  match f filename with
  | None => Err IOError
  | Some text =>
    let fl := flavor_of filename flavor in
    if String.eqb fl "json" || String.eqb fl "yaml" then c_parse C fl text else Err KeyError
  end.

(** d.update(d') *)
Definition dupdate {V} (d d' : dict V) : dict V := fold_left (fun acc kv => dset (fst kv) (snd kv) acc) d' d.

(** Model.save and Data.save: dump_dict (base.py:117-126) then save *)
Definition model_save (E : Env) (C : Codec) (w : string -> bool) (m : Model) (filename : string) (flavor : option string) : res (list fsop * option exn) :=
  let! sd := model_fill E m [] in Ok (save_ops C w filename flavor sd).
Definition data_save (C : Codec) (w : string -> bool) (m : Model) (I : Internal) (d : Data) (descr : option string) (filename : string) (flavor : option string) : res (list fsop * option exn) :=
  let! sd := data_fill m I d descr [] in Ok (save_ops C w filename flavor sd).
(** core.py:1517-1529 save_with_model.  An exception while the dictionaries are filled comes before any access to the file. *)
Definition save_with_model (E : Env) (C : Codec) (w : string -> bool) (m : Model) (I : Internal) (d : Data) (descr : option string) (filename : string) (flavor : option string)
  : res (list fsop * option exn) :=
  let! sm := model_fill E m [] in
  let! sd := data_fill m I d descr [] in
  Ok (save_ops C w filename flavor (dupdate sm sd)).

(** Model.load and Data.load *)
Definition model_load_file (E : Env) (C : Codec) (f : fs) (m0 : Model) (filename : string) (flavor : option string) : res (Model * Internal) :=
  let! sd := load_file C f filename flavor in model_load E m0 sd.
Definition data_load_file (C : Codec) (f : fs) (m : Model) (I : Internal) (d0 : Data) (filename : string) (flavor : option string) : Data * option exn :=
  match load_file C f filename flavor with
  | Ok sd => data_load m I d0 sd
  | Err e => (d0, Some e)
  end.
