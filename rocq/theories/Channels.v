(** Model of src/fastprof/channels.py : measurement regions, and their observed counts in markup form. *)
From Verif Require Import Py Base Expressions Norms Sample.
Local Open Scope string_scope.
Local Open Scope list_scope.

(** Python's d[k] on a markup value *)
Definition jget (k : string) (v : jv) : res jv :=
  match v with JObj d => dgetE k d | _ => Err TypeError end.
Definition jlist (v : jv) : res (list jv) := match v with JList l => Ok l | _ => Err TypeError end.
Definition jstr (v : jv) : res string := match v with JStr s => Ok s | _ => Err TypeError end.
Definition jreal (v : jv) : res R := match jnum v with Some x => Ok x | None => Err TypeError end.

(** int(x): truncation towards zero *)
Definition py_int (x : R) : Z := if Rleb 0 x then Int_part x else (- Int_part (- x))%Z.

(** Class specific data.  SingleBinChannel 181-275, BinnedRangeChannel 279-413 (bins are the (lo_edge, hi_edge)
    pairs of the markup bins; the code keeps the markup dictionaries themselves, with any extra keys),
    MultiBinChannel 443-555, GaussianChannel 580-730 (the hessian may be None). *)
Inductive ckind :=
| KSingle
| KRange (bins : list (R * R)) (obs_name obs_unit : option string)
| KMulti (bins : list string)
| KGauss (bins : list string) (hess : option mat).

(** channels.py:50-59 Channel *)
Record Channel := mkChannel { ch_name : string; ch_kind : ckind; ch_samples : dict Sample }.

(** nbins: 213-219, 327-333, 475-481, 639-645 *)
Definition nbins (c : Channel) : nat :=
  match ch_kind c with
  | KSingle => 1
  | KRange bins _ _ => length bins
  | KMulti bins => length bins
  | KGauss bins _ => length bins
  end.

(** pdf_type: 79-89 'poisson', 647-659 'gaussian' *)
Definition is_gaussian (c : Channel) : bool := match ch_kind c with KGauss _ _ => true | _ => false end.

(** channels.py:119-133 Channel.load_dict; samples of the same name replace each other *)
Definition samples_load (float_of : string -> option R) (sdict : dict jv) : res (dict Sample) :=
  let! sl := bind (dgetE "samples" sdict) jlist in
  foldM (fun acc v => match v with
                      | JObj d => let! s := sample_load float_of d in Ok (dset (s_name s) s acc)
                      | _ => Err TypeError
                      end) sl [].

(** a bin of a BinnedRangeChannel *)
Definition range_bin (v : jv) : res (R * R) :=
  let! lo := bind (jget "lo_edge" v) jreal in
  let! hi := bind (jget "hi_edge" v) jreal in Ok (lo, hi).

(** a nested list as a matrix with its number of rows; np.linalg.inv raises LinAlgError unless square *)
Definition np_matrix (v : jv) : res (nat * mat) :=
  let! rows := jlist v in
  let! rs := mapM (fun r => bind (jlist r) (mapM jreal)) rows in
  if forallb (fun r => (length r =? length rs)%nat) rs
  then Ok (length rs, fun i j => nth j (nth i rs []) 0)
  else Err LinAlgError.

(** core.py:1247-1257 choice of the class, then load_dict of the class: 221-233, 335-350, 483-496, 661-675 *)
Definition channel_load (float_of : string -> option R) (inv : nat -> mat -> res mat) (sdict : dict jv) : res Channel :=
  let base := let! name := bind (dgetE "name" sdict) jstr in
              let! sm := samples_load float_of sdict in Ok (name, sm) in
  match dget "type" sdict with
  | None => let! b := base in Ok (mkChannel (fst b) KSingle (snd b))
  | Some (JStr t) =>
    if String.eqb t "bin" then let! b := base in Ok (mkChannel (fst b) KSingle (snd b))
    else if String.eqb t "binned_range" then
      let! b := base in
      let! bl := bind (dgetE "bins" sdict) jlist in
      let! bins := mapM range_bin bl in
      let! on := bind (load_field "obs_name" sdict (JStr "") [TStr]) as_ostr in
      let! ou := bind (load_field "obs_unit" sdict (JStr "") [TStr]) as_ostr in
      Ok (mkChannel (fst b) (KRange bins on ou) (snd b))
    else if String.eqb t "multi_bin" then
      let! b := base in
      let! bl := bind (dgetE "bins" sdict) jlist in
      let! bins := mapM jstr bl in
      Ok (mkChannel (fst b) (KMulti bins) (snd b))
    else if String.eqb t "gaussian" then
      let! b := base in
      let! bl := bind (dgetE "bins" sdict) jlist in
      let! bins := mapM jstr bl in
      let! cov := bind (dgetE "covariance" sdict) np_matrix in
      let! h := inv (fst cov) (snd cov) in
      Ok (mkChannel (fst b) (KGauss bins (Some h)) (snd b))
    else Err ValueError
  | Some _ => Err ValueError
  end.

(** fill_dict: Channel 135-143 followed by 235-243, 352-366, 498-508, 677-687.  The samples entry is popped and
    appended again at the end.  Line 684 writes the type of MultiBinChannel for a Gaussian channel. *)
Definition list_of_mat (n : nat) (m : mat) : jv :=
  JList (map (fun i => JList (map (fun j => JFlt (m i j)) (seq 0 n))) (seq 0 n)).
Definition channel_fill (inv : nat -> mat -> res mat) (c : Channel) : res (dict jv) :=
  let samples := ("samples", JList (map (fun s => JObj (sample_fill s [])) (values (ch_samples c)))) in
  let name := ("name", JStr (ch_name c)) in
  match ch_kind c with
  | KSingle => Ok [name; ("type", JStr "bin"); samples]
  | KRange bins on ou =>
    Ok [name; ("type", JStr "binned_range"); ("obs_name", jstr_of on); ("obs_unit", jstr_of ou);
        ("bins", JList (map (fun b => JObj [("lo_edge", JFlt (fst b)); ("hi_edge", JFlt (snd b))]) bins)); samples]
  | KMulti bins => Ok [name; ("type", JStr "multi_bin"); ("bins", JList (map JStr bins)); samples]
  | KGauss bins h =>
    match h with
    | None => Err LinAlgError
    | Some m => let! cov := inv (length bins) m in
                Ok [name; ("type", JStr "multi_bin"); ("bins", JList (map JStr bins));
                    ("covariance", list_of_mat (length bins) cov); samples]
    end
  end.

(** clone: 202-211, 314-324, 463-472; sample.clone() copies every field.
    GaussianChannel.clone 626-637 iterates over the keys of the samples and calls .name on a string. *)
Definition channel_clone (c : Channel) : res Channel :=
  match ch_kind c with
  | KGauss _ _ => match ch_samples c with [] => Ok c | _ => Err AttributeError end
  | _ => Ok (mkChannel (ch_name c) (ch_kind c)
               (fold_left (fun d s => dset (s_name s) s d) (values (ch_samples c)) []))
  end.

(** A numpy array being filled: its contents when the call returns or raises. *)
Definition eff := (list R * option exn)%type.
Definition okE (l : list R) : eff := (l, None).
Definition errE (l : list R) (e : exn) : eff := (l, Some e).

(** the loops  for b, bin_data in enumerate(sdict['bins']) : check bin b; counts[b] = bin_data[key]
    [check b v] is the test made on the bin data, returning an exception if it fails *)
Fixpoint load_bins (check : nat -> jv -> option exn) (key : string) (b : nat) (l : list jv) (counts : list R) : eff :=
  match l with
  | [] => okE counts
  | v :: l' =>
    match check b v with
    | Some e => errE counts e
    | None =>
      match bind (jget key v) jreal with
      | Err e => errE counts e
      | Ok x => if (b <? length counts)%nat then load_bins check key (S b) l' (set_nth b x counts)
                else errE counts IndexError
      end
    end
  end.

(** channels.py 384-389: edges must be the same numbers *)
Definition check_range (bins : list (R * R)) (b : nat) (v : jv) : option exn :=
  match nth_error bins b with
  | None => Some IndexError
  | Some (lo, hi) =>
    match bind (jget "lo_edge" v) jreal with
    | Err e => Some e
    | Ok x => if Reqb x lo then
                match bind (jget "hi_edge" v) jreal with
                | Err e => Some e
                | Ok y => if Reqb y hi then None else Some ValueError
                end
              else Some ValueError
    end
  end.
(** channels.py 533-535 and 707-709: names must be equal *)
Definition check_name (bins : list string) (b : nat) (v : jv) : option exn :=
  match nth_error bins b with
  | None => Some IndexError
  | Some n => match jget "name" v with
              | Err e => Some e
              | Ok (JStr m) => if String.eqb m n then None else Some ValueError
              | Ok _ => Some ValueError
              end
  end.

(** channels.py 256-257 the type entry of a single bin dataset *)
Definition single_type_error (sdict : dict jv) : option exn :=
  match dget "type" sdict with
  | Some (JStr t) => if String.eqb t "bin" then None else Some ValueError
  | Some _ => Some ValueError
  | None => None
  end.

(** load_dataset_dict: Channel 145-160, SingleBin 245-260, BinnedRange 368-390, MultiBin 510-535 (a wrong number of
    bins refers to an undefined variable: NameError), Gaussian 689-710 (reads 'obs') *)
Definition load_dataset (c : Channel) (sdict : dict jv) (counts : list R) : eff :=
  match dget "name" sdict with
  | None => errE counts KeyError
  | Some (JStr n) =>
    if negb (String.eqb n (ch_name c)) then errE counts ValueError
    else
      let binned := fun (check : nat -> jv -> option exn) (key : string) (e : exn) =>
        match dget "bins" sdict with
        | None => errE counts KeyError
        | Some (JList l) => if (length l =? nbins c)%nat then load_bins check key 0 l counts else errE counts e
        | Some _ => errE counts TypeError
        end in
      match ch_kind c with
      | KSingle =>
        match single_type_error sdict with
        | Some e => errE counts e
        | None => match dget "counts" sdict with
                  | None => errE counts KeyError
                  | Some v => match jreal v, counts with
                              | Ok x, _ :: rest => okE (x :: rest)
                              | Ok _, [] => errE counts IndexError
                              | Err e, _ => errE counts e
                              end
                  end
        end
      | KRange bins _ _ => binned (check_range bins) "counts" ValueError
      | KMulti bins => binned (check_name bins) "counts" NameError
      | KGauss bins _ => binned (check_name bins) "obs" ValueError
      end
  | Some _ => errE counts ValueError
  end.

(** save_dataset_dict: Channel 162-177, SingleBin 262-275, BinnedRange 392-413, MultiBin 537-555, Gaussian 712-730
    (type of MultiBinChannel and key 'counts').  The counts are truncated to integers. *)
Definition save_dataset (c : Channel) (counts : list R) : res (dict jv) :=
  if negb (length counts =? nbins c)%nat then Err ValueError
  else
    let name := ("name", JStr (ch_name c)) in
    let cnt := fun x => ("counts", JInt (py_int x)) in
    let named := fun bins => JList (zipwith (fun b x => JObj [("name", JStr b); cnt x]) bins counts) in
    Ok match ch_kind c with
       | KSingle => [name; ("type", JStr "bin"); cnt (nth 0 counts 0)]
       | KRange bins on ou =>
         [name; ("type", JStr "binned_range"); ("obs_name", jstr_of on); ("obs_unit", jstr_of ou);
          ("bins", JList (zipwith (fun b x => JObj [("lo_edge", JFlt (fst b)); ("hi_edge", JFlt (snd b)); cnt x]) bins counts))]
       | KMulti bins => [name; ("type", JStr "multi_bin"); ("bins", named bins)]
       | KGauss bins _ => [name; ("type", JStr "multi_bin"); ("bins", named bins)]
       end.
