(** Model of src/fastprof/sampling.py : sampling distributions, their files, p-values, quantiles, and CLs. *)
From Verif Require Import Py RSort.
Local Open Scope string_scope.
Local Open Scope list_scope.

(** np.searchsorted: the binary search of numpy, on any array.  [below a] is a < x for side 'left' and a <= x for side
    'right'; [fuel] bounds the number of halvings. *)
Fixpoint bsearch (fuel lo hi : nat) (below : R -> bool) (a : list R) : nat :=
  match fuel with
  | O => lo
  | S fuel' => if (lo <? hi)%nat
               then let mid := (lo + (hi - lo) / 2)%nat in
                    if below (nth mid a 0) then bsearch fuel' (S mid) hi below a else bsearch fuel' lo mid below a
               else lo
  end.
Definition search_left (a : list R) (x : R) : nat := bsearch (length a) 0 (length a) (fun y => Rltb y x) a.
Definition search_right (a : list R) (x : R) : nat := bsearch (length a) 0 (length a) (fun y => Rleb y x) a.

(** sampling.py:38-49 SamplingDistribution.__init__: a given list of samples is sorted; otherwise zeros *)
Definition sd_init (samples : list R) : list R := rsort samples.
Definition sd_zeros (n : nat) : list R := repeat 0 n.
(** sampling.py:51-57 sort *)
Definition sd_sort (s : list R) : list R := rsort s.

(** sampling.py:98-124 pv, with_error=False.  An empty distribution: a numpy division 0/0. *)
Definition sd_nbelow (s : list R) (apv : R) : R := (INR (search_left s apv) + INR (search_right s apv)) / 2.
Definition sd_pv (s : list R) (apv : R) : res R :=
  match s with [] => Err NonFinite | _ => Ok (sd_nbelow s apv / INR (length s)) end.
(** with_error=True *)
Definition sd_pv_err (s : list R) (apv : R) : res (R * R) :=
  match s with
  | [] => Err NonFinite
  | _ => let nb := sd_nbelow s apv in let nt := INR (length s) in
         Ok (nb / nt, sqrt ((nb + 1) * (nt - nb + 1) / nt) / nt)
  end.

(** int() of a non-negative number *)
Definition int_of (x : R) : nat := Z.to_nat (Int_part x).
(** sampling.py:126-147 quantile; [cdf] is scipy.stats.norm.cdf *)
Definition sd_quantile (cdf : R -> R) (s : list R) (fraction nsigmas : option R) : res R :=
  let! f := match fraction with
            | Some f => Ok f
            | None => match nsigmas with Some n => Ok (cdf n) | None => Err ValueError end
            end in
  if Rltb f 0 || Rltb 1 f then Err ValueError
  else match nth_error s (int_of (INR (length s) * f)) with Some x => Ok x | None => Err IndexError end.

(** sampling.py:149-163 cut: the bounds are tested with "if min_val" and "if max_val" *)
Definition truthy (x : option R) : option R := match x with Some v => if Reqb v 0 then None else Some v | None => None end.
Definition sd_cut (s : list R) (min_val max_val : option R) : list R :=
  let s1 := match truthy min_val with Some v => filter (fun x => Rleb v x) s | None => s end in
  match truthy max_val with Some v => filter (fun x => Rleb x v) s1 | None => s1 end.

(** the file system: name -> content; np.save and np.load are inverse of each other; np.save appends '.npy' to a name
    that does not end with it.  np.load of a missing file raises FileNotFoundError, an IOError. *)
Definition files := dict (list R).
Definition ends_npy (f : string) : bool :=
  let n := String.length f in if (4 <=? n)%nat then String.eqb (substring (n - 4) 4 f) ".npy" else false.
Definition npy_name (f : string) : string := if ends_npy f then f else String.append f ".npy".
(** sampling.py:83-96 save *)
Definition sd_save (fs : files) (filename : string) (s : list R) (sort_before_saving : bool) : files * list R :=
  let s1 := if sort_before_saving then sd_sort s else s in (dset (npy_name filename) s1 fs, s1).
(** sampling.py:59-81 load: [before] is the array held before the call *)
Definition sd_load (fs : files) (before : list R) (filename : string) : res (list R) :=
  match dget filename fs with
  | None => Err IOError
  | Some a => let nb := length before in
              if (0 <? nb)%nat && (length a <? nb)%nat then Err IOError
              else if (0 <? nb)%nat && (nb <? length a)%nat then Ok (firstn nb a) else Ok a
  end.

(** sampling.py:241-242 etc: a Samples object holds one distribution for each hypothesis (here: its name) *)
Record Samples := mkSamples { sm_hypos : list string; sm_dists : dict (list R) }.
(** sampling.py 355-378 pv *)
Definition sm_pv (S : Samples) (hypo : string) (apv : R) : res R := let! s := dgetE hypo (sm_dists S) in sd_pv s apv.
Definition sm_pv_err (S : Samples) (hypo : string) (apv : R) : res (R * R) := let! s := dgetE hypo (sm_dists S) in sd_pv_err s apv.
(** sampling.py 380-398 quantile *)
Definition sm_quantile (cdf : R -> R) (S : Samples) (hypo : string) (fraction nsigmas : option R) : res R :=
  let! s := dgetE hypo (sm_dists S) in sd_quantile cdf s fraction nsigmas.
(** sampling.py 400-412 bands: from order -max_sigma to max_sigma, one value for each hypothesis *)
Definition band_orders (max_sigma : nat) : list Z := map (fun k => (Z.of_nat k - Z.of_nat max_sigma)%Z) (seq 0 (2 * max_sigma + 1)).
Definition sm_bands (cdf : R -> R) (S : Samples) (max_sigma : nat) : res (list (Z * list R)) :=
  mapM (fun i => let! qs := mapM (fun h => sm_quantile cdf S h None (Some (IZR i))) (sm_hypos S) in Ok (i, qs)) (band_orders max_sigma).

(** sampling.py:448-459 CLsSamples *)
Record CLsSamples := mkCLs { cs_clsb : Samples; cs_cl_b : Samples }.
(** sampling.py 509-532 pv, without and with error *)
Definition cs_pv (C : CLsSamples) (hypo : string) (apv : R) : res R :=
  let! clsb := sm_pv (cs_clsb C) hypo apv in
  let! cl_b := sm_pv (cs_cl_b C) hypo apv in
  Ok (if Rltb 0 cl_b then clsb / cl_b else 1).
Definition cs_pv_err (C : CLsSamples) (hypo : string) (apv : R) : res (R * R) :=
  let! (clsb, esb) := sm_pv_err (cs_clsb C) hypo apv in
  let! (cl_b, eb) := sm_pv_err (cs_cl_b C) hypo apv in
  Ok (if Rleb cl_b 0 then (1, 1)
      else if Rleb clsb 0 then (0, esb / cl_b)
      else (clsb / cl_b, clsb / cl_b * sqrt ((esb / clsb) ^ 2 + (eb / cl_b) ^ 2))).
(** sampling.py 534-553 quantile *)
Definition cs_quantile (cdf : R -> R) (C : CLsSamples) (hypo : string) (fraction nsigmas : option R) (cl_b : R) : res R :=
  let! q := sm_quantile cdf (cs_clsb C) hypo fraction nsigmas in if Reqb cl_b 0 then Err NonFinite else Ok (q / cl_b).
(** sampling.py 555-573 bands: the CLs of every CLb sample, sorted *)
Definition cs_bands (cdf : R -> R) (C : CLsSamples) (max_sigma : nat) : res (list (Z * list R)) :=
  let hypos := sm_hypos (cs_clsb C) in
  let! dists := foldM (fun d h => let! s := dgetE h (sm_dists (cs_cl_b C)) in
                                  let! v := mapM (cs_pv C h) s in Ok (dset h (sd_sort v) d)) hypos [] in
  match hypos with [] => Err ValueError | _ => sm_bands cdf (mkSamples hypos dists) max_sigma end.
