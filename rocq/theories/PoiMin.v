(** Model of the POI minimizers, src/fastprof/minimizers.py:247-448 (POIMinimizer) and 520-710 (OptiMinimizer), and of
    ParBound, src/fastprof/model_tools.py:667-747.

    External pieces are parameters: the NP profiling of one parameter point, whether the model has a closed-form
    gradient, and the optimization routines of scipy. *)
From Verif Require Import Py Base Expressions Norms Sample Channels Params Core NpMin.
Local Open Scope string_scope.
Local Open Scope list_scope.

(** model_tools.py:680-694 *)
Record ParBound := mkPB { pb_par : string; pb_min : option R; pb_max : option R }.

(** model_tools.py:699-700 is_fixed: None == None is true *)
Definition is_fixed (b : ParBound) : bool :=
  match pb_min b, pb_max b with Some x, Some y => Reqb x y | None, None => true | _, _ => false end.
(** model_tools.py:702-703 is_free: comparing with None raises TypeError *)
Definition is_free (b : ParBound) : res bool :=
  match pb_min b, pb_max b with Some x, Some y => Ok (Rltb x y) | _, _ => Err TypeError end.
(** model_tools.py:705-709 __and__; None for different parameters *)
Definition pb_and (a b : ParBound) : option ParBound :=
  if negb (String.eqb (pb_par a) (pb_par b)) then None else
  Some (mkPB (pb_par a)
    (match pb_min b with None => pb_min a | Some y => match pb_min a with None => Some y | Some x => Some (Rmax x y) end end)
    (match pb_max b with None => pb_max a | Some y => match pb_max a with None => Some y | Some x => Some (Rmin x y) end end)).
(** model_tools.py:711-712 test_value *)
Definition test_value (b : ParBound) (v : R) : bool :=
  (match pb_min b with Some x => Rleb x v | None => true end && match pb_max b with Some y => Rleb v y | None => true end)%bool.
(** model_tools.py:714-725 test: an unknown parameter passes, any other error propagates *)
Definition pb_test (b : ParBound) (p : Params) : res bool :=
  match pars_get p (pb_par b) with
  | Ok v => Ok (test_value b v)
  | Err KeyError => Ok true
  | Err e => Err e
  end.

(** (bound.min_value + bound.max_value)/2 *)
Definition middle (b : ParBound) : res R :=
  match pb_min b, pb_max b with Some x, Some y => Ok ((x + y) / 2) | _, _ => Err TypeError end.

(** minimizers.py:336-342: bounds of the model POIs, then the given ones, then zero-width ones for the hypothesis *)
Definition model_bounds (m : Model) : dict ParBound := map (fun kp => (fst kp, mkPB (fst kp) (poi_min (snd kp)) (poi_max (snd kp)))) (m_pois m).
Definition all_bounds (m : Model) (bounds : option (list ParBound)) (hypo : option (dict R)) (fix_hypo : bool) : res (dict ParBound) :=
  let d1 := match bounds with
            | None => model_bounds m
            | Some l => fold_left (fun d b => dset (pb_par b) (mkPB (pb_par b) (pb_min b) (pb_max b)) d) l (model_bounds m)
            end in
  if fix_hypo then match hypo with
                   | None => Err TypeError
                   | Some h => Ok (fold_left (fun d kv => dset (fst kv) (mkPB (fst kv) (Some (snd kv)) (Some (snd kv))) d) h d1)
                   end
  else Ok d1.

(** minimizers.py:343-347: initial values that violate their bound are reset to the middle of the range *)
Definition repair (p : Params) (b : ParBound) : res Params :=
  let! v := pars_get p (pb_par b) in
  if test_value b v then Ok p else let! x := middle b in pars_set p (pb_par b) x false.

(** minimizers.py:318-350 set_pois: returns (init_pois, bounds) *)
Definition set_pois_min (m : Model) (I : Internal) (init_pars : option Params) (bounds : option (list ParBound)) (hypo : option (dict R)) (fix_hypo : bool)
    : res (Params * dict ParBound) :=
  let! p0 := match init_pars with
             | None => pars_init (PIList (i_ref_pois I)) NINone (Some (i_pm I))
             | Some p => pars_clone p
             end in
  let! p1 := match hypo with
             | None => Ok p0
             | Some h => foldM (fun p kv => pars_set p (fst kv) (snd kv) false) h p0
             end in
  let! bs := all_bounds m bounds hypo fix_hypo in
  let! p2 := foldM repair (values bs) p1 in
  Ok (p2, bs).

(** The attributes of OptiMinimizer that its methods use, minimizers.py:285-302 and 560-566 *)
Record Mini := mkMini {
  mi_method : string; mi_niter : nat; mi_floor : option R; mi_rebound : Z; mi_alt : option string;
  mi_numjac : bool;      (* force_num_jac *)
  mi_verbosity : Z;
  mi_init : option Params; mi_bounds : option (dict ParBound);
  mi_min_nll : option ext; mi_min_pars : option Params; mi_deltas : option Params;
  mi_hypo_nll : option ext; mi_free_nll : option ext;
  mi_tmu_debug : ext;
  mi_hypo_pars : option Params; mi_free_pars : option Params }.

(** minimizers.py:544-566 __init__, 285-302 *)
Definition mini_init (method : string) (niter : nat) (floor : option R) (rebound : Z) (alt : option string) (numjac : bool) (verbosity : Z) : Mini :=
  mkMini method niter floor rebound alt numjac verbosity None None None None None None None (Fin 0) None None.

(** minimizers.py:568-574 clone: the verbosity is passed in the position of force_num_jac, and the verbosity keeps its
    default.  The test on line 630 is [force_num_jac is False], which no integer passes. *)
Definition mini_clone (s : Mini) : Mini :=
  mini_init (mi_method s) (mi_niter s) (mi_floor s) (mi_rebound s) (mi_alt s) true 0.

Definition with_pois (s : Mini) (ib : Params * dict ParBound) : Mini :=
  mkMini (mi_method s) (mi_niter s) (mi_floor s) (mi_rebound s) (mi_alt s) (mi_numjac s) (mi_verbosity s) (Some (fst ib)) (Some (snd ib))
    (mi_min_nll s) (mi_min_pars s) (mi_deltas s) (mi_hypo_nll s) (mi_free_nll s) (mi_tmu_debug s) (mi_hypo_pars s) (mi_free_pars s).
Definition with_method (s : Mini) (me : string) : Mini :=
  mkMini me (mi_niter s) (mi_floor s) (mi_rebound s) (mi_alt s) (mi_numjac s) (mi_verbosity s) (mi_init s) (mi_bounds s)
    (mi_min_nll s) (mi_min_pars s) (mi_deltas s) (mi_hypo_nll s) (mi_free_nll s) (mi_tmu_debug s) (mi_hypo_pars s) (mi_free_pars s).
Definition with_fit (s : Mini) (nll : ext) (p : Params) (d : option Params) : Mini :=
  mkMini (mi_method s) (mi_niter s) (mi_floor s) (mi_rebound s) (mi_alt s) (mi_numjac s) (mi_verbosity s) (mi_init s) (mi_bounds s)
    (Some nll) (Some p) d (mi_hypo_nll s) (mi_free_nll s) (mi_tmu_debug s) (mi_hypo_pars s) (mi_free_pars s).
Definition with_nll (s : Mini) (nll : ext) : Mini :=
  mkMini (mi_method s) (mi_niter s) (mi_floor s) (mi_rebound s) (mi_alt s) (mi_numjac s) (mi_verbosity s) (mi_init s) (mi_bounds s)
    (Some nll) (mi_min_pars s) (mi_deltas s) (mi_hypo_nll s) (mi_free_nll s) (mi_tmu_debug s) (mi_hypo_pars s) (mi_free_pars s).
Definition with_tmu (s : Mini) (h f : option ext) (dbg : ext) : Mini :=
  mkMini (mi_method s) (mi_niter s) (mi_floor s) (mi_rebound s) (mi_alt s) (mi_numjac s) (mi_verbosity s) (mi_init s) (mi_bounds s)
    (mi_min_nll s) (mi_min_pars s) (mi_deltas s) h f dbg (mi_hypo_pars s) (mi_free_pars s).
Definition with_tmu_pars (s : Mini) (h f : option Params) : Mini :=
  mkMini (mi_method s) (mi_niter s) (mi_floor s) (mi_rebound s) (mi_alt s) (mi_numjac s) (mi_verbosity s) (mi_init s) (mi_bounds s)
    (mi_min_nll s) (mi_min_pars s) (mi_deltas s) (mi_hypo_nll s) (mi_free_nll s) (mi_tmu_debug s) h f.

(** minimizers.py:352-362 set_constant: only the bounds change.  bounds is None before set_pois. *)
Definition set_constant (s : Mini) (vals : dict R) : res Mini :=
  match vals, mi_bounds s with
  | [], _ => Ok s
  | _, None => Err TypeError
  | _, Some bs =>
    let bs' := fold_left (fun d kv => dset (fst kv) (mkPB (fst kv) (Some (snd kv)) (Some (snd kv))) d) vals bs in
    Ok (mkMini (mi_method s) (mi_niter s) (mi_floor s) (mi_rebound s) (mi_alt s) (mi_numjac s) (mi_verbosity s) (mi_init s) (Some bs')
         (mi_min_nll s) (mi_min_pars s) (mi_deltas s) (mi_hypo_nll s) (mi_free_nll s) (mi_tmu_debug s) (mi_hypo_pars s) (mi_free_pars s))
  end.

(** minimizers.py:364-371 free_pois *)
Definition free_pois (m : Model) (s : Mini) : option (list string) :=
  match mi_init s, mi_bounds s with
  | None, _ => None
  | Some _, bs => Some (filter (fun k => match bs with Some d => match dget k d with Some b => negb (is_fixed b) | None => true end | None => true end) (keys (m_pois m)))
  end.

(** The result of a scipy optimization: the points at which the objective or its gradient was evaluated, in order, and the attributes
    success, x and fun. *)
Record OptRes := mkOpt { o_evals : list (list R); o_success : bool; o_x : list R; o_fun : ext }.
(** method, objective, closed-form gradient used or not, initial values, bounds *)
Definition optimizer := string -> (list R -> res ext) -> bool -> list R -> list (option R * option R) -> res OptRes.

(** What minimize needs from the model and the dataset: profiling of a parameter point (profile_nps with niter and
    floor), and whether Model.gradient returns something *)
Record FitEnv := mkFit {
  f_prof : nat -> option R -> Params -> res (option Params * Params * ext);
  f_grad : Params -> bool;
  f_opt : optimizer }.

(** minimizers.py:618-619 update_current_hypo *)
Definition update_hypo (p : Params) (idx : list nat) (x : list R) : res Params :=
  foldM (fun q iv => let! l := lset (pois q) (fst iv) (snd iv) in Ok (mkPars l (nps q) (pmod q))) (combine idx x) p.

(** minimizers.py:600-603 the free parameters: positions in the bounds, initial values, ranges *)
Definition free_bounds (bs : dict ParBound) : res (list (nat * ParBound)) :=
  let! l := mapM (fun ib => let! f := is_free (snd ib) in Ok (f, ib)) (enumerate (values bs)) in
  Ok (map snd (filter fst l)).

(** what minimize returns: the NLL or, for a failed optimization, the pair (None, None) *)
Inductive mini_ret := RNll (v : ext) | RPair.

(** minimizers.py:576-672 OptiMinimizer.minimize *)
Definition minimize (m : Model) (I : Internal) (F : FitEnv) (s0 : Mini) (init_pars : option Params) : res (mini_ret * Mini) :=
  let! s := match init_pars, mi_init s0, mi_bounds s0 with
            | None, Some _, Some _ => Ok s0
            | _, _, _ => let! ib := set_pois_min m I init_pars None None false in Ok (with_pois s0 ib)
            end in
  match mi_init s, mi_bounds s with
  | Some init, Some bs =>
    let! cur := pars_clone init in
    let! fr := free_bounds bs in
    let idx := map fst fr in
    let! x0 := mapM (fun ib => pars_get init (pb_par (snd ib))) fr in
    let ranges := map (fun ib => (pb_min (snd ib), pb_max (snd ib))) fr in
    if ((length x0 =? 0)%nat && negb (String.eqb (mi_method s) ""))%bool then
      let s := with_method s "" in
      let! (d, p, v) := f_prof F (mi_niter s) (mi_floor s) cur in
      Ok (RNll v, with_fit s v p d)
    else
      let s := if ((1 <? length x0)%nat && String.eqb (mi_method s) "scalar")%bool then with_method s "L-BFGS-B" else s in
      let objective := fun x => let! h := update_hypo cur idx x in let! (d, p, v) := f_prof F (mi_niter s) (mi_floor s) h in Ok v in
      let jac := (f_grad F init && negb (mi_numjac s))%bool in
      let! r := (if String.eqb (mi_method s) "scalar" then
                   match ranges with [] => Err IndexError | b :: _ => f_opt F "scalar" objective false [] [b] end
                 else if String.eqb (mi_method s) "CG" then
                   if (0 <? mi_verbosity s)%Z then Err UnboundLocalError else f_opt F "CG" objective jac x0 ranges
                 else if String.eqb (mi_method s) "L-BFGS-B" then f_opt F "L-BFGS-B" objective jac x0 ranges
                 else Err ValueError) in
      (* the last evaluation leaves its profiled parameters in min_pars *)
      let! s := match rev (o_evals r) with
                | [] => Ok s
                | x :: _ => let! h := update_hypo cur idx x in let! (d, p, v) := f_prof F (mi_niter s) (mi_floor s) h in Ok (with_fit s v p d)
                end in
      if o_success r then Ok (RNll (o_fun r), with_nll s (o_fun r)) else Ok (RPair, s)
  | _, _ => Err TypeError (* not reached: set_pois sets both *)
  end.

(** difference of two NLLs, doubled *)
Definition esub2 (a b : ext) : ext := emulr 2 (eadd a (match b with Fin x => Fin (- x) | PInf => MInf | MInf => PInf | NaN => NaN end)).
(** v < c for a float v *)
Definition eltb (a : ext) (c : R) : bool := match a with Fin x => Rltb x c | MInf => true | _ => false end.

(** minimizers.py:399-448 POIMinimizer.tmu; [init_hypo] is already a Parameters object.  A test [minimize(...) is None]
    is never true: minimize returns a number or a pair.  None - None raises TypeError. *)
Definition poi_tmu (m : Model) (I : Internal) (F : FitEnv) (s0 : Mini) (hypo : dict R) (init_hypo : option Params) : res (ext * Mini) :=
  let hm0 := mini_clone s0 in
  let! ib := set_pois_min m I init_hypo (option_map values (mi_bounds s0)) (Some hypo) false in
  let s1 := with_pois s0 ib in
  let! hib := set_pois_min m I init_hypo (option_map values (mi_bounds s1)) (Some hypo) true in
  let! (_, hm) := minimize m I F (with_pois hm0 hib) None in
  let! (_, s2) := minimize m I F (with_tmu s1 (mi_min_nll hm) (mi_free_nll s1) (mi_tmu_debug s1)) None in
  match mi_min_nll hm, mi_min_nll s2 with
  | Some h, Some f =>
    let t := esub2 h f in
    let dbg := if eltb t (- (1 / 10000000000)) then t else mi_tmu_debug s2 in
    Ok (if eltb t 0 then Fin 0 else t, with_tmu_pars (with_tmu s2 (Some h) (Some f) dbg) (mi_min_pars hm) (mi_min_pars s2))
  | _, _ => Err TypeError
  end.

(** minimizers.py:674-710 OptiMinimizer.tmu.  With rebound > 0, line 699 iterates over the keys of the bounds dictionary
    and adds a number to a character: TypeError (an empty parameter list gives an empty range list, and an empty key an
    IndexError; neither occurs with a free POI).  The second call runs with alt_method None. *)
Definition opti_tmu (m : Model) (I : Internal) (F : FitEnv) (s0 : Mini) (hypo : dict R) (init_hypo : option Params) : res (ext * Mini) :=
  let! (t, s) := poi_tmu m I F s0 hypo init_hypo in
  let again := (match t with Fin x => Reqb x 0 | _ => false end && eltb (mi_tmu_debug s) 0)%bool in
  if again then
    if (String.eqb (mi_method s) "scalar" && (0 <? mi_rebound s)%Z)%bool then Err TypeError
    else match mi_alt s with
         | Some a =>
           let s' := mkMini a (mi_niter s) (mi_floor s) (mi_rebound s) None (mi_numjac s) (mi_verbosity s) (mi_init s) (mi_bounds s)
                       (mi_min_nll s) (mi_min_pars s) (mi_deltas s) (mi_hypo_nll s) (mi_free_nll s) (mi_tmu_debug s) (mi_hypo_pars s) (mi_free_pars s) in
           let! (t2, s2) := poi_tmu m I F s' hypo init_hypo in
           if (match t2 with Fin x => Reqb x 0 | _ => false end && eltb (mi_tmu_debug s2) 0 && String.eqb (mi_method s2) "scalar" && (0 <? mi_rebound s2)%Z)%bool
           then Err TypeError else Ok (t2, s2)
         | None => Ok (t, s)
         end
  else Ok (t, s).
