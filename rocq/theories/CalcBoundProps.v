(** C78: the inputs of the calculators *)
From Verif Require Import Py PyFacts Base Expressions Norms Sample Channels Params ParamsFacts Core CoreExample NpMin PoiMin PoiMinFacts PoiMinProps PoiHistProps TestStat FitData Calculators CalcFacts.
Local Open Scope string_scope.
Local Open Scope list_scope.
Local Open Scope R_scope.

(** A test made with the general method uses the bounds that were set on the minimizer: they are the bounds of the POIs in the free fit. *)
Theorem C78_bounds_used : forall m I F s h full p s' bs, compute_fast_plr m I F s h full = Ok (p, s') -> mi_bounds s = Some bs -> NoDup (map pb_par (values bs)) -> NoDup (keys (m_pois m)) ->
  exists bs', mi_bounds s' = Some bs' /\ forall n b, dget n bs = Some b -> pb_par b = n -> dget n bs' = Some b.
Proof.
  intros m I F s h full p s' bs H HB N NM. unfold compute_fast_plr in H. apply bind_Ok in H as (u & _ & H). apply bind_Ok in H as ([t s1] & Ht & H). apply bind_Ok in H as (x & _ & H).
  apply bind_Ok in H as (fn & _ & H). apply bind_Ok in H as (fr & _ & H). apply bind_Ok in H as (hn & _ & H). apply bind_Ok in H as (fx & _ & H). apply bind_Ok in H as (q & _ & H). injection H as <- <-.
  assert (MB : forall F s r s', minimize m I F s None = Ok (r, s') -> mi_init s <> None -> mi_bounds s <> None -> mi_bounds s' = mi_bounds s).
  { clear. intros F s r s' H Hi Hb. unfold minimize in H. destruct (mi_init s) as [init|] eqn:Ei; [|contradiction]. destruct (mi_bounds s) as [bs|] eqn:Eb; [|contradiction]. cbn [bind] in H. rewrite Ei, Eb in H.
    apply bind_Ok in H as (cur & _ & H). apply bind_Ok in H as (fr & _ & H). apply bind_Ok in H as (x0 & _ & H). destruct (_ && _)%bool.
    - apply bind_Ok in H as ([[d p] v] & _ & H). injection H as _ <-. cbn. exact Eb.
    - apply bind_Ok in H as (o & _ & H). apply bind_Ok in H as (s1 & Hs & H).
      assert (E : forall me, mi_bounds (with_method s me) = Some bs) by (intros; exact Eb).
      assert (mi_bounds s1 = Some bs) as E1.
      { destruct (rev (o_evals o)); [injection Hs as <-; destruct (_ && _)%bool; auto|]. apply bind_Ok in Hs as (h & _ & Hs). apply bind_Ok in Hs as ([[d p] v] & _ & Hs). injection Hs as <-. cbn. destruct (_ && _)%bool; auto. }
      destruct (o_success o); injection H as _ <-; auto. }
  assert (PB : forall s t s', poi_tmu m I F s h full = Ok (t, s') -> forall bs, mi_bounds s = Some bs -> NoDup (map pb_par (values bs)) ->
     exists bs', mi_bounds s' = Some bs' /\ NoDup (map pb_par (values bs')) /\ (forall n b, dget n bs = Some b -> pb_par b = n -> dget n bs' = Some b)).
  { clear Ht HB N. intros s0 t0 s0' H bs0 HB N. unfold poi_tmu in H. rewrite HB in H. cbn [option_map] in H. apply bind_Ok in H as ([ip ib] & Hib & H). apply bind_Ok in H as (hib & _ & H). apply bind_Ok in H as ([r1 hm] & _ & H). apply bind_Ok in H as ([r2 s2] & Hm & H).
    apply MB in Hm; [|discriminate|discriminate]. cbn in Hm. assert (mi_bounds s0' = mi_bounds s2) as -> by (destruct (mi_min_nll hm); [|discriminate]; destruct (mi_min_nll s2); [|discriminate]; injection H as _ <-; reflexivity).
    rewrite Hm. exists ib. split; [reflexivity|]. unfold set_pois_min in Hib. apply bind_Ok in Hib as (p0 & _ & Hib). apply bind_Ok in Hib as (p1 & _ & Hib). apply bind_Ok in Hib as (b & Hb & Hib). apply bind_Ok in Hib as (p2 & _ & Hib). injection Hib as _ <-.
    cbn in Hb. injection Hb as <-. split.
    { assert (G : forall l d, NoDup (keys d) -> map pb_par (values d) = keys d -> let d' := fold_left (fun d b => dset (pb_par b) (mkPB (pb_par b) (pb_min b) (pb_max b)) d) l d in NoDup (keys d') /\ map pb_par (values d') = keys d').
      { clear. induction l as [|c l IH]; intros d A B; [split; assumption|]. cbn [fold_left]. apply IH; [apply NoDup_keys_dset, A|].
        clear - B. induction d as [|[k b] d IH]; [reflexivity|]. cbn in B. injection B as B1 B2. cbn [dset]. destruct (String.eqb_spec (pb_par c) k) as [->|Hk]; cbn; [rewrite <- B2; reflexivity|]. rewrite B1. f_equal. apply IH, B2. }
      destruct (G (values bs0) (model_bounds m)) as [A B]; [unfold model_bounds, keys; rewrite map_map; exact NM|unfold model_bounds, keys, values; rewrite !map_map; reflexivity|]. rewrite B. exact A. }
    intros n b Hn Hp. apply dget_In in Hn. apply (in_map snd) in Hn. cbn in Hn. fold (values bs0) in Hn. clear - Hn Hp N. revert N Hn. generalize (values bs0). intros l. generalize (model_bounds m).
    induction l as [|c l IH]; intros d N Hn; [destruct Hn|]. cbn [map] in N. inversion N as [|? ? N1 N2]; subst. cbn [fold_left]. destruct Hn as [->|Hn]; [|apply IH; assumption].
    assert (G : forall l d, ~ In (pb_par b) (map pb_par l) -> dget (pb_par b) (fold_left (fun d b => dset (pb_par b) (mkPB (pb_par b) (pb_min b) (pb_max b)) d) l d) = dget (pb_par b) d).
    { clear. induction l as [|c l IH]; intros d Hni; [reflexivity|]. cbn [fold_left]. rewrite IH by (intros X; apply Hni; now right). apply dget_dset_neq. intros E. apply Hni. left. symmetry. exact E. }
    rewrite G by exact N1. rewrite dget_dset_eq. destruct b; reflexivity. }
  unfold opti_tmu in Ht. apply bind_Ok in Ht as ([t1 u1] & H1 & Ht). destruct (PB _ _ _ H1 bs HB N) as (bs1 & B1 & N1 & G1).
  assert (D1 : (t1, u1) = (t, s1) -> exists bs', mi_bounds s1 = Some bs' /\ forall n b, dget n bs = Some b -> pb_par b = n -> dget n bs' = Some b) by (intros [= _ <-]; eauto).
  destruct (_ && _)%bool; [|apply D1; congruence]. destruct (_ && _)%bool; [discriminate|]. destruct (mi_alt u1) as [al|]; [|apply D1; congruence].
  apply bind_Ok in Ht as ([t2 u2] & H2 & Ht). destruct (_ && _)%bool; [discriminate|]. injection Ht as <- <-.
  destruct (PB _ _ _ H2 bs1 B1 N1) as (bs2 & B2 & _ & G2). exists bs2. split; [exact B2|]. intros n b E1 E2. apply G2; [apply G1; assumption|exact E2].
Qed.
Print Assumptions C78_bounds_used.
Definition tbounded : Mini := mkMini "scalar" 1 None 0 None false 0 None (Some [("mu", mkPB "mu" (Some 1) (Some 4))]) None None None None None (Fin 0) None None.
Example C78_nonvacuous : exists I p s', set_internal_vars ex_env (tmod (Some 0) (Some 10)) = Ok I /\
  compute_fast_plr (tmod (Some 0) (Some 10)) I (tfit (topt true [3])) tbounded [("mu", 2)] None = Ok (p, s') /\ NoDup (keys (m_pois (tmod (Some 0) (Some 10)))) /\
  mi_bounds s' = Some [("mu", mkPB "mu" (Some 1) (Some 4))].
Proof.
  destruct (tmod_built (Some 0) (Some 10)) as (I & H & Hp & Hr). exists I. eexists _, _. split; [exact H|]. split; [|split].
  - unfold compute_fast_plr, opti_tmu, poi_tmu, set_pois_min, check_hypo. rewrite Hp, Hr. ev. reflexivity.
  - cbn. repeat constructor. intros [].
  - reflexivity.
Qed.

(** False part: the t_mu calculator drops the bounds (and initial values) that were set on its minimizer: the results are the same for all of
    them. *)
Theorem C78_tmu_drops_bounds_refuted : forall hash D m I F s ib a hypos full mode,
  tmu_results hash D m I F (with_pois s ib) (a :: hypos) full mode = tmu_results hash D m I F s (a :: hypos) full mode.
Proof.
  intros. unfold tmu_results. destruct (mode_of mode) as [mo|]; [|reflexivity]. cbn [bind foldM]. assert (E : forall al, tmu_step hash m I F al full ([], with_pois s ib) a = tmu_step hash m I F al full ([], s) a); [|rewrite E; reflexivity].
  intros al. destruct a as [h|h]; [|reflexivity]. cbn [tmu_step fst snd]. f_equal.
Qed.
Print Assumptions C78_tmu_drops_bounds_refuted.
(** in particular the limits of the free fit are the ones of the model: here the optimizer is given [0, 10] and not [1, 4] *)
Definition first_range : optimizer := fun _ obj _ _ rg => match rg with (Some lo, _) :: _ => let! v := obj [lo] in Ok (mkOpt [[lo]] true [lo] v) | _ => Err ValueError end.
Example C78_drops_bounds_nonvacuous : forall D, exists I r s' p, set_internal_vars ex_env (tmod (Some 0) (Some 10)) = Ok I /\
  tmu_results (fun _ => 0%Z) D (tmod (Some 0) (Some 10)) I (tfit first_range) tbounded [HObj [("mu", 2)]] [] "all" = Ok (r, s') /\ In ([("mu", 2)], p) (ra_points r) /\
  dget "mu" (fr_pars (plr_free p)) = Some (fitpar_new "mu" (Some 0)).
Proof.
  intros D. destruct (tmod_built (Some 0) (Some 10)) as (I & H & Hp & Hr). exists I. eexists _, _, _. split; [exact H|]. split.
  - unfold tmu_results. cbn [map foldM tmu_step hget bind fst snd mode_of String.eqb Ascii.eqb Bool.eqb]. unfold tmu_point, common_free, finish_point, set_pois_min, check_hypo. rewrite Hp, Hr. ev. reflexivity.
  - split; [left; reflexivity|]. reflexivity.
Qed.

(** False part: the documented plain dictionaries are not accepted by the t_mu calculator *)
Theorem C78_plain_hypotheses_refuted : forall hash D m I F s h hypos full, tmu_results hash D m I F s (HPlain h :: hypos) full "all" = Err TypeError.
Proof. reflexivity. Qed.
Print Assumptions C78_plain_hypotheses_refuted.
