(** C39, C76-C78: test statistics computed by the calculators *)
From Verif Require Import Py PyFacts Base Expressions Norms Sample Channels Params ParamsFacts Core CoreExample NpMin PoiMin PoiMinFacts PoiMinProps PoiHistProps TestStat FitData FitDataFacts Calculators CalcFacts.
Local Open Scope string_scope.
Local Open Scope list_scope.
Local Open Scope R_scope.

(** ** Specification: the likelihood fit with the parameters of hypothesis [h] held fixed, other POIs in the ranges of the model *)
Definition fixed_fit (m : Model) (I : Internal) (F : FitEnv) (s : Mini) (h : Hypo) (full : option Params) (pars : option Params) (v : R) : Prop :=
  exists hib r hm, set_pois_min m I full (Some (values (model_bounds m))) (Some h) true = Ok hib /\
    minimize m I F (with_pois (mini_clone s) hib) None = Ok (r, hm) /\ mi_min_pars hm = pars /\ mi_min_nll hm = Some (Fin v).

Lemma fixed_fit_fun m I F s h full p1 v1 p2 v2 : fixed_fit m I F s h full p1 v1 -> fixed_fit m I F s h full p2 v2 -> v1 = v2.
Proof. intros (a & r & hm & A & B & C & D) (a' & r' & hm' & A' & B' & C' & D'). rewrite A in A'. injection A' as <-. rewrite B in B'. injection B' as <- <-. congruence. Qed.

Lemma set_pois_own_bounds m I init h p bs : set_pois_min m I init None (Some h) false = Ok (p, bs) -> bs = model_bounds m.
Proof.
  unfold set_pois_min. intros H. apply bind_Ok in H as (p0 & _ & H). apply bind_Ok in H as (p1 & _ & H). apply bind_Ok in H as (b & Hb & H). apply bind_Ok in H as (p2 & _ & H). injection H as _ <-.
  cbn in Hb. congruence.
Qed.
Lemma tmu_point_fixed m I F all s h full p s' a : tmu_point m I F all s h full = Ok (p, s') -> fr_nll (pt_fixed p) = Some a -> fixed_fit m I F s h full (pt_pars p) a.
Proof.
  unfold tmu_point. intros H Ha. apply bind_Ok in H as (u & _ & H). apply bind_Ok in H as ([p0 bs] & Hib & H). apply bind_Ok in H as (hib & Hhib & H). apply bind_Ok in H as ([r hm] & Hm & H).
  apply bind_Ok in H as (hn & Hn & H). apply bind_Ok in H as (fx & Hf & H).
  assert (pt_fixed p = fx /\ pt_pars p = mi_min_pars hm) as [<- Ep].
  { destruct all; [|injection H as <- <-; auto]. apply bind_Ok in H as ([r2 s2] & _ & H). apply bind_Ok in H as (fn & _ & H). apply bind_Ok in H as (fr & _ & H). injection H as <- <-. auto. }
  apply set_pois_own_bounds in Hib as ->. cbn [with_pois mi_bounds snd option_map] in Hhib. exists hib, r, hm. split; [exact Hhib|]. split; [exact Hm|]. split; [congruence|].
  assert (fr_nll (pt_fixed p) = hn) as E.
  { unfold fit_new in Hf. apply bind_Ok in Hf as (d & _ & Hf). injection Hf as <-. reflexivity. }
  rewrite Ha in E. subst hn. destruct (mi_min_nll hm) as [[x| | |]|]; cbn in Hn; congruence.
Qed.

(** ** C39: scans where the common free fit is the best of the fixed fits *)
Theorem C39_common_best_fit : forall hash D m I F s hypos full r s', separated hash hypos ->
  tmu_results hash D m I F s (map HObj hypos) full "best_fixed_fit" = Ok (r, s') ->
  (forall h, In h hypos <-> exists p, In (h, p) (ra_points r)) /\
  exists vmin hbest pbest ptsbest, In (hbest, pbest) (ra_points r) /\ fixed_fit m I F s hbest (hget hash hbest full) ptsbest vmin /\ dget "tmu" (plr_ts pbest) = Some (VNum (2 * (vmin - vmin))) /\
    forall h p, In (h, p) (ra_points r) -> exists pars v, fixed_fit m I F s h (hget hash h full) pars v /\ fr_nll (plr_fixed p) = Some v /\ fr_nll (plr_free p) = Some vmin /\
      dget "tmu" (plr_ts p) = Some (VNum (2 * (v - vmin))) /\ 0 <= 2 * (v - vmin).
Proof.
  intros hash D m I F s hypos full r s' S H. unfold tmu_results in H. cbn [mode_of] in H. change (mode_of "best_fixed_fit") with (Ok MBestFixed) in H. cbn [bind] in H.
  apply bind_Ok in H as ([pts s1] & Hl & H). apply bind_Ok in H as ([common s2] & Hc & H). apply bind_Ok in H as (plrs & Hm & H). apply bind_Ok in H as (r0 & Hr & H). apply bind_Ok in H as (r1 & Hf & H).
  injection H as <- <-. destruct (tmu_loop hash m I F full hypos S hypos [] s pts s1 (incl_refl _) ltac:(intros ? ? []) Hl) as (_ & B & C & _).
  pose proof (tmu_finish _ _ _ _ _ _ _ Hm Hr Hf) as T.
  cbn [common_free] in Hc. apply bind_Ok in Hc as ([hb pb] & Hb & Hc). apply bind_Ok in Hc as (f & Hfit & Hc). injection Hc as <- <-. cbn [snd] in Hfit.
  destruct (best_fixed_spec _ _ Hb) as (w & Hw & Hin & Hmin). cbn [snd] in Hw.
  assert (Hfn : fr_nll f = Some w) by (unfold fit_new in Hfit; apply bind_Ok in Hfit as (d & _ & E); injection E as <-; exact Hw).
  split.
  - intros h. split.
    + intros Hh. destruct (C h Hh) as [p Hp]. destruct (Forall2_in_l _ _ _ _ T Hp) as ([h' p'] & Hin' & E & _). cbn in E. subst. eauto.
    + intros [p Hp]. destruct (Forall2_in_r _ _ _ _ T Hp) as ([h' p'] & Hin' & E & _). cbn in E. subst. destruct (B _ _ Hin') as [[]|[Hh _]]. exact Hh.
  - assert (G : forall h p, In (h, p) (ra_points r1) -> exists pars v, fixed_fit m I F s h (hget hash h full) pars v /\ fr_nll (plr_fixed p) = Some v /\ fr_nll (plr_free p) = Some w /\
        dget "tmu" (plr_ts p) = Some (VNum (2 * (v - w))) /\ 0 <= 2 * (v - w)).
    { intros h p Hp. destruct (Forall2_in_r _ _ _ _ T Hp) as ([h' p'] & Hin' & E & free & a & b & Hfree & Ha & Hbn & E1 & E2 & E3 & Ht & _). cbn [fst snd] in *. subst h'.
      destruct Hfree as [[= <-]|[? _]]; [|discriminate]. rewrite Hfn in Hbn. injection Hbn as <-.
      destruct (B _ _ Hin') as [[]|[_ [sx Hx]]]. exists (pt_pars p'), a. split; [eapply tmu_point_fixed; eauto|]. split; [congruence|]. split; [congruence|]. split; [exact Ht|].
      destruct (Hmin _ Hin') as (u & Hu & Hle). cbn [snd] in Hu. rewrite Ha in Hu. injection Hu as <-. lra. }
    destruct (Forall2_in_l _ _ _ _ T Hin) as ([h' p'] & Hin' & E & _). cbn in E. subst h'.
    destruct (B _ _ Hin) as [[]|[_ [sx Hx]]]. exists w, hb, p', (pt_pars pb). split; [exact Hin'|]. pose proof (tmu_point_fixed _ _ _ _ _ _ _ _ _ _ Hx Hw) as Hff. split; [exact Hff|]. split; [|exact G].
    destruct (G _ _ Hin') as (pr & v & Hv & _ & _ & Ht & _). rewrite (fixed_fit_fun _ _ _ _ _ _ _ _ _ _ Hv Hff) in Ht. exact Ht.
Qed.
Print Assumptions C39_common_best_fit.

(** adding hypotheses to the scan never makes a t_mu smaller *)
Theorem C39_more_points : forall hash D m I F s hypos hypos' full r r' s1 s1' h p p' t t', separated hash hypos' -> incl hypos hypos' ->
  tmu_results hash D m I F s (map HObj hypos) full "best_fixed_fit" = Ok (r, s1) ->
  tmu_results hash D m I F s (map HObj hypos') full "best_fixed_fit" = Ok (r', s1') ->
  In (h, p) (ra_points r) -> In (h, p') (ra_points r') -> dget "tmu" (plr_ts p) = Some (VNum t) -> dget "tmu" (plr_ts p') = Some (VNum t') -> t <= t'.
Proof.
  intros hash D m I F s hypos hypos' full r r' s1 s1' h p p' t t' S HI H H' Hin Hin' Ht Ht'.
  assert (S0 : separated hash hypos) by (intros a b Ha Hb; apply S; apply HI; assumption).
  destruct (C39_common_best_fit _ _ _ _ _ _ _ _ _ _ S0 H) as (K & w & hb & pb & q & Hb & Hw & _ & G).
  destruct (C39_common_best_fit _ _ _ _ _ _ _ _ _ _ S H') as (K' & w' & _ & _ & _ & _ & _ & _ & G').
  destruct (G _ _ Hin) as (q1 & v & Hv & _ & _ & E & _). destruct (G' _ _ Hin') as (q2 & v' & Hv' & _ & _ & E' & _).
  rewrite (fixed_fit_fun _ _ _ _ _ _ _ _ _ _ Hv' Hv) in E'. rewrite E in Ht. injection Ht as <-. rewrite E' in Ht'. injection Ht' as <-.
  destruct (proj1 (K' hb) (HI _ (proj2 (K hb) (ex_intro _ pb Hb)))) as [pb' Hb']. destruct (G' _ _ Hb') as (q3 & u & Hu & _ & _ & _ & P). rewrite (fixed_fit_fun _ _ _ _ _ _ _ _ _ _ Hu Hw) in P. lra.
Qed.
Print Assumptions C39_more_points.

Definition tsep : list Hypo := [[("mu", 1)]; [("mu", 5)]].
Lemma tsep_ok hash : separated hash tsep.
Proof.
  intros a b [<-|[<-|[]]] [<-|[<-|[]]] E; try reflexivity; exfalso; unfold same_key, hypo_eqb in E; cbn in E; apply andb_true_iff in E as [_ E]; apply andb_true_iff in E as [E _]; apply Reqb_true in E; lra.
Qed.
Definition h0 : list string -> Z := fun _ => 0%Z.
Example C39_nonvacuous : forall D, exists I r s', set_internal_vars ex_env (tmod (Some 0) (Some 10)) = Ok I /\ separated h0 tsep /\
  tmu_results h0 D (tmod (Some 0) (Some 10)) I (tfit (topt true [3])) (tmini "scalar") (map HObj tsep) [] "best_fixed_fit" = Ok (r, s') /\ map fst (ra_points r) = tsep.
Proof.
  intros D. destruct (tmod_built (Some 0) (Some 10)) as (I & H & Hp & Hr). exists I. eexists _, _. split; [exact H|]. split; [apply tsep_ok|]. split.
  - unfold tmu_results, tsep. cbn [map foldM tmu_step hget bind fst snd mode_of String.eqb Ascii.eqb Bool.eqb]. unfold tmu_point, common_free, finish_point, set_pois_min, check_hypo. rewrite Hp, Hr. ev. reflexivity.
  - reflexivity.
Qed.

(** ** C76: the other modes of the t_mu calculator *)

(** the fit with all the POIs free, started at hypothesis [h] *)
Definition free_fit_at (m : Model) (I : Internal) (F : FitEnv) (s : Mini) (h : Hypo) (full : option Params) (pars : option Params) (v : R) : Prop :=
  exists ib r s2, set_pois_min m I full None (Some h) false = Ok ib /\ minimize m I F (with_pois s ib) None = Ok (r, s2) /\ mi_min_pars s2 = pars /\ mi_min_nll s2 = Some (Fin v).

Lemma tmu_point_free m I F s h full p s' free b : tmu_point m I F true s h full = Ok (p, s') -> pt_free p = Some free -> fr_nll free = Some b ->
  exists pars, free_fit_at m I F s h full pars b.
Proof.
  unfold tmu_point. intros H Hf Hb. apply bind_Ok in H as (u & _ & H). apply bind_Ok in H as (ib & Hib & H). apply bind_Ok in H as (hib & Hhib & H). apply bind_Ok in H as ([r hm] & Hm & H).
  apply bind_Ok in H as (hn & Hn & H). apply bind_Ok in H as (fx & Hfx & H). apply bind_Ok in H as ([r2 s2] & Hs & H). apply bind_Ok in H as (fn & Hfn & H). apply bind_Ok in H as (fr & Hfr & H).
  injection H as <- <-. cbn in Hf. injection Hf as <-. exists (mi_min_pars s2), ib, r2, s2. split; [exact Hib|]. split; [exact Hs|]. split; [reflexivity|].
  assert (fr_nll fr = fn) as E by (unfold fit_new in Hfr; apply bind_Ok in Hfr as (d & _ & Hfr); injection Hfr as <-; reflexivity).
  rewrite Hb in E. subst fn. destruct (mi_min_nll s2) as [[x| | |]|]; cbn in Hfn; congruence.
Qed.
Lemma tmu_point_config m I F s h full p s' : suitable m (mi_method s) -> tmu_point m I F true s h full = Ok (p, s') -> config s' = config s.
Proof.
  unfold tmu_point. intros HS H. apply bind_Ok in H as (u & _ & H). apply bind_Ok in H as ([p0 bs] & Hib & H). apply bind_Ok in H as (hib & Hhib & H). apply bind_Ok in H as ([r hm] & Hm & H).
  apply bind_Ok in H as (hn & Hn & H). apply bind_Ok in H as (fx & Hfx & H). apply bind_Ok in H as ([r2 s2] & Hs & H). apply bind_Ok in H as (fn & Hfn & H). apply bind_Ok in H as (fr & Hfr & H).
  injection H as <- <-. apply set_pois_own_bounds in Hib as ->. eapply minimize_stable in Hs; [|reflexivity|discriminate|exact HS]. destruct Hs as (E & _). exact E.
Qed.
Lemma free_fit_config m I F s s' h full pars v : evaluates F -> config s = config s' -> free_fit_at m I F s h full pars v -> free_fit_at m I F s' h full pars v.
Proof.
  intros HE HC (ib & r & s2 & A & B & C & D). pose proof (minimize_agree m I F (with_pois s ib) (with_pois s' ib) HE HC eq_refl eq_refl ltac:(discriminate) ltac:(discriminate)) as G.
  rewrite B in G. destruct (minimize m I F (with_pois s' ib) None) as [[r' s2']|] eqn:E; [|contradiction]. cbn in G. destruct G as (_ & _ & _ & _ & G1 & G2). exists ib, r', s2'. repeat split; try assumption; congruence.
Qed.
Lemma fixed_fit_config m I F s s' h full pars v : config s = config s' -> fixed_fit m I F s h full pars v -> fixed_fit m I F s' h full pars v.
Proof. intros HC. unfold fixed_fit. rewrite (config_clone _ _ HC). auto. Qed.

Lemma tmu_loop_config hash m I F full hs0 s0 : separated hash hs0 -> suitable m (mi_method s0) -> forall hs d s d' s', incl hs hs0 -> config s = config s0 ->
  (forall x w, In (x, w) d -> In x hs0) ->
  foldM (tmu_step hash m I F true full) (map HObj hs) (d, s) = Ok (d', s') ->
  config s' = config s0 /\
  (forall h p, In (h, p) d' -> In (h, p) d \/ (In h hs /\ exists s1 s2, config s1 = config s0 /\ tmu_point m I F true s1 h (hget hash h full) = Ok (p, s2))) /\
  (forall h, In h hs -> exists p, In (h, p) d') /\ (forall h p, In (h, p) d -> exists p', In (h, p') d').
Proof.
  intros S HS. induction hs as [|h hs IH]; intros d s d' s' Hincl HC K H.
  - cbn in H. injection H as <- <-. split; [exact HC|]. split; [auto|]. split; [intros h []|eauto].
  - cbn [map foldM tmu_step] in H. apply bind_Ok in H as ([d1 s1] & Hp & H). apply bind_Ok in Hp as ([p s1'] & Hp & E). injection E as <- <-. cbn [fst snd] in *.
    assert (Hh : In h hs0) by (apply Hincl; now left).
    assert (K1 : forall x w, In (x, w) (hset hash h p d) -> In x hs0) by (intros x w Hin; destruct (hset_in hash hs0 d h p S K Hh x w Hin) as [[-> _]|Hin']; eauto).
    assert (HC1 : config s1' = config s0) by (rewrite (tmu_point_config _ _ _ _ _ _ _ _ ltac:(rewrite (config_method _ _ HC); exact HS) Hp); exact HC).
    destruct (IH _ _ _ _ (fun x Hx => Hincl x (or_intror Hx)) HC1 K1 H) as (A & B & C & D). split; [exact A|]. split; [|split].
    + intros h1 p1 Hin. destruct (B h1 p1 Hin) as [Hin'|[Hin' Hp1]].
      * destruct (hset_in hash hs0 d h p S K Hh _ _ Hin') as [[-> ->]|?]; [right; split; [now left|eauto]|now left].
      * right. split; [now right|exact Hp1].
    + intros x [<-|Hx]; [|apply C, Hx]. eapply D. eapply hset_has; eauto.
    + intros x w Hin. destruct (hset_keeps hash d h p x w Hin) as [w' Hw]. eapply D, Hw.
Qed.

(** In the default mode every point gets twice the difference of its own two fits, made with the settings of the calculator's
    minimizer whatever the other points are, and the chi-squared p-value of this number for the number of POIs of the hypothesis. *)
Theorem C76_own_fits : forall hash D m I F s hypos full r s', separated hash hypos -> suitable m (mi_method s) -> evaluates F ->
  tmu_results hash D m I F s (map HObj hypos) full "all" = Ok (r, s') ->
  (forall h, In h hypos <-> exists p, In (h, p) (ra_points r)) /\
  forall h p, In (h, p) (ra_points r) -> exists q1 q2 a b, fixed_fit m I F s h (hget hash h full) q1 a /\ free_fit_at m I F s h (hget hash h full) q2 b /\
    plr_hypo p = h /\ fr_nll (plr_fixed p) = Some a /\ fr_nll (plr_free p) = Some b /\
    dget "tmu" (plr_ts p) = Some (VNum (2 * (a - b))) /\ dget "pv" (plr_pvs p) = Some (VNum (chi2sf D (2 * (a - b)) (length h))).
Proof.
  intros hash D m I F s hypos full r s' S HS HE H. unfold tmu_results in H. change (mode_of "all") with (Ok MAll) in H. cbn [bind] in H.
  apply bind_Ok in H as ([pts s1] & Hl & H). apply bind_Ok in H as ([common s2] & Hc & H). apply bind_Ok in H as (plrs & Hm & H). apply bind_Ok in H as (r0 & Hr & H). apply bind_Ok in H as (r1 & Hf & H).
  injection H as <- <-. destruct (tmu_loop_config hash m I F full hypos s S HS hypos [] s pts s1 (incl_refl _) eq_refl ltac:(intros ? ? []) Hl) as (_ & B & C & _).
  pose proof (tmu_finish _ _ _ _ _ _ _ Hm Hr Hf) as T. cbn in Hc. injection Hc as <- <-. split.
  - intros h. split.
    + intros Hh. destruct (C h Hh) as [p Hp]. destruct (Forall2_in_l _ _ _ _ T Hp) as ([h' p'] & Hin' & E & _). cbn in E. subst. eauto.
    + intros [p Hp]. destruct (Forall2_in_r _ _ _ _ T Hp) as ([h' p'] & Hin' & E & _). cbn in E. subst. destruct (B _ _ Hin') as [[]|[Hh _]]. exact Hh.
  - intros h p Hp. destruct (Forall2_in_r _ _ _ _ T Hp) as ([h' p'] & Hin' & E & free & a & b & Hfree & Ha & Hbn & E1 & E2 & E3 & Ht & Hpv). cbn [fst snd] in *. subst h'.
    destruct Hfree as [?|[_ Hfree]]; [discriminate|]. destruct (B _ _ Hin') as [[]|[_ (sx & sy & HC & Hx)]].
    pose proof (tmu_point_fixed _ _ _ _ _ _ _ _ _ _ Hx Ha) as X1. destruct (tmu_point_free _ _ _ _ _ _ _ _ _ _ Hx Hfree Hbn) as [q2 X2].
    exists (pt_pars p'), q2, a, b. split; [eapply fixed_fit_config; eauto|]. split; [eapply free_fit_config; eauto|]. repeat split; try assumption; congruence.
Qed.
Print Assumptions C76_own_fits.
Example C76_nonvacuous : forall D, exists I r s', set_internal_vars ex_env (tmod (Some 0) (Some 10)) = Ok I /\ suitable (tmod (Some 0) (Some 10)) "scalar" /\ evaluates (tfit (topt true [3])) /\
  tmu_results h0 D (tmod (Some 0) (Some 10)) I (tfit (topt true [3])) (tmini "scalar") (map HObj tsep) [] "all" = Ok (r, s') /\ map fst (ra_points r) = tsep.
Proof.
  intros D. destruct (tmod_built (Some 0) (Some 10)) as (I & H & Hp & Hr). exists I. eexists _, _. split; [exact H|]. split; [left; unfold nfree, is_open; cbn; rewrite (proj2 (Rltb_true 0 10)) by lra; reflexivity|].
  split; [apply topt_evaluates|]. split.
  - unfold tmu_results, tsep. cbn [map foldM tmu_step hget bind fst snd mode_of String.eqb Ascii.eqb Bool.eqb]. unfold tmu_point, common_free, finish_point, set_pois_min, check_hypo. rewrite Hp, Hr. ev. reflexivity.
  - reflexivity.
Qed.

(** With a single free fit, every point has the same free fit: the one started at the hypothesis of the best fixed fit *)
Theorem C76_single_fit : forall hash D m I F s hypos full r s', separated hash hypos -> NoDup (keys (m_pois m)) -> evaluates F -> mi_bounds s = None \/ mi_bounds s = Some (model_bounds m) ->
  tmu_results hash D m I F s (map HObj hypos) full "single" = Ok (r, s') ->
  (forall h, In h hypos <-> exists p, In (h, p) (ra_points r)) /\
  exists hbest q b, In hbest hypos /\ free_fit_at m I F s hbest None q b /\
  forall h p, In (h, p) (ra_points r) -> exists q1 q2 a v, fixed_fit m I F s h (hget hash h full) q1 a /\ fixed_fit m I F s hbest (hget hash hbest full) q2 v /\ v <= a /\
    fr_nll (plr_free p) = Some b /\
    dget "tmu" (plr_ts p) = Some (VNum (2 * (a - b))) /\ dget "pv" (plr_pvs p) = Some (VNum (chi2sf D (2 * (a - b)) (length h))).
Proof.
  intros hash D m I F s hypos full r s' S N HE HB H. unfold tmu_results in H. change (mode_of "single") with (Ok MSingle) in H. cbn [bind] in H.
  apply bind_Ok in H as ([pts s1] & Hl & H). apply bind_Ok in H as ([common s2] & Hc & H). apply bind_Ok in H as (plrs & Hm & H). apply bind_Ok in H as (r0 & Hr & H). apply bind_Ok in H as (r1 & Hf & H).
  injection H as <- <-. destruct (tmu_loop hash m I F full hypos S hypos [] s pts s1 (incl_refl _) ltac:(intros ? ? []) Hl) as (_ & B & C & _).
  assert (ST : config s1 = config s /\ (mi_bounds s1 = None \/ mi_bounds s1 = Some (model_bounds m))).
  { clear - Hl HB. assert (G : forall hs d s d' s', (mi_bounds s = None \/ mi_bounds s = Some (model_bounds m)) -> foldM (tmu_step hash m I F false full) (map HObj hs) (d, s) = Ok (d', s') -> config s' = config s /\ (mi_bounds s' = None \/ mi_bounds s' = Some (model_bounds m))).
    { induction hs as [|h hs IH]; intros d s0 d' s' HB0 H; [cbn in H; injection H as <- <-; auto|]. cbn [map foldM tmu_step] in H. apply bind_Ok in H as ([d1 sx] & Hp & H). apply bind_Ok in Hp as ([p sy] & Hp & E). injection E as <- <-. cbn [fst snd] in *.
      assert (config sy = config s0 /\ mi_bounds sy = Some (model_bounds m)) as [E1 E2].
      { clear - Hp. unfold tmu_point in Hp. apply bind_Ok in Hp as (u & _ & H). apply bind_Ok in H as ([p0 bs] & Hib & H). apply bind_Ok in H as (hib & _ & H). apply bind_Ok in H as ([r hm] & _ & H).
        apply bind_Ok in H as (hn & _ & H). apply bind_Ok in H as (fx & _ & H). injection H as <- <-. apply set_pois_own_bounds in Hib as ->. auto. }
      destruct (IH _ _ _ _ (or_intror E2) H) as [A1 A2]. split; [congruence|exact A2]. }
    eapply G; eauto. }
  destruct ST as [SC SB].
  pose proof (tmu_finish _ _ _ _ _ _ _ Hm Hr Hf) as T.
  cbn [common_free] in Hc. apply bind_Ok in Hc as ([hb pb] & Hb & Hc). apply bind_Ok in Hc as (ib & Hib & Hc). apply bind_Ok in Hc as ([rr sz] & Hmin & Hc). apply bind_Ok in Hc as (fn & Hfn & Hc).
  apply bind_Ok in Hc as (f & Hfit & Hc). injection Hc as <- <-. cbn [fst] in Hib. rewrite (neutral_set_pois m I None (Some hb) false s1 N SB) in Hib.
  destruct (best_fixed_spec _ _ Hb) as (w & Hw & Hin & Hle). cbn [snd] in Hw. destruct (B _ _ Hin) as [[]|[Hhb [sx Hx]]]. pose proof (tmu_point_fixed _ _ _ _ _ _ _ _ _ _ Hx Hw) as Hff.
  assert (Hfn' : fr_nll f = fn) by (unfold fit_new in Hfit; apply bind_Ok in Hfit as (d & _ & E); injection E as <-; reflexivity). split.
  - intros h. split.
    + intros Hh. destruct (C h Hh) as [p Hp]. destruct (Forall2_in_l _ _ _ _ T Hp) as ([h' p'] & Hin' & E & _). cbn in E. subst. eauto.
    + intros [p Hp]. destruct (Forall2_in_r _ _ _ _ T Hp) as ([h' p'] & Hin' & E & _). cbn in E. subst. destruct (B _ _ Hin') as [[]|[Hh _]]. exact Hh.
  - assert (exists b, fn = Some b) as [b ->].
    { destruct (Forall2_in_l _ _ _ _ T Hin) as ([h' p'] & _ & _ & free & a & b & [[= <-]|[? _]] & _ & E & _); [|discriminate]. exists b. congruence. }
    exists hb, (mi_min_pars sz), b. split; [exact Hhb|]. split.
    + eapply free_fit_config; [exact HE|exact SC|]. exists ib, rr, sz. split; [exact Hib|]. split; [exact Hmin|]. split; [reflexivity|]. destruct (mi_min_nll sz) as [[x| | |]|]; cbn in Hfn; congruence.
    + intros h p Hp. destruct (Forall2_in_r _ _ _ _ T Hp) as ([h' p'] & Hin' & E & free & a & b' & Hfree & Ha & Hbn & E1 & E2 & E3 & Ht & Hpv). cbn [fst snd] in *. subst h'.
      destruct Hfree as [[= <-]|[? _]]; [|discriminate]. rewrite Hfn' in Hbn. injection Hbn as <-. destruct (B _ _ Hin') as [[]|[_ [sy Hy]]].
      exists (pt_pars p'), (pt_pars pb), a, w. split; [eapply tmu_point_fixed; eauto|]. split; [exact Hff|]. split; [|split; [congruence|split; assumption]].
      destruct (Hle _ Hin') as (u & Hu & Hlu). cbn [snd] in Hu. rewrite Ha in Hu. injection Hu as <-. exact Hlu.
Qed.
Print Assumptions C76_single_fit.
Example C76_single_nonvacuous : forall D, exists I r s', set_internal_vars ex_env (tmod (Some 0) (Some 10)) = Ok I /\ NoDup (keys (m_pois (tmod (Some 0) (Some 10)))) /\ mi_bounds (tmini "scalar") = None /\
  tmu_results h0 D (tmod (Some 0) (Some 10)) I (tfit (topt true [3])) (tmini "scalar") (map HObj tsep) [] "single" = Ok (r, s') /\ map fst (ra_points r) = tsep.
Proof.
  intros D. destruct (tmod_built (Some 0) (Some 10)) as (I & H & Hp & Hr). exists I. eexists _, _. split; [exact H|]. split; [cbn; repeat constructor; intros []|]. split; [reflexivity|]. split.
  - unfold tmu_results, tsep. cbn [map foldM tmu_step hget bind fst snd mode_of String.eqb Ascii.eqb Bool.eqb]. unfold tmu_point, common_free, finish_point, set_pois_min, check_hypo. rewrite Hp, Hr. ev. reflexivity.
  - reflexivity.
Qed.

(** an unknown mode is refused *)
Theorem C76_unknown_mode : forall hash D m I F s hypos full mode, mode <> "all" -> mode <> "single" -> mode <> "best_fixed_fit" -> tmu_results hash D m I F s hypos full mode = Err ValueError.
Proof.
  intros. unfold tmu_results, mode_of. repeat match goal with |- context [String.eqb ?a ?b] => destruct (String.eqb_spec a b); [contradiction|] end. reflexivity.
Qed.
Print Assumptions C76_unknown_mode.

(** ** C77: stored p-values belong to the stored test statistics; t_mu is not negative *)

(** A single test gives a non-negative t_mu, also for the Asimov dataset. *)
Theorem C77_single_test_not_negative : forall m I F s h full p s', compute_fast_plr m I F s h full = Ok (p, s') -> exists t, dget "tmu" (plr_ts p) = Some (VNum t) /\ 0 <= t.
Proof.
  intros m I F s h full p s' H. unfold compute_fast_plr in H. apply bind_Ok in H as (u & _ & H). apply bind_Ok in H as ([t s1] & Ht & H). apply bind_Ok in H as (x & Hx & H).
  apply bind_Ok in H as (fn & _ & H). apply bind_Ok in H as (fr & _ & H). apply bind_Ok in H as (hn & _ & H). apply bind_Ok in H as (fx & _ & H). apply bind_Ok in H as (q & Hq & H). injection H as <- <-.
  destruct (C32_never_negative _ _ _ _ _ _ _ _ Ht) as [_ P]. destruct t as [y| | |]; try discriminate. injection Hx as ->.
  unfold plr_update in Hq. apply bind_Ok in Hq as (v & _ & Hq). cbn in Hq. injection Hq as <-. exists x. split; [reflexivity|apply P; reflexivity].
Qed.
Print Assumptions C77_single_test_not_negative.
Example C77_single_nonvacuous : exists I p s', set_internal_vars ex_env (tmod (Some 0) (Some 10)) = Ok I /\ compute_fast_plr (tmod (Some 0) (Some 10)) I (tfit (topt true [3])) (tmini "scalar") [("mu", 1)] None = Ok (p, s').
Proof.
  destruct (tmod_built (Some 0) (Some 10)) as (I & H & Hp & Hr). exists I. eexists _, _. split; [exact H|]. unfold compute_fast_plr, opti_tmu, poi_tmu, set_pois_min, check_hypo. rewrite Hp, Hr. ev. reflexivity.
Qed.

(** what fill_pv stores, for the two one-sided statistics: [q], the p-value, CLs and CLb of the test statistic built from the hypothesis, the
    stored t_mu, the best-fit value and the stored Asimov t_mu *)
Definition pvs_of (D : Dist) (k : calc_kind) (h t b a : R) : res (R * R * R * R) :=
  match k with CalcQMuTilda => fill_pv_qmt D (make_qmt h t b a) | _ => fill_pv_qmu D (make_qmu h t b a) end.
Definition q_key (k : calc_kind) : string := match k with CalcQMuTilda => "q~mu" | _ => "q_mu" end.
Definition consistent (D : Dist) (k : calc_kind) (p : PLR) : Prop :=
  exists n h t b a q pv cls clb fp, hd_error (keys (plr_hypo p)) = Some n /\ dget n (plr_hypo p) = Some h /\
    dget "tmu" (plr_ts p) = Some (VNum t) /\ dget "tmu_A0" (plr_ts p) = Some (VNum a) /\ dget n (fr_pars (plr_free p)) = Some fp /\ fp_value fp = Some b /\
    pvs_of D k h t b a = Ok (q, pv, cls, clb) /\
    dget (q_key k) (plr_ts p) = Some (VNum q) /\ dget "pv" (plr_pvs p) = Some (VNum pv) /\ dget "cls" (plr_pvs p) = Some (VNum cls) /\ dget "clb" (plr_pvs p) = Some (VNum clb).

Lemma fill_pv_consistent D k p p' : k <> CalcTMu -> fill_pv D k p = Ok p' -> consistent D k p' /\
  dget "tmu" (plr_ts p') = dget "tmu" (plr_ts p) /\ dget "tmu_A0" (plr_ts p') = dget "tmu_A0" (plr_ts p) /\ plr_hypo p' = plr_hypo p /\ plr_free p' = plr_free p /\ plr_fixed p' = plr_fixed p.
Proof.
  intros Hk H. assert (exists n h t b a q pv cls clb, calc_poi p = Ok n /\ dgetE n (plr_hypo p) = Ok h /\ ts_num "tmu" p = Ok t /\ best_value p = Ok b /\ ts_num "tmu_A0" p = Ok a /\ pvs_of D k h t b a = Ok (q, pv, cls, clb) /\
    p' = with_pvs (with_ts p (dset (q_key k) (VNum q) (plr_ts p))) (dset "clb" (VNum clb) (dset "cls" (VNum cls) (dset "pv" (VNum pv) (plr_pvs p))))) as (n & h & t & b & a & q & pv & cls & clb & E1 & E2 & E3 & E4 & E5 & E6 & ->).
  { destruct k; [contradiction| |]; cbn [fill_pv] in H; apply bind_Ok in H as (n & E1 & H); apply bind_Ok in H as (h & E2 & H); apply bind_Ok in H as (t & E3 & H); apply bind_Ok in H as (b & E4 & H);
      apply bind_Ok in H as (a & E5 & H); apply bind_Ok in H as ([[[q pv] cls] clb] & E6 & H); injection H as <-; exists n, h, t, b, a, q, pv, cls, clb; repeat split; assumption. }
  assert (Hn : hd_error (keys (plr_hypo p)) = Some n).
  { unfold calc_poi, calc_pois in E1. destruct (plr_model p); [|discriminate]. destruct (keys (plr_hypo p)); [discriminate|]. cbn. congruence. }
  assert (Hts : forall x y, ts_num x p = Ok y -> dget x (plr_ts p) = Some (VNum y)).
  { intros x y E. unfold ts_num, dgetE in E. destruct (dget x (plr_ts p)) as [v|]; [|discriminate]. cbn in E. destruct v; cbn in E; congruence. }
  assert (Hh : dget n (plr_hypo p) = Some h) by (unfold dgetE in E2; destruct (dget n (plr_hypo p)); congruence).
  assert (exists fp, dget n (fr_pars (plr_free p)) = Some fp /\ fp_value fp = Some b) as (fp & Hfp & Hb).
  { unfold best_value in E4. rewrite E1 in E4. cbn in E4. apply bind_Ok in E4 as (fp & Ef & E4). exists fp. unfold dgetE in Ef. destruct (dget n (fr_pars (plr_free p))); [|discriminate]. split; [congruence|]. destruct (fp_value fp); congruence. }
  assert (Q1 : dget "tmu" (dset (q_key k) (VNum q) (plr_ts p)) = dget "tmu" (plr_ts p)) by (apply dget_dset_neq; destruct k; discriminate).
  assert (Q2 : dget "tmu_A0" (dset (q_key k) (VNum q) (plr_ts p)) = dget "tmu_A0" (plr_ts p)) by (apply dget_dset_neq; destruct k; discriminate).
  split; [|repeat split; [exact Q1|exact Q2]].
  exists n, h, t, b, a, q, pv, cls, clb, fp. cbn [plr_hypo plr_ts plr_pvs plr_free with_ts with_pvs]. rewrite Q1, Q2. repeat (split; [solve [assumption | apply Hts; assumption]|]).
  split; [apply dget_dset_eq|]. split; [rewrite !dget_dset_neq by discriminate; apply dget_dset_eq|]. split; [rewrite dget_dset_neq by discriminate; apply dget_dset_eq|apply dget_dset_eq].
Qed.

(** At every point of the returned raster the p-values are those of the stored test statistics, and t_mu is twice the difference of the
    stored likelihoods. *)
Theorem C77_pvalues_consistent : forall hash D k sv m I env data s hypos full r s', k <> CalcTMu ->
  compute_fast_results hash D k sv m I env data s hypos full = Ok (r, s') ->
  forall h p, In (h, p) (ra_points r) -> consistent D k p /\ exists a b, fr_nll (plr_fixed p) = Some a /\ fr_nll (plr_free p) = Some b /\ dget "tmu" (plr_ts p) = Some (VNum (2 * (a - b))).
Proof.
  intros hash D k sv m I env data s hypos full r s' Hk H h p Hin. unfold compute_fast_results in H. apply bind_Ok in H as ([pts s1] & _ & H). apply bind_Ok in H as (r0 & Hr & H). apply bind_Ok in H as (r1 & Hf & H).
  injection H as <- <-. destruct (raster_points _ _ _ _ Hr) as [T _]. apply fill_all_points in Hf. destruct (Forall2_in_r _ _ _ _ Hf Hin) as ([h1 p1] & Hin1 & E & Hp). cbn [fst snd] in *. subst h1.
  destruct (fill_pv_consistent _ _ _ _ Hk Hp) as (A & B1 & B2 & B3 & B4 & B5). split; [exact A|].
  destruct (Forall2_in_r _ _ _ _ T Hin1) as ([h2 p2] & _ & _ & a & b & Ha & Hb & E). cbn [snd] in *. subst p1. exists a, b. rewrite B1, B4, B5. cbn. rewrite dget_dset_eq. auto.
Qed.
Print Assumptions C77_pvalues_consistent.
(** a single test: same thing, without the recomputation of t_mu; the Asimov t_mu is the one of the Asimov dataset of hypothesis 0 *)
Theorem C77_single_test_consistent : forall D k sv m I env data s h full p s', k <> CalcTMu -> compute_fast_q D k sv m I env data s h full = Ok (p, s') ->
  consistent D k p /\ exists p1 s1 asimov pa, compute_fast_plr m I (env data) s h full = Ok (p1, s1) /\ generate_expected_0 sv m I data = Ok asimov /\ compute_fast_plr m I (env asimov) s1 h full = Ok (pa, s') /\
    dget "tmu" (plr_ts p) = dget "tmu" (plr_ts p1) /\ dget "tmu_A0" (plr_ts p) = dget "tmu" (plr_ts pa).
Proof.
  intros D k sv m I env data s h full p s' Hk H. unfold compute_fast_q in H. apply bind_Ok in H as ([p1 s1] & H1 & H). apply bind_Ok in H as (asimov & H2 & H). apply bind_Ok in H as ([pa s2] & H3 & H).
  apply bind_Ok in H as (p2 & H4 & H). apply bind_Ok in H as (p3 & H5 & H). injection H as <- <-. destruct (fill_pv_consistent _ _ _ _ Hk H5) as (A & B1 & B2 & _). split; [exact A|].
  exists p1, s1, asimov, pa. split; [exact H1|]. split; [exact H2|]. split; [exact H3|]. unfold plr_set_asimov in H4. apply bind_Ok in H4 as (t & Ht & H4). injection H4 as <-. rewrite B1, B2. cbn.
  split; [apply dget_dset_neq; discriminate|]. rewrite dget_dset_eq. unfold dgetE in Ht. destruct (dget "tmu" (plr_ts pa)); congruence.
Qed.
Print Assumptions C77_single_test_consistent.

(** False part: the raster recomputes t_mu from the likelihoods: a failed or imprecise free fit gives a negative t_mu, in the default mode of the t_mu
    calculator and for the others. *)
Theorem C77_negative_tmu_refuted : forall D, exists I r s' p t, set_internal_vars ex_env (tmod (Some 0) (Some 10)) = Ok I /\
  tmu_results h0 D (tmod (Some 0) (Some 10)) I (tfit (topt true [5])) (tmini "scalar") [HObj [("mu", 3)]] [] "all" = Ok (r, s') /\ In ([("mu", 3)], p) (ra_points r) /\ dget "tmu" (plr_ts p) = Some (VNum t) /\ t < 0.
Proof.
  intros D. destruct (tmod_built (Some 0) (Some 10)) as (I & H & Hp & Hr). exists I. eexists _, _, _, _. split; [exact H|]. split.
  - unfold tmu_results. cbn [map foldM tmu_step hget bind fst snd mode_of String.eqb Ascii.eqb Bool.eqb]. unfold tmu_point, common_free, finish_point, set_pois_min, check_hypo. rewrite Hp, Hr. ev. reflexivity.
  - split; [left; reflexivity|]. split; [reflexivity|]. lra.
Qed.
Print Assumptions C77_negative_tmu_refuted.

(** a model with a background and no nuisance parameter *)
Definition tmodb : Model :=
  mkModel "t" None [("mu", mkPOI (Some "mu") (Some 0) (Some 10) (Some 1) None None)] [] []
    [("C", mkChannel "C" (KMulti ["b1"]) [("S", mkSample "S" (ExprNorm "mu") (Some 1) (Some [10]) []); ("B", mkSample "B" (NumberNorm (Some 1)) (Some 1) (Some [5]) [])])] [] false true true false 0.
Ltac evA := repeat (progress (lazy -[Reqb Rltb Rleb IZR Rplus Rminus Rmult Rdiv Ropp Rinv set_slice Rmax Rmin pow exp ln Rabs det sqrt signed_sqrt]; rdec)).
Example C77_nonvacuous : forall D, exists I r s', set_internal_vars ex_env tmodb = Ok I /\
  compute_fast_results h0 D CalcQMu (fun _ _ _ => Ok (fun _ => 0)) tmodb I (fun _ => tfit (topt true [3])) (mkData [5] []) (tmini "scalar") [[("mu", 5)]] [] = Ok (r, s') /\ length (ra_points r) = 1%nat.
Proof.
  intros D. eexists _, _, _. split; [unfold tmodb; ev; reflexivity|]. split.
  - unfold compute_fast_results. cbn [foldM bind fst snd]. unfold compute_fast_q, compute_fast_plr, opti_tmu, poi_tmu, set_pois_min, check_hypo. evA.
    match goal with |- context [Rltb (Rabs ?x) ?y] => destruct (Rltb (Rabs x) y) end; evA; reflexivity.
  - reflexivity.
Qed.
