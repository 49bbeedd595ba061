(** Lemmas about the rasters computed by the q_mu calculators, for the theorems about compute_fast_limits. *)
From Verif Require Import Py PyFacts Base BaseFacts Expressions Norms Sample Channels Params ParamsFacts Core NpMin PoiMin PoiMinFacts PoiHistProps TestStat FitData FitDataFacts FitDataProps RasterProps Calculators CalcFacts CalcProps Scans ScanFacts.
Local Open Scope string_scope.
Local Open Scope list_scope.

Lemma poi_tmu_pars m I F s h i t s' : evaluates F -> poi_tmu m I F s h i = Ok (t, s') -> (exists p, mi_free_pars s' = Some p) /\ exists p, mi_hypo_pars s' = Some p.
Proof.
  intros HE H. unfold poi_tmu in H. apply bind_Ok in H as (ib & _ & H). apply bind_Ok in H as (hib & _ & H). apply bind_Ok in H as ([r1 hm] & H1 & H). apply bind_Ok in H as ([r2 s2] & H2 & H).
  destruct (minimize_pars _ _ _ _ _ _ _ HE H1) as [p1 E1]. destruct (minimize_pars _ _ _ _ _ _ _ HE H2) as [p2 E2].
  destruct (mi_min_nll hm); [|discriminate]. destruct (mi_min_nll s2); [|discriminate]. injection H as <- <-. cbn. eauto.
Qed.
Lemma opti_tmu_pars m I F s h i t s' : evaluates F -> opti_tmu m I F s h i = Ok (t, s') -> (exists p, mi_free_pars s' = Some p) /\ exists p, mi_hypo_pars s' = Some p.
Proof.
  intros HE H. unfold opti_tmu in H. apply bind_Ok in H as ([t1 s1] & H1 & H). pose proof (poi_tmu_pars _ _ _ _ _ _ _ _ HE H1) as P1.
  destruct (_ && eltb _ _)%bool; [|injection H as <- <-; exact P1]. destruct (_ && _)%bool; [discriminate|]. destruct (mi_alt s1) as [a|]; [|injection H as <- <-; exact P1].
  apply bind_Ok in H as ([t2 s2] & H2 & H). pose proof (poi_tmu_pars _ _ _ _ _ _ _ _ HE H2) as P2. destruct (_ && (0 <? _)%Z)%bool; [discriminate|]. injection H as <- <-. exact P2.
Qed.

(** what holds of a point while it is computed *)
Record cq_ok (m : PModel) (h : Hypo) (full : option Params) (p : PLR) : Prop := {
  cq_hypo : plr_hypo p = h;
  cq_names : incl (keys h) (pm_pois m);
  cq_full : plr_full p = full;
  cq_fixed : fit_keyed (plr_fixed p) /\ fr_model (plr_fixed p) = Some m /\ incl (pm_pois m) (keys (fr_pars (plr_fixed p)));
  cq_free : fit_keyed (plr_free p) /\ fr_model (plr_free p) = Some m;
  cq_ts : numeric (plr_ts p);
  cq_pvs : numeric (plr_pvs p) }.
Lemma numeric_dset k x d : numeric d -> numeric (dset k (VNum x) d).
Proof. intros H k' v Hin. apply In_dset in Hin as [E|Hin]; [injection E as -> ->; eauto|eapply H, Hin]. Qed.
Lemma cq_with_ts m h full p k x : cq_ok m h full p -> cq_ok m h full (with_ts p (dset k (VNum x) (plr_ts p))).
Proof. intros [A B C D E F G]. constructor; cbn; auto. apply numeric_dset, F. Qed.
Lemma compute_fast_plr_ok m I F s h full p s' : evaluates F -> compute_fast_plr m I F s h full = Ok (p, s') -> cq_ok (i_pm I) h full p /\ plr_pvs p = [] /\ exists t, plr_ts p = [("tmu", VNum t)].
Proof.
  intros HE H. unfold compute_fast_plr in H. apply bind_Ok in H as (u & Hu & H). apply bind_Ok in H as ([t s1] & Ht & H). apply bind_Ok in H as (x & _ & H). apply bind_Ok in H as (fn & _ & H).
  apply bind_Ok in H as (free & Hfr & H). apply bind_Ok in H as (hn & _ & H). apply bind_Ok in H as (fixed & Hfx & H). apply bind_Ok in H as (q & Hq & H). injection H as <- <-.
  destruct (opti_tmu_pars _ _ _ _ _ _ _ _ HE Ht) as [[p1 E1] [p2 E2]]. rewrite E1 in Hfr. rewrite E2 in Hfx. apply fit_new_facts in Hfr as (A1 & _ & A2 & _). apply fit_new_facts in Hfx as (B1 & _ & B2 & B3).
  apply check_hypo_incl in Hu. unfold plr_update in Hq. apply bind_Ok in Hq as (_u & _ & Hq). cbn [plr_ts dmem dget String.eqb Ascii.eqb Bool.eqb] in Hq. cbn in Hq. injection Hq as <-.
  split; [|cbn; eauto]. constructor; cbn; auto.
  - intros k v [[= <- <-]|[]]. eauto.
  - intros k v [].
Qed.
Lemma fill_pv_ok D k m h full p p' : k <> CalcTMu -> cq_ok m h full p -> fill_pv D k p = Ok p' -> cq_ok m h full p'.
Proof.
  intros Hk [A B C E F G K] H. destruct k; [contradiction| |]; cbn [fill_pv] in H; apply bind_Ok in H as (n & _ & H); apply bind_Ok in H as (hv & _ & H); apply bind_Ok in H as (t & _ & H); apply bind_Ok in H as (b & _ & H);
    apply bind_Ok in H as (a & _ & H); apply bind_Ok in H as ([[[q pv] cls] clb] & _ & H); injection H as <-; constructor; cbn; auto; repeat apply numeric_dset; assumption.
Qed.
Lemma compute_fast_q_ok D k sv m I env data s h full p s' : k <> CalcTMu -> (forall d, evaluates (env d)) -> compute_fast_q D k sv m I env data s h full = Ok (p, s') -> cq_ok (i_pm I) h full p.
Proof.
  intros Hk HE H. unfold compute_fast_q in H. apply bind_Ok in H as ([p1 s1] & H1 & H). apply bind_Ok in H as (asimov & _ & H). apply bind_Ok in H as ([pa s2] & H3 & H). apply bind_Ok in H as (p2 & H4 & H). apply bind_Ok in H as (p3 & H5 & H). injection H as <- <-.
  destruct (compute_fast_plr_ok _ _ _ _ _ _ _ _ (HE _) H1) as (A & _ & _). destruct (compute_fast_plr_ok _ _ _ _ _ _ _ _ (HE _) H3) as (_ & _ & t & Et).
  eapply fill_pv_ok; [exact Hk| |exact H5]. unfold plr_set_asimov in H4. rewrite Et in H4. cbn in H4. injection H4 as <-. destruct A as [A1 A2 A3 A4 A5 A6 A7]. constructor; cbn; auto. apply numeric_dset, A6.
Qed.
Definition cq_step (hash : list string -> Z) (D : Dist) (k : calc_kind) (sv : solver) (m : Model) (I : Internal) (env : Data -> FitEnv) (data : Data) (full : hdict Params) (ds : hdict PLR * Mini) (h : Hypo) : res (hdict PLR * Mini) :=
  let! (p, s') := compute_fast_q D k sv m I env data (snd ds) h (hget hash h full) in Ok (hset hash h p (fst ds), s').
Lemma cq_loop hash D k sv m I env data full : k <> CalcTMu -> (forall d, evaluates (env d)) -> forall hs d s d' s', hkeys_ok hash (d ++ map (fun h => (h, mkPLR h (mkFR [] None None) (mkFR [] None None) [] [] None None None)) hs) ->
  (forall h p, In (h, p) d -> cq_ok (i_pm I) h (hget hash h full) p) ->
  foldM (cq_step hash D k sv m I env data full) hs (d, s) = Ok (d', s') -> map fst d' = map fst d ++ hs /\ (forall h p, In (h, p) d' -> cq_ok (i_pm I) h (hget hash h full) p).
Proof.
  intros Hk HE. induction hs as [|h hs IH]; intros d s d' s' HK HP H.
  - cbn in H. injection H as <- <-. rewrite app_nil_r. auto.
  - cbn [foldM] in H. unfold cq_step at 1 in H. apply bind_Ok in H as ([d1 s1] & Hp & H). apply bind_Ok in Hp as ([p s1'] & Hp & E). injection E as <- <-. cbn [fst snd] in *.
    assert (A : hset hash h p d = d ++ [(h, p)]).
    { apply hset_app. intros h' w Hin. clear - HK Hin. induction d as [|[a b] d IH]; [destruct Hin|]. cbn [app hkeys_ok] in HK. destruct HK as [K1 K2]. destruct Hin as [[= <- <-]|Hin]; [|apply IH; auto].
      eapply K1. apply in_or_app. right. left. reflexivity. }
    rewrite A in H. destruct (IH (d ++ [(h, p)]) s1' d' s') as [B1 B2].
    + rewrite <- app_assoc. cbn [app]. clear - HK. induction d as [|[a b] d IH]; cbn [app map hkeys_ok] in *.
      * exact HK.
      * destruct HK as [K1 K2]. split; [|apply IH, K2]. intros h' v Hin. apply in_app_or in Hin as [Hin|[[= <- <-]|Hin]]; eapply K1; apply in_or_app; [left; exact Hin|right; left; reflexivity|right; right; exact Hin].
    + intros h' p' Hin. apply in_app_or in Hin as [Hin|[[= <- <-]|[]]]; [apply HP, Hin|]. eapply compute_fast_q_ok; eauto.
    + exact H.
    + split; [|exact B2]. rewrite B1, map_app, <- app_assoc. reflexivity.
Qed.

Theorem fast_results_ok hash D k sv m I env data s hypos full r s' : k <> CalcTMu -> (forall d, evaluates (env d)) -> distinct hash hypos -> (forall h q, In h hypos -> hget hash h full = Some q -> wf q (i_pm I)) ->
  compute_fast_results hash D k sv m I env data s hypos full = Ok (r, s') ->
  map fst (ra_points r) = hypos /\ hkeys_ok hash (ra_points r) /\ raster_set_pois (ra_points r) (Some (i_pm I)) = Ok (ra_pois r) /\
  (forall h p, In (h, p) (ra_points r) -> plr_hypo p = h /\ point_ok (i_pm I) p /\ plr_full p = hget hash h full).
Proof.
  intros Hk HE [HN HD] HF H. pose proof (C77_pvalues_consistent _ _ _ _ _ _ _ _ _ _ _ _ _ Hk H) as HC. unfold compute_fast_results in H. apply bind_Ok in H as ([pts s1] & Hl & H). apply bind_Ok in H as (r0 & Hr & H). apply bind_Ok in H as (r1 & Hf & H). injection H as <- <-.
  destruct (cq_loop hash D k sv m I env data full Hk HE hypos [] s pts s1 (distinct_hkeys hash _ hypos HD) ltac:(intros ? ? []) Hl) as [E1 P1]. cbn [map app] in E1.
  pose proof Hr as Hr'. unfold raster_new in Hr'. apply bind_Ok in Hr' as (q1 & _ & Hr'). apply bind_Ok in Hr' as (q2 & _ & Hr'). apply bind_Ok in Hr' as (ps & Hps & Hr'). injection Hr' as <-. cbn [ra_points] in Hf.
  destruct (raster_points _ _ _ _ Hr) as [T2 _]. cbn [ra_points] in T2. pose proof (fill_all_points _ _ _ _ Hf) as T3. cbn [ra_points] in T3.
  assert (G3 : map fst (ra_points r1) = map fst q2) by (clear - T3; induction T3 as [|? ? ? ? [E _] _ IH]; cbn; congruence).
  assert (G2 : map fst q2 = map fst pts) by (clear - T2; induction T2 as [|? ? ? ? [E _] _ IH]; cbn; congruence).
  split; [congruence|]. split; [|split].
  - eapply hkeys_fst; [|apply (distinct_hkeys hash (fun _ => tt) hypos HD)]. rewrite map_map. cbn. rewrite map_id. congruence.
  - unfold fill_all_pv in Hf. apply bind_Ok in Hf as (l & _ & Hf). injection Hf as <-. cbn [ra_pois ra_points] in *. unfold raster_set_pois in *. rewrite G3. exact Hps.
  - intros h p Hin. destruct (HC _ _ Hin) as (_ & HT). destruct (Forall2_in_r _ _ _ _ (Forall2_compose _ _ _ _ _ T2 T3) Hin) as ([h0 p0] & Hpt & [h2 p2] & (Eh & a & b & Ea & Eb & Ep) & (Eh2 & Ef)).
    cbn [fst snd] in *. subst h2 h p2. pose proof (fill_pv_ok _ _ _ _ _ _ _ Hk (cq_with_ts _ _ _ _ "tmu" (2 * (a - b)) (P1 _ _ Hpt)) Ef) as [Q1 Q2 Q3 [Q4 [Q5 Q6]] [Q7 Q8] Q9 Q10].
    assert (Hh : In h0 hypos) by (rewrite <- E1; apply (in_map fst _ _ Hpt)).
    split; [exact Q1|]. split; [|exact Q3]. constructor; rewrite ?Q1; auto.
    + intros k0 Hk0. apply Q6, Q2, Hk0.
    + intros q Eq. rewrite Q3 in Eq. eapply HF; eauto.
Qed.
