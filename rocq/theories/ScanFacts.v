(** Lemmas about the rasters computed by the t_mu calculator, for the theorems about poi_scan. *)
From Verif Require Import Py PyFacts Base BaseFacts Expressions Norms Sample Channels Params ParamsFacts Core NpMin PoiMin PoiMinFacts PoiHistProps TestStat FitData FitDataFacts FitDataProps RasterProps Calculators CalcFacts Scans.
Local Open Scope string_scope.
Local Open Scope list_scope.

Lemma minimize_pars m I F s init r s' : evaluates F -> minimize m I F s init = Ok (r, s') -> exists p, mi_min_pars s' = Some p.
Proof.
  intros HE H. unfold minimize in H. apply bind_Ok in H as (s0 & _ & H). destruct (mi_init s0) as [i0|]; [|discriminate]. destruct (mi_bounds s0) as [bs|]; [|discriminate].
  apply bind_Ok in H as (cur & _ & H). apply bind_Ok in H as (fr & _ & H). apply bind_Ok in H as (x0 & _ & H).
  destruct ((length x0 =? 0)%nat && negb (String.eqb (mi_method s0) ""))%bool.
  - apply bind_Ok in H as ([[d p] v] & _ & H). injection H as <- <-. cbn. eauto.
  - set (s1 := if _ : bool then _ else s0) in H. apply bind_Ok in H as (o & Ho & H). apply bind_Ok in H as (s2 & Hs & H).
    assert (E : o_evals o <> []).
    { destruct (String.eqb (mi_method s1) "scalar"); [destruct (map _ fr) in Ho; [discriminate|eapply HE; exact Ho]|].
      destruct (String.eqb (mi_method s1) "CG"); [destruct (0 <? mi_verbosity s1)%Z; [discriminate|eapply HE; exact Ho]|].
      destruct (String.eqb (mi_method s1) "L-BFGS-B"); [eapply HE; exact Ho|discriminate]. }
    destruct (rev (o_evals o)) as [|x l] eqn:El.
    { exfalso. apply E. rewrite <- (rev_involutive (o_evals o)), El. reflexivity. }
    apply bind_Ok in Hs as (h & _ & Hs). apply bind_Ok in Hs as ([[d p] v] & _ & Hs). injection Hs as <-.
    destruct (o_success o); injection H as <- <-; cbn; eauto.
Qed.

Lemma keyed_dset n v d : NoDup (keys d) -> (forall k p, In (k, p) d -> poi_name (fp_poi p) = Some k) ->
  NoDup (keys (dset n (fitpar_new n v) d)) /\ (forall k p, In (k, p) (dset n (fitpar_new n v) d) -> poi_name (fp_poi p) = Some k).
Proof.
  intros N K. split; [apply NoDup_keys_dset, N|]. intros k p Hin. apply In_dset in Hin as [E|Hin]; [injection E as -> ->; reflexivity|apply K, Hin].
Qed.
Lemma in_keys_dset {V} k n (v : V) d : k = n \/ In k (keys d) -> In k (keys (dset n v d)).
Proof.
  induction d as [|[k' v'] d IH]; cbn; [intros [->|[]]; now left|]. destruct (String.eqb_spec n k') as [->|N]; cbn; intros [->|[->|H]]; auto.
Qed.
Lemma fit_new_facts p m nll f : fit_new (Some p) nll (Some m) None = Ok f -> fit_keyed f /\ fr_nll f = nll /\ fr_model f = Some m /\ incl (pm_pois m) (keys (fr_pars f)).
Proof.
  unfold fit_new. intros H. apply bind_Ok in H as (d2 & H & E). injection E as <-. cbn [fr_nll fr_model fr_pars]. apply bind_Ok in H as (d & Hd & Hn).
  pose (P := fun d : dict FitPar => NoDup (keys d) /\ (forall k p, In (k, p) d -> poi_name (fp_poi p) = Some k)).
  assert (A : forall l d0 d, P d0 -> foldM (fun d n => let! x := pars_get p n in Ok (dset n (fitpar_new n (Some x)) d)) l d0 = Ok d -> P d /\ incl (l ++ keys d0) (keys d)).
  { induction l as [|n l IH]; intros d0 d1 HP H; cbn in H; [injection H as <-; split; [exact HP|apply incl_refl]|].
    apply bind_Ok in H as (d' & Hd' & H). apply bind_Ok in Hd' as (x & _ & Hd'). injection Hd' as <-. destruct (IH _ _ (keyed_dset n (Some x) d0 (proj1 HP) (proj2 HP)) H) as [P1 I1]. split; [exact P1|].
    intros k [<-|Hin]; [|apply in_app_or in Hin as [Hin|Hin]]; apply I1, in_or_app; [right|now left|right].
    - apply in_keys_dset. now left.
    - apply in_keys_dset. now right. }
  assert (B : forall l d0 d, P d0 -> foldM (fun d (np : string * R * R) => let '(n, nom, var) := np in let! x := pars_get p n in Ok (dset n (fitpar_new n (Some (unscaled_value nom var x))) d)) l d0 = Ok d -> P d /\ incl (keys d0) (keys d)).
  { induction l as [|[[n nom] var] l IH]; intros d0 d1 HP H; cbn in H; [injection H as <-; split; [exact HP|apply incl_refl]|].
    apply bind_Ok in H as (d' & Hd' & H). apply bind_Ok in Hd' as (x & _ & Hd'). injection Hd' as <-. destruct (IH _ _ (keyed_dset n _ d0 (proj1 HP) (proj2 HP)) H) as [P1 I1]. split; [exact P1|].
    intros k Hin. apply I1, in_keys_dset. now right. }
  destruct (A _ [] d (conj (NoDup_nil _) (fun _ _ (F : In _ []) => match F with end)) Hd) as [P1 I1]. destruct (B _ _ _ P1 Hn) as [P2 I2].
  split; [exact P2|]. split; [reflexivity|]. split; [reflexivity|]. intros k Hk. apply I2, I1, in_or_app. now left.
Qed.

(** what holds of a point while it is computed *)
Record pt_ok (m : PModel) (h : Hypo) (p : Pt) : Prop := {
  pt_names : incl (keys h) (pm_pois m);
  pt_fixed_ok : fit_keyed (pt_fixed p) /\ fr_model (pt_fixed p) = Some m /\ incl (pm_pois m) (keys (fr_pars (pt_fixed p)));
  pt_free_ok : forall f, pt_free p = Some f -> fit_keyed f /\ fr_model f = Some m;
  pt_pars_ok : exists q, pt_pars p = Some q }.
Lemma check_hypo_incl m h u : check_hypo (Some m) h = Ok u -> incl (keys h) (pm_pois m).
Proof.
  unfold check_hypo. intros H. apply bind_Ok in H as (l & H & _). apply mapM_Forall2 in H. intros k Hk. destruct (Forall2_in_l _ _ _ _ H Hk) as (t & _ & E).
  destruct (index k (pm_pois m)) eqn:Ei; [|discriminate]. apply index_nth in Ei. eapply nth_error_In, Ei.
Qed.
Lemma tmu_point_ok m I F all s h full p s' : evaluates F -> tmu_point m I F all s h full = Ok (p, s') -> pt_ok (i_pm I) h p /\ pt_full p = full.
Proof.
  intros HE H. unfold tmu_point in H. apply bind_Ok in H as (u & Hu & H). apply bind_Ok in H as (ib & _ & H). apply bind_Ok in H as (hib & _ & H). apply bind_Ok in H as ([r hm] & Hm & H).
  apply bind_Ok in H as (hn & _ & H). apply bind_Ok in H as (fx & Hf & H). destruct (minimize_pars _ _ _ _ _ _ _ HE Hm) as [q Hq]. rewrite Hq in Hf. apply fit_new_facts in Hf as (A & _ & B & D).
  apply check_hypo_incl in Hu. destruct all.
  - apply bind_Ok in H as ([r2 s2] & Hm2 & H). apply bind_Ok in H as (fn & _ & H). apply bind_Ok in H as (fr & Hfr & H). injection H as <- <-. cbn. split; [|reflexivity].
    destruct (minimize_pars _ _ _ _ _ _ _ HE Hm2) as [q2 Hq2]. rewrite Hq2 in Hfr. apply fit_new_facts in Hfr as (A' & _ & B' & _). constructor; cbn; eauto. intros f [= <-]. auto.
  - injection H as <- <-. cbn. split; [|reflexivity]. constructor; cbn; eauto. discriminate.
Qed.
(** the loop over hypotheses that are different keys *)
Lemma tmu_loop_points hash m I F all : evaluates F -> forall hs d s d' s', hkeys_ok hash (d ++ map (fun h => (h, mkPt None None (mkFR [] None None) None)) hs) ->
  (forall h p, In (h, p) d -> pt_ok (i_pm I) h p /\ pt_full p = None) ->
  foldM (tmu_step hash m I F all []) (map HObj hs) (d, s) = Ok (d', s') -> map fst d' = map fst d ++ hs /\ (forall h p, In (h, p) d' -> pt_ok (i_pm I) h p /\ pt_full p = None).
Proof.
  intros HE. induction hs as [|h hs IH]; intros d s d' s' HK HP H.
  - cbn in H. injection H as <- <-. rewrite app_nil_r. auto.
  - cbn [map foldM tmu_step] in H. apply bind_Ok in H as ([d1 s1] & Hp & H). apply bind_Ok in Hp as ([p s1'] & Hp & E). injection E as <- <-. cbn [fst snd] in *. cbn [hget] in Hp.
    assert (A : hset hash h p d = d ++ [(h, p)]).
    { apply hset_app. intros h' w Hin. clear - HK Hin. induction d as [|[a b] d IH]; [destruct Hin|]. cbn [app hkeys_ok] in HK. destruct HK as [K1 K2]. destruct Hin as [[= <- <-]|Hin]; [|apply IH; auto].
      eapply K1. apply in_or_app. right. left. reflexivity. }
    rewrite A in H. destruct (IH (d ++ [(h, p)]) s1' d' s') as [B1 B2].
    + rewrite <- app_assoc. cbn [app]. clear - HK. induction d as [|[a b] d IH]; cbn [app map hkeys_ok] in *.
      * exact HK.
      * destruct HK as [K1 K2]. split; [|apply IH, K2]. intros h' v Hin. apply in_app_or in Hin as [Hin|[[= <- <-]|Hin]]; eapply K1; apply in_or_app; [left; exact Hin|right; left; reflexivity|right; right; exact Hin].
    + intros h' p' Hin. apply in_app_or in Hin as [Hin|[[= <- <-]|[]]]; [apply HP, Hin|]. eapply tmu_point_ok; eauto.
    + exact H.
    + split; [|exact B2]. rewrite B1, map_app, <- app_assoc. reflexivity.
Qed.

Lemma common_free_ok m I F mode s pts f s' : evaluates F -> (forall h p, In (h, p) pts -> pt_ok (i_pm I) h p) -> common_free m I F mode s pts = Ok (Some f, s') -> fit_keyed f /\ fr_model f = Some (i_pm I).
Proof.
  intros HE HP H. destruct mode; cbn [common_free] in H; [discriminate| |].
  - apply bind_Ok in H as (b & Hb & H). apply bind_Ok in H as (ib & _ & H). apply bind_Ok in H as ([r s2] & Hm & H). apply bind_Ok in H as (fn & _ & H). apply bind_Ok in H as (f0 & Hf & H). injection H as <- <-.
    destruct (minimize_pars _ _ _ _ _ _ _ HE Hm) as [q Hq]. rewrite Hq in Hf. apply fit_new_facts in Hf. tauto.
  - apply bind_Ok in H as ([hb pb] & Hb & H). apply bind_Ok in H as (f0 & Hf & H). injection H as <- <-. destruct (best_fixed_spec _ _ Hb) as (_ & _ & Hin & _). destruct (pt_pars_ok _ _ _ (HP _ _ Hin)) as [q Hq].
    cbn [snd] in Hf. rewrite Hq in Hf. apply fit_new_facts in Hf. tauto.
Qed.

(** hypotheses that are different keys, and name each parameter once *)
Definition distinct (hash : list string -> Z) (hs : list Hypo) : Prop :=
  (forall h, In h hs -> NoDup (keys h)) /\ ForallOrdPairs (fun a b => same_key hash a b = false) hs.
Lemma distinct_hkeys {V} hash (g : Hypo -> V) hs : ForallOrdPairs (fun a b => same_key hash a b = false) hs -> hkeys_ok hash (map (fun h => (h, g h)) hs).
Proof.
  induction 1 as [|h hs H _ IH]; cbn; [exact Logic.I|]. split; [|exact IH]. intros h' v Hin. apply in_map_iff in Hin as (x & [= <- <-] & Hx). rewrite Forall_forall in H. apply H, Hx.
Qed.
Lemma hkeys_fst {V W} hash (d : hdict V) (d' : hdict W) : map fst d = map fst d' -> hkeys_ok hash d -> hkeys_ok hash d'.
Proof.
  revert d'. induction d as [|[h v] d IH]; intros [|[h' v'] d'] E H; cbn in *; try discriminate; [exact Logic.I|]. injection E as -> E. destruct H as [H1 H2]. split; [|apply IH; auto].
  intros x w Hin. assert (Hx : In x (map fst d)) by (rewrite E; exact (in_map fst _ _ Hin)). apply in_map_iff in Hx as ([x' w'] & E' & Hin'). cbn in E'. subst x'. eapply H1, Hin'.
Qed.

Theorem tmu_results_ok hash D m I F s hypos mode r s' : evaluates F -> distinct hash hypos -> tmu_results hash D m I F s (map HObj hypos) [] mode = Ok (r, s') ->
  map fst (ra_points r) = hypos /\ hkeys_ok hash (ra_points r) /\ raster_set_pois (ra_points r) (Some (i_pm I)) = Ok (ra_pois r) /\ (forall h p, In (h, p) (ra_points r) -> plr_hypo p = h /\ point_ok (i_pm I) p).
Proof.
  intros HE [HN HD] H. unfold tmu_results in H. apply bind_Ok in H as (mo & _ & H). apply bind_Ok in H as ([pts s1] & Hl & H). apply bind_Ok in H as ([common s2] & Hc & H).
  apply bind_Ok in H as (plrs & Hm & H). apply bind_Ok in H as (r0 & Hr & H). apply bind_Ok in H as (r1 & Hf & H). injection H as <- <-.
  destruct (tmu_loop_points _ _ _ _ _ HE hypos [] s pts s1 (distinct_hkeys hash _ hypos HD) ltac:(intros ? ? []) Hl) as [E1 P1]. cbn [map app] in E1.
  assert (HC : forall f, common = Some f -> fit_keyed f /\ fr_model f = Some (i_pm I)) by (intros f ->; eapply common_free_ok; [exact HE| |exact Hc]; intros h p Hin; apply P1, Hin).
  apply mapM_Forall2 in Hm. pose proof Hr as Hr'. unfold raster_new in Hr'. apply bind_Ok in Hr' as (q1 & _ & Hr'). apply bind_Ok in Hr' as (q2 & _ & Hr'). apply bind_Ok in Hr' as (ps & Hps & Hr'). injection Hr' as <-. cbn [ra_points] in Hf.
  destruct (raster_points _ _ _ _ Hr) as [T2 _]. cbn [ra_points] in T2. pose proof (fill_all_points _ _ _ _ Hf) as T3. cbn [ra_points] in T3.
  assert (K : map fst (ra_points r1) = map fst pts /\ map fst (ra_points r1) = map fst q2).
  { assert (G : forall (V W : Type) (P : V -> W -> Prop) (l : hdict V) (l' : hdict W), Forall2 (fun hp hp' => fst hp' = fst hp /\ P (snd hp) (snd hp')) l l' -> map fst l' = map fst l).
    { induction 1 as [|? ? ? ? [E _] _ IH]; cbn; congruence. }
    pose proof (G _ _ (fun a b => fill_pv D CalcTMu a = Ok b) _ _ T3) as G3.
    assert (G2 : map fst q2 = map fst plrs) by (clear - T2; induction T2 as [|? ? ? ? [E _] _ IH]; cbn; congruence).
    assert (G1 : map fst plrs = map fst pts).
    { clear - Hm. induction Hm as [|[h p] [h' p'] ? ? E _ IH]; cbn; [reflexivity|]. rewrite IH. f_equal. unfold finish_point in E. cbn [fst snd] in E. destruct (match common with Some f => Some f | None => pt_free p end); [|discriminate].
      apply bind_Ok in E as (x & _ & E). congruence. }
    split; congruence. }
  destruct K as [K1 K2]. split; [congruence|]. split; [|split].
  - eapply hkeys_fst; [|apply (distinct_hkeys hash (fun _ => tt) hypos HD)]. rewrite map_map. cbn. rewrite map_id. congruence.
  - unfold fill_all_pv in Hf. apply bind_Ok in Hf as (l & _ & Hf). injection Hf as <-. cbn [ra_pois ra_points] in *. unfold raster_set_pois in *. rewrite K2. exact Hps.
  - intros h p Hin. destruct (Forall2_in_r _ _ _ _ (Forall2_compose _ _ _ _ _ (Forall2_compose _ _ _ _ _ Hm T2) T3) Hin) as ([h0 pt] & Hpt & [h2 p2] & ([h1 p1] & E & (Eh & a & b & Ea & Eb & Ep)) & (Eh2 & Ef)).
    cbn [fst snd] in *. subst h2 h. destruct (P1 _ _ Hpt) as [[Q1 [Q2 [Q3 Q4]] Q5 _] Q6]. unfold finish_point in E. cbn [fst snd] in E.
    destruct (match common with Some f => Some f | None => pt_free pt end) as [free|] eqn:Efr; [|discriminate]. apply bind_Ok in E as (x & Hx & E). injection E as <- <-.
    assert (HF : fit_keyed free /\ fr_model free = Some (i_pm I)) by (destruct common as [c|]; [injection Efr as <-; auto|auto]).
    unfold plr_update in Hx. apply bind_Ok in Hx as (_u & _ & Hx). cbn [plr_ts dmem dget existsb keys map] in Hx. unfold compute_tmu in Hx. cbn [plr_fixed plr_free] in Hx.
    destruct (fr_nll (pt_fixed pt)) as [a0|] eqn:Na; [|discriminate]. destruct (fr_nll free) as [b0|] eqn:Nb; [|discriminate]. injection Hx as <-. cbn [with_ts plr_fixed plr_free plr_ts plr_hypo plr_pvs plr_full plr_model plr_asimov] in *.
    rewrite Na in Ea. rewrite Nb in Eb. injection Ea as <-. injection Eb as <-. subst p2. unfold fill_pv in Ef. apply bind_Ok in Ef as (_l & _ & Ef). apply bind_Ok in Ef as (t & _ & Ef). injection Ef as <-.
    cbn [with_pvs with_ts plr_fixed plr_free plr_ts plr_hypo plr_pvs plr_full plr_model plr_asimov]. split; [reflexivity|].
    assert (Hh : In h0 hypos) by (rewrite <- E1; apply (in_map fst _ _ Hpt)).
    constructor; cbn [with_pvs with_ts plr_fixed plr_free plr_ts plr_hypo plr_pvs plr_full plr_model plr_asimov].
    + apply HN, Hh.
    + exact Q1.
    + apply HF.
    + exact Q2.
    + split; [apply HF|exact Q3].
    + intros k Hk. apply Q4, Q1, Hk.
    + rewrite Q6. discriminate.
    + intros k v Hkv. cbn in Hkv. destruct Hkv as [[= <- <-]|[]]. eauto.
    + intros k v Hkv. cbn in Hkv. destruct Hkv as [[= <- <-]|[]]. eauto.
    + exists a0, b0. rewrite Na, Nb. auto.
Qed.

(** ** scans of rasters with the same values *)
Definition same_values (r r' : Raster) : Prop := ra_pois r' = ra_pois r /\
  Forall2 (fun hp hp' => fst hp' = fst hp /\ plr_ts (snd hp') = plr_ts (snd hp) /\ plr_pvs (snd hp') = plr_pvs (snd hp)) (ra_points r) (ra_points r').
Lemma same_filled r r' k a b : same_values r r' -> is_filled r' k a b = is_filled r k a b.
Proof.
  intros [_ H]. unfold is_filled. f_equal. induction H as [|? ? ? ? (E1 & E2 & E3) _ IH]; cbn; [reflexivity|]. rewrite E2, E3. f_equal. exact IH.
Qed.
Lemma mapM_Forall2_eq {A B C} (f : A -> res C) (g : B -> res C) (P : A -> B -> Prop) l l' : Forall2 P l l' -> (forall a b, P a b -> g b = f a) -> mapM g l' = mapM f l.
Proof. intros H E. induction H as [|a b l l' Hab H IH]; cbn; [reflexivity|]. rewrite (E a b Hab), IH. reflexivity. Qed.
Lemma same_points r r' k poi v : same_values r r' -> scan_points (mkScan1D (mkScan r' k) poi) v = scan_points (mkScan1D (mkScan r k) poi) v.
Proof.
  intros [_ H]. unfold scan_points. cbn [s1_scan s1_poi sc_raster sc_key]. erewrite mapM_Forall2_eq; [reflexivity|exact H|]. intros [h p] [h' p'] (E1 & E2 & E3). cbn [fst snd] in *. subst h'. unfold scan_value. cbn [sc_key]. now rewrite E2, E3.
Qed.
Lemma same_hypo_values r r' k : same_values r r' -> hypo_values (mkScan r' k) = hypo_values (mkScan r k).
Proof.
  intros [_ H]. unfold hypo_values. cbn [sc_raster]. eapply mapM_Forall2_eq; [exact H|]. intros [h p] [h' p'] (E1 & E2 & E3). cbn [fst snd] in *. subst h'. unfold scan_num, scan_value. cbn [sc_key]. now rewrite E2, E3.
Qed.
