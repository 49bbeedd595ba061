(** Property theorems about check_model (C113): the comparison of the fits of a file with those of the linear model. *)
From Verif Require Import Py PyFacts RSort Base BaseFacts Expressions Norms Sample Channels Params ParamsFacts Core CoreExample CoreFacts NpMin PoiMin PoiMinFacts PoiMinProps PoiHistProps TestStat FitData FitDataFacts FitDataProps RasterProps
  ParamsProps UtilFacts Calculators CalcFacts CalcProps Scans ScansProps ModelIO ModelTools UtilTools LimitTools FileIO FileIOProps Commands Sampling SamplingFacts SamplingProps FileName FileNameProps ScanFacts ScanCommand ScanCommandProps SamplesRun SamplesRunProps
  LimitCommand LimitFacts LimitCommandProps LimitToysProps LimitsRun LimitsRunProps LimitsResultProps CheckCommand.
Local Open Scope string_scope.
Local Open Scope list_scope.
Local Open Scope R_scope.

(** ** Specification *)
(** the statistics that can be asked for *)
Definition statistic (name : string) (k : calc_kind) : Prop := (name = "q~mu" /\ k = CalcQMuTilda) \/ (name = "q_mu" /\ k = CalcQMu).
(** the p-values of a point *)
Definition has_pvs (p : PLR) (pv cls clb : R) : Prop := dget "pv" (plr_pvs p) = Some (VNum pv) /\ dget "cls" (plr_pvs p) = Some (VNum cls) /\ dget "clb" (plr_pvs p) = Some (VNum clb).
(** points of a plot *)
Definition plotted (l : list (R * R)) : list (R * pyval) := map (fun p => (fst p, VNum (snd p))) l.
(** what the p-values are computed from *)
Definition same_fit (n : string) (p q : PLR) : Prop := dget "tmu" (plr_ts p) = dget "tmu" (plr_ts q) /\ dget "tmu_A0" (plr_ts p) = dget "tmu_A0" (plr_ts q) /\
  exists fp fq, dget n (fr_pars (plr_free p)) = Some fp /\ dget n (fr_pars (plr_free q)) = Some fq /\ fp_value fp = fp_value fq.

(** ** Lemmas *)
Lemma distinct_get {V} hash n : forall (d : hdict V), distinct_hypos [n] (map fst d) -> forall h v, In (h, v) d -> hget hash h d = Some v.
Proof.
  intros d DH. assert (K := dh_keys _ _ DH). apply (single_distinct hash) in DH. destruct DH as [N P]. revert K N P. induction d as [|[h0 v0] d IH]; intros K N P h v Hv; [destruct Hv|]; destruct Hv as [E|Hin]; cbn [hget].
  - injection E as -> ->. rewrite same_key_refl; [reflexivity|]. apply N. now left.
  - cbn [map fst] in *. inversion P as [|? ? A B]; subst. rewrite Forall_forall in A. rewrite (A h (in_map fst _ _ Hin)). apply IH; [intros; apply K; now right|intros; apply N; now right|exact B|exact Hin].
Qed.
Lemma consistent_pvs D k p : consistent D k p -> exists pv cls clb, has_pvs p pv cls clb.
Proof. intros (n & h & t & b & a & q & pv & cls & clb & fp & _ & _ & _ & _ & _ & _ & _ & _ & A & B & C). exists pv, cls, clb. repeat split; assumption. Qed.
Lemma curve_plotted r n key l : curve r n key l -> plot_curve r n key = Ok (plotted l).
Proof.
  unfold curve, plot_curve, plotted. induction 1 as [|hp xy pts l [A B] _ IH]; cbn [mapM map]; [reflexivity|]. unfold dgetE at 1 2. rewrite A, B. cbn [bind]. rewrite IH. reflexivity.
Qed.
Lemma value_poi hash r n h p x : ra_pois r = [n] -> hget hash h (ra_points r) = Some p -> dget n h = Some x -> key_value hash r n h = Ok (VNum x).
Proof. intros Hn Hg Hx. unfold key_value. rewrite Hg, Hn. cbn [key_value_pois]. rewrite String.eqb_refl. unfold dmem, dgetE. rewrite Hx. reflexivity. Qed.
Lemma value_pv hash r n h p key x : ra_pois r = [n] -> hget hash h (ra_points r) = Some p -> In key ["pv"; "cls"; "clb"] -> n <> key -> dget key (plr_pvs p) = Some (VNum x) -> key_value hash r key h = Ok (VNum x).
Proof.
  intros Hn Hg Hk Hne Hx. unfold key_value. rewrite Hg, Hn. cbn [key_value_pois]. rewrite (proj2 (String.eqb_neq key n)) by congruence. cbn [andb].
  assert (B : String.eqb key ("best_" ++ n) = false) by (cbn in Hk; decompose [or] Hk; subst; try contradiction; reflexivity). rewrite B. cbn [bind]. rewrite Hx. reflexivity.
Qed.
Lemma in_nth_Forall2 {A B} (P : A -> B -> Prop) l k i a : Forall2 P l k -> nth_error l i = Some a -> exists b, nth_error k i = Some b /\ P a b.
Proof. intros H. revert i. induction H as [|x y l k Hxy _ IH]; intros [|i] E; try discriminate; cbn in *; [injection E as <-; eauto|auto]. Qed.

Lemma check_inv L E C pf rmatch o f m it r fast : check_rasters L E C pf rmatch o f = Ok ((m, it), r, fast) ->
  check_model E C o f = Ok (m, it) /\ exists r0 data k s s', fits_raster (sl_hash (ll_scan L)) C f (ck_fits o) (i_pm it) = Ok r0 /\ check_data C pf rmatch o f (m, it) = Ok data /\ full_stat r0 (ck_stat o) = Ok k /\ check_minimizer o (m, it) = Ok s /\
    fill_all_pv (sl_dist (ll_scan L)) k r0 = Ok r /\ recompute_raster (sl_hash (ll_scan L)) (sl_dist (ll_scan L)) k (ll_solver L) m it (sl_fit (ll_scan L) m it) data s r = Ok (fast, s').
Proof.
  unfold check_rasters. intros H. apply bind_Ok in H as ([m0 it0] & Hm & H). cbn [fst snd] in H. apply bind_Ok in H as (r0 & Hr & H). apply bind_Ok in H as (data & Hd & H). apply bind_Ok in H as (k & Hk & H). apply bind_Ok in H as (s & Hs & H).
  apply bind_Ok in H as (r1 & Hf & H). apply bind_Ok in H as ([fa s'] & Hfa & H). injection H as -> -> -> <-. split; [exact Hm|]. exists r0, data, k, s, s'. repeat split; assumption.
Qed.

(** ** C113 *)
(** what a run of check_model shows *)
Theorem C113_results : forall L E C pf rmatch o f m it n rd ra hypos cols lines plots,
  check_model E C o f = Ok (m, it) -> load_raster (sl_hash (ll_scan L)) C f (ck_fits o) "data" (i_pm it) = Ok rd -> load_raster (sl_hash (ll_scan L)) C f (ck_fits o) "asimov" (i_pm it) = Ok ra ->
  map fst (ra_points rd) = hypos -> distinct_hypos [n] hypos -> (2 <= length hypos)%nat -> (forall h, In h (map fst (ra_points ra)) -> keys h = [n]) -> fits_evaluate L m it -> ~ In n ["pv"; "cls"; "clb"] -> (ck_verbosity o <= 1)%Z ->
  check_run L E C pf rmatch o f = Ok ((cols, lines), plots) ->
  length (ra_points rd) = length (ra_points ra) /\
  exists k full fast psb ps fsb fs, let D := sl_dist (ll_scan L) in statistic (ck_stat o) k /\
    Forall2 (fun da hp => fst hp = fst (fst da) /\ from_fits (snd (fst da)) (snd (snd da)) (snd hp) /\ plr_hypo (snd hp) = fst hp /\ consistent D k (snd hp)) (combine (ra_points rd) (ra_points ra)) (ra_points full) /\
    map fst (ra_points fast) = hypos /\ (forall h pt, In (h, pt) (ra_points fast) -> plr_hypo pt = h /\ consistent D k pt /\ exists t, dget "tmu" (plr_ts pt) = Some (VNum t) /\ twice_difference pt t) /\
    cols = [n; "pv"; "cls"; "clb"] /\ length lines = length hypos /\
    (forall i h, nth_error hypos i = Some h -> exists x p q a b c a' b' c', dget n h = Some x /\ nth_error (ra_points full) i = Some (h, p) /\ nth_error (ra_points fast) i = Some (h, q) /\ has_pvs p a b c /\ has_pvs q a' b' c' /\
       nth_error lines i = Some [(x, None); (a, Some a'); (b, Some b'); (c, Some c')]) /\
    curve full n "pv" psb /\ curve full n "cls" ps /\ curve fast n "pv" fsb /\ curve fast n "cls" fs /\
    plots = (if ck_batch o then [] else [((ck_out o ++ "_clsb.pdf")%string, (plotted psb, plotted fsb)); ((ck_out o ++ "_cls.pdf")%string, (plotted ps, plotted fs))]).
Proof.
  intros L E C pf rmatch o f m it n rd ra hypos cols lines plots Hm Hrd Hra HH DH H2 KA HE Hn Hv H. unfold check_run in H. apply bind_Ok in H as ([[mi r] fast] & HR & H). apply bind_Ok in H as ([ks ls] & Ht & H). apply bind_Ok in H as (pl & Hp & H). injection H as <- <- <-.
  destruct mi as [m' it']. destruct (check_inv _ _ _ _ _ _ _ _ _ _ _ HR) as (Hm' & r0 & data & k & s & s' & Hr0 & Hdata & Hk & Hs & Hfill & Hfast). rewrite Hm in Hm'. injection Hm' as <- <-. cbn [fst] in Hp.
  destruct (full_stat_spec _ _ _ Hk) as (Hask & Hkn). set (hash := sl_hash (ll_scan L)) in *.
  assert (KD : forall h, In h (map fst (ra_points rd)) -> keys h = [n]) by (intros h Hh; rewrite HH in Hh; apply (dh_keys _ _ DH h Hh)).
  destruct (fits_points _ _ _ _ _ n _ _ _ _ _ _ Hrd Hra KD KA Hr0 Hkn Hfill) as (FP & El & Rp & K1 & HW). rewrite HH in Rp, K1.
  destruct (fast_points _ _ _ _ _ _ _ _ _ n hypos Hkn HE K1 DH HW Hfast) as (F1 & F2 & F3).
  assert (K4 : forall h pt, In (h, pt) (ra_points r) -> plr_hypo pt = h /\ consistent (sl_dist (ll_scan L)) k pt) by (intros h pt Hin; destruct (Forall2_in_r _ _ _ _ FP Hin) as (da & _ & (_ & _ & A & _ & B)); auto).
  assert (KR : forall h, In h (map fst (ra_points r)) -> keys h = [n]) by (intros h Hh; rewrite K1 in Hh; apply (dh_keys _ _ DH h Hh)). assert (KF : forall h, In h (map fst (ra_points fast)) -> keys h = [n]) by (intros h Hh; rewrite F1 in Hh; apply (dh_keys _ _ DH h Hh)).
  destruct (consistent_curves _ _ _ _ K4 KR) as (psb & ps & C1 & C2). destruct (consistent_curves _ _ fast n (fun h p Hin => let X := F3 h p Hin in conj (proj1 X) (proj1 (proj2 X))) KF) as (fsb & fs & C3 & C4).
  assert (Rn : ra_pois r = [n]).
  { rewrite Rp. clear - DH H2. pose proof (dh_keys _ _ DH) as K. apply compatible_single; [exact K|]. destruct hypos as [|h0 [|h1 hs]]; cbn in H2; try lia. unfold have_compatible_pois. match goal with |- context [existsb ?g ?l] => destruct (existsb g l) eqn:Ex end.
    - apply existsb_exists in Ex as (h & Hin & Hx). exfalso. revert Hx. rewrite (K h0) by now left. rewrite (K h) by now right. destruct (list_eq_dec string_dec [n] [n]); [discriminate|congruence].
    - rewrite (K h0) by now left. discriminate. }
  assert (Fn : ra_pois fast = [n]) by (rewrite F2; congruence).
  split; [exact El|]. exists k, r, fast, psb, ps, fsb, fs. cbv zeta. split; [exact Hask|]. split; [eapply Forall2_impl_in; [|exact FP]; intros da hp _ (A1 & A2 & A3 & _ & A4); auto|]. split; [exact F1|]. split; [exact F3|].
  unfold print_table in Ht. apply bind_Ok in Ht as (ls0 & Hl & Ht). injection Ht as <- <-.
  assert (HK : table_keys r (ck_verbosity o) = [n; "pv"; "cls"; "clb"]).
  { unfold table_keys. destruct (ra_points r) as [|[h p] pts] eqn:Er; [exfalso; rewrite <- K1 in H2; cbn in H2; lia|]. rewrite Rn. destruct (consistent_pvs _ _ _ (proj2 (K4 h p (or_introl eq_refl)))) as (a & b & c & A & B & G). unfold dmem. cbn [filter]. rewrite A, B, G.
    rewrite (proj2 (Z.ltb_ge 1 (ck_verbosity o))) by lia. reflexivity. }
  split; [exact HK|]. rewrite HK in Hl. apply mapM_Forall2 in Hl. pose proof (Forall2_length _ _ _ Hl) as Ll. rewrite <- (map_length fst), K1 in Ll. split; [congruence|]. split.
  { intros i h Hi. rewrite <- K1 in Hi. destruct (nth_error (ra_points r) i) as [[h' p]|] eqn:Er; [|rewrite nth_error_map, Er in Hi; discriminate]. rewrite nth_error_map, Er in Hi. cbn in Hi. injection Hi as ->. assert (Hi' : nth_error (map fst (ra_points fast)) i = Some h) by (rewrite F1, <- K1, nth_error_map, Er; reflexivity).
    rewrite nth_error_map in Hi'. destruct (nth_error (ra_points fast) i) as [[h' q]|] eqn:Ef; [|discriminate]. cbn in Hi'. injection Hi' as ->.
    destruct (in_nth_Forall2 _ _ _ _ _ Hl Er) as (line & Hline & Eline). cbn [fst] in Eline.
    assert (Ir := nth_error_In _ _ Er). assert (If := nth_error_In _ _ Ef). destruct (consistent_pvs _ _ _ (proj2 (K4 h p Ir))) as (a & b & c & A & B & G). destruct (consistent_pvs _ _ _ (proj1 (proj2 (F3 h q If)))) as (a' & b' & c' & A' & B' & G').
    assert (Gr : hget hash h (ra_points r) = Some p) by (apply (distinct_get hash n); [rewrite K1; exact DH|exact Ir]). assert (Gf : hget hash h (ra_points fast) = Some q) by (apply (distinct_get hash n); [rewrite F1; exact DH|exact If]).
    assert (X : exists x, dget n h = Some x) by (specialize (KR h (in_map fst _ _ Ir)); destruct h as [|[n1 x] [|]]; try discriminate; cbn in KR; injection KR as ->; exists x; cbn; now rewrite String.eqb_refl). destruct X as [x Hx].
    exists x, p, q, a, b, c, a', b', c'. split; [exact Hx|]. split; [reflexivity|]. split; [reflexivity|]. split; [repeat split; assumption|]. split; [repeat split; assumption|]. rewrite Hline. f_equal.
    assert (N1 : n <> "pv") by (intros ->; apply Hn; cbn; auto). assert (N2 : n <> "cls") by (intros ->; apply Hn; cbn; auto). assert (N3 : n <> "clb") by (intros ->; apply Hn; cbn; auto).
    unfold table_line in Eline. cbn [mapM] in Eline. rewrite (value_poi hash r n h p x Rn Gr Hx) in Eline.
    rewrite (value_pv hash r n h p "pv" a Rn Gr ltac:(cbn; auto) N1 A), (value_pv hash r n h p "cls" b Rn Gr ltac:(cbn; auto) N2 B), (value_pv hash r n h p "clb" c Rn Gr ltac:(cbn; auto) N3 G) in Eline.
    rewrite (value_pv hash fast n h q "pv" a' Fn Gf ltac:(cbn; auto) N1 A'), (value_pv hash fast n h q "cls" b' Fn Gf ltac:(cbn; auto) N2 B'), (value_pv hash fast n h q "clb" c' Fn Gf ltac:(cbn; auto) N3 G') in Eline.
    rewrite Rn in Eline. cbn [existsb] in Eline. rewrite String.eqb_refl, (proj2 (String.eqb_neq "pv" n)), (proj2 (String.eqb_neq "cls" n)), (proj2 (String.eqb_neq "clb" n)) in Eline by congruence. cbn in Eline. congruence. }
  split; [exact C1|]. split; [exact C2|]. split; [exact C3|]. split; [exact C4|].
  unfold check_plots in Hp. destruct (ck_batch o); [congruence|]. rewrite Rn in Hp. cbn [bind] in Hp. apply bind_Ok in Hp as (u & _ & Hp). rewrite (curve_plotted _ _ _ _ C1), (curve_plotted _ _ _ _ C2), (curve_plotted _ _ _ _ C3), (curve_plotted _ _ _ _ C4) in Hp. cbn [bind] in Hp. congruence.
Qed.
Print Assumptions C113_results.

(** the two p-values of a line are the same if the two fits are *)
Theorem C113_agreement : forall D k n p q a b c a' b' c', k <> CalcTMu -> keys (plr_hypo p) = [n] -> plr_hypo p = plr_hypo q -> consistent D k p -> consistent D k q -> same_fit n p q -> has_pvs p a b c -> has_pvs q a' b' c' -> a = a' /\ b = b' /\ c = c'.
Proof.
  intros D k n p q a b c a' b' c' _ Hk Hh (n1 & h1 & t1 & b1 & a1 & q1 & pv1 & cls1 & clb1 & fp1 & N1 & H1 & T1 & A1 & F1 & V1 & P1 & _ & X1 & Y1 & Z1) (n2 & h2 & t2 & b2 & a2 & q2 & pv2 & cls2 & clb2 & fp2 & N2 & H2 & T2 & A2 & F2 & V2 & P2 & _ & X2 & Y2 & Z2)
    (St & Sa & fp & fq & Sp & Sq & Sv) (E1 & E2 & E3) (G1 & G2 & G3).
  rewrite <- Hh, Hk in N2. rewrite Hk in N1. cbn in N1, N2. injection N1 as <-. injection N2 as <-. rewrite <- Hh, H1 in H2. injection H2 as <-. rewrite T1, T2 in St. injection St as <-. rewrite A1, A2 in Sa. injection Sa as <-.
  rewrite F1 in Sp. injection Sp as <-. rewrite F2 in Sq. injection Sq as <-. rewrite V1, V2 in Sv. injection Sv as <-. rewrite P1 in P2. injection P2 as <- <- <- <-.
  rewrite X1 in E1. rewrite Y1 in E2. rewrite Z1 in E3. rewrite X2 in G1. rewrite Y2 in G2. rewrite Z2 in G3. repeat split; congruence.
Qed.
Print Assumptions C113_agreement.

(** the model, the dataset and the fits that are compared *)
Theorem C113_inputs : forall L E C pf rmatch o f m it r fast, check_rasters L E C pf rmatch o f = Ok ((m, it), r, fast) ->
  exists m0 r0 data k s s', model_load_file E C f (new_model true (ck_linear o)) (ck_model o) None = Ok (m0, it) /\
    (forall c, ck_cutoff o = Some c -> m_cutoff m = c) /\ (ck_cutoff o = None -> m = m0) /\ m_pois m = m_pois m0 /\ m_nps m = m_nps m0 /\ m_aux m = m_aux m0 /\ m_channels m = m_channels m0 /\ m_exprs m = m_exprs m0 /\
    fits_raster (sl_hash (ll_scan L)) C f (ck_fits o) (i_pm it) = Ok r0 /\ fill_all_pv (sl_dist (ll_scan L)) k r0 = Ok r /\
    (ck_data o <> "" -> exists rest, data_create C f (m, it) (ck_data o) = Ok (data, rest)) /\ (ck_data o = "" -> ck_asimov o = None -> exists rest, data_create C f (m, it) (ck_model o) = Ok (data, rest)) /\
    (ck_data o = "" -> forall spec, ck_asimov o = Some spec -> exists sv vals, process_setvals pf rmatch m true true true false spec = Ok sv /\ numbers_of sv = Ok vals /\ expected_data m it vals = Ok data) /\
    mi_niter s = ck_niter o /\ mi_method s = "scalar" /\ mi_bounds s = Some (model_bounds m) /\
    recompute_raster (sl_hash (ll_scan L)) (sl_dist (ll_scan L)) k (ll_solver L) m it (sl_fit (ll_scan L) m it) data s r = Ok (fast, s').
Proof.
  intros L E C pf rmatch o f m it r fast H. destruct (check_inv _ _ _ _ _ _ _ _ _ _ _ H) as (Hm & r0 & data & k & s & s' & Hr0 & Hd & Hk & Hs & Hf & Hfa).
  unfold check_model in Hm. apply bind_Ok in Hm as ([m0 it0] & Hl & Hm). apply bind_Ok in Hm as (u1 & _ & Hm). apply bind_Ok in Hm as (u2 & _ & Hm). cbn [fst snd] in Hm. injection Hm as Em <-. exists m0, r0, data, k, s, s'.
  split; [exact Hl|]. split; [intros c Ec; rewrite Ec in Em; subst m; reflexivity|]. split; [intros Ec; rewrite Ec in Em; congruence|].
  do 5 (split; [destruct (ck_cutoff o); subst m; reflexivity|]). split; [exact Hr0|]. split; [exact Hf|]. unfold check_data in Hd.
  split; [|split; [|split]].
  - intros N. rewrite (proj2 (String.eqb_neq _ _) N) in Hd. cbn [negb] in Hd. apply bind_Ok in Hd as ([d rest] & Hd & Ed). injection Ed as <-. eauto.
  - intros N Na. rewrite N, Na in Hd. cbn in Hd. apply bind_Ok in Hd as ([d rest] & Hd & Ed). injection Ed as <-. eauto.
  - intros N spec Na. rewrite N, Na in Hd. cbn [String.eqb negb fst snd] in Hd. apply bind_Ok in Hd as (vals & Hv & Hd). unfold or_value_error in Hv. destruct (process_setvals pf rmatch m true true true false spec) as [sv|]; [|discriminate]. cbn [bind] in Hv. destruct (numbers_of sv) as [nv|] eqn:En; [|discriminate]. injection Hv as ->. eauto.
  - unfold check_minimizer in Hs. cbn [fst snd] in Hs. apply bind_Ok in Hs as ([p b] & Hb & Hs). injection Hs as <-. split; [reflexivity|]. split; [reflexivity|]. split; [|exact Hfa]. cbn. f_equal.
    unfold set_pois_min in Hb. apply bind_Ok in Hb as (p0 & _ & Hb). apply bind_Ok in Hb as (p1 & _ & Hb). apply bind_Ok in Hb as (bs & Hbs & Hb). apply bind_Ok in Hb as (p2 & _ & Hb). injection Hb as _ <-. unfold all_bounds in Hbs. cbn in Hbs. congruence.
Qed.
Print Assumptions C113_inputs.

(** --setrange and --regularize cannot be used: the function and the method they call do not exist *)
Theorem C113_options_refuted : forall L E C pf rmatch o f mi, model_load_file E C f (new_model true (ck_linear o)) (ck_model o) None = Ok mi ->
  (forall x, ck_regularize o = Some x -> check_run L E C pf rmatch o f = Err AttributeError) /\ (forall spec, ck_regularize o = None -> ck_setrange o = Some spec -> check_run L E C pf rmatch o f = Err NameError).
Proof.
  intros L E C pf rmatch o f mi Hl. split; [intros x Hx|intros spec Hx Hs]; unfold check_run, check_rasters, check_model; rewrite Hl; cbn [bind]; rewrite Hx; cbn [bind]; [reflexivity|]. rewrite Hs. reflexivity.
Qed.
Print Assumptions C113_options_refuted.

(** an unknown statistic, or several POIs *)
Theorem C113_refused : forall L E C pf rmatch o f mi r data, check_model E C o f = Ok mi -> fits_raster (sl_hash (ll_scan L)) C f (ck_fits o) (i_pm (snd mi)) = Ok r -> check_data C pf rmatch o f mi = Ok data ->
  (ck_stat o <> "q~mu" /\ ck_stat o <> "q_mu") \/ (2 <= length (ra_pois r))%nat -> check_run L E C pf rmatch o f = Err ValueError.
Proof.
  intros L E C pf rmatch o f mi r data Hm Hr Hd Hx. unfold check_run, check_rasters. rewrite Hm. cbn [bind]. rewrite Hr. cbn [bind]. rewrite Hd. cbn [bind].
  assert (X : full_stat r (ck_stat o) = Err ValueError); [|rewrite X; reflexivity]. unfold full_stat. destruct Hx as [[N1 N2]|N].
  - rewrite (proj2 (String.eqb_neq _ _) N1), (proj2 (String.eqb_neq _ _) N2). reflexivity.
  - rewrite (proj2 (Nat.ltb_lt _ _)) by lia. destruct (String.eqb _ _); [reflexivity|]. destruct (String.eqb _ _); reflexivity.
Qed.
Print Assumptions C113_refused.

(** the comparison cannot be plotted for a fits file with one hypothesis *)
Lemma fill_all_fst D k r r' : fill_all_pv D k r = Ok r' -> ra_pois r' = ra_pois r.
Proof. unfold fill_all_pv. intros H. apply bind_Ok in H as (l & _ & H). now injection H as <-. Qed.
Lemma single_pois hash C f file m r : fits_raster hash C f file m = Ok r -> (length (ra_points r) <= 1)%nat -> ra_pois r = [].
Proof.
  intros H Hl. unfold fits_raster in H. apply bind_Ok in H as (rd & _ & H). apply bind_Ok in H as (ra & _ & H). apply bind_Ok in H as (r1 & _ & H). pose proof H as Hnew. unfold raster_new in Hnew. apply bind_Ok in Hnew as (q1 & _ & Hnew). apply bind_Ok in Hnew as (q2 & _ & Hnew). apply bind_Ok in Hnew as (ps & Hps & Hnew).
  injection Hnew as <-. apply set_pois_incl in Hps. cbn [ra_pois ra_points] in *. rewrite Hps. unfold have_compatible_pois. destruct q2 as [|a [|b l]]; [reflexivity|reflexivity|cbn in Hl; lia].
Qed.
Theorem C113_single_hypothesis_refuted : forall L E C pf rmatch o f mi r, check_model E C o f = Ok mi -> fits_raster (sl_hash (ll_scan L)) C f (ck_fits o) (i_pm (snd mi)) = Ok r -> (length (ra_points r) <= 1)%nat -> ck_batch o = false ->
  exists e, check_run L E C pf rmatch o f = Err e.
Proof.
  intros L E C pf rmatch o f mi r Hm Hr Hl Hb. destruct (check_run L E C pf rmatch o f) as [x|e] eqn:H; [exfalso|eauto]. unfold check_run in H. apply bind_Ok in H as ([[[m it] r1] fast] & HR & H). apply bind_Ok in H as (t & _ & H). apply bind_Ok in H as (pl & Hp & _).
  destruct (check_inv _ _ _ _ _ _ _ _ _ _ _ HR) as (Hm' & r0 & data & k & s & s' & Hr0 & _ & _ & _ & Hf & _). rewrite Hm in Hm'. injection Hm' as ->. cbn [snd] in Hr. rewrite Hr in Hr0. injection Hr0 as <-.
  unfold check_plots in Hp. rewrite Hb, (fill_all_fst _ _ _ _ Hf), (single_pois _ _ _ _ _ _ Hr Hl) in Hp. discriminate.
Qed.
Print Assumptions C113_single_hypothesis_refuted.

(** the plots do not change the table, and in batch mode there are none *)
Definition with_batch (o : CheckOpts) (b : bool) : CheckOpts :=
  mkCk (ck_model o) (ck_data o) (ck_asimov o) (ck_fits o) (ck_setrange o) (ck_linear o) (ck_niter o) (ck_regularize o) (ck_cutoff o) (ck_stat o) b (ck_verbosity o) (ck_out o).
Theorem C113_batch : forall L E C pf rmatch o f, (forall t plots, check_run L E C pf rmatch (with_batch o true) f = Ok (t, plots) -> plots = []) /\
  (forall t plots, check_run L E C pf rmatch (with_batch o false) f = Ok (t, plots) -> check_run L E C pf rmatch (with_batch o true) f = Ok (t, []) /\ map fst plots = [(ck_out o ++ "_clsb.pdf")%string; (ck_out o ++ "_cls.pdf")%string]).
Proof.
  intros L E C pf rmatch o f. split.
  - intros t plots H. unfold check_run in H. apply bind_Ok in H as ([[mi r] fast] & HR & H). apply bind_Ok in H as (t0 & _ & H). cbn in H. congruence.
  - intros t plots H. unfold check_run in *. change (check_rasters L E C pf rmatch (with_batch o true) f) with (check_rasters L E C pf rmatch (with_batch o false) f). apply bind_Ok in H as ([[mi r] fast] & HR & H). rewrite HR. cbn [bind].
    apply bind_Ok in H as (t0 & Ht & H). change (ck_verbosity (with_batch o true)) with (ck_verbosity (with_batch o false)). rewrite Ht. cbn [bind]. apply bind_Ok in H as (pl & Hp & H). injection H as <- <-. split; [reflexivity|].
    unfold check_plots in Hp. cbn [with_batch ck_batch ck_out] in Hp. repeat (apply bind_Ok in Hp as (? & _ & Hp)). injection Hp as <-. reflexivity.
Qed.
Print Assumptions C113_batch.
