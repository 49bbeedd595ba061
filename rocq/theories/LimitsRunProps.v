(** C111: compute_limits, the limits from a file of fits with the full model.  Concrete cases that meet the hypotheses: LimitsRunExProps.v. *)
From Coq Require Import Permutation Sorted.
From Verif Require Import Py PyFacts RSort Base BaseFacts Expressions Norms Sample Channels Params ParamsFacts Core CoreFacts NpMin PoiMin PoiMinFacts PoiHistProps TestStat FitData FitDataFacts FitDataProps RasterProps
  ParamsProps UtilFacts Calculators CalcFacts CalcProps Scans ScansProps ModelIO ModelTools UtilTools LimitTools FileIO FileIOProps Commands Sampling SamplingFacts SamplingProps FileName FileNameProps ScanFacts ScanCommand ScanCommandProps SamplesRun SamplesRunProps
  LimitCommand LimitFacts LimitCommandProps LimitToysProps LimitsRun.
Local Open Scope string_scope.
Local Open Scope list_scope.
Local Open Scope R_scope.

(** ** samplers that fail *)
Definition fails (n : nat) (s : Sampler) : Prop := exists e, sp_generate s n = Err e.
Lemma full_fails dataset n h g : (0 < n)%nat -> fails n (full_sampler dataset h g).
Proof. intros Hn. destruct n; [lia|]. unfold fails. cbn. destruct (dataset g); cbn; eauto. Qed.
Lemma gen_loop_fails hash root ntoys brk sort : forall l d dists d' dists' e, (forall hs, In hs l -> fails ntoys (snd hs)) -> gen_loop hash root ntoys brk sort l (d, dists) = ((d', dists'), e) ->
  dk_npy d' = dk_npy d /\ (e = None -> d' = d).
Proof.
  induction l as [|[h s] l IH]; intros d dists d' dists' e HF H; cbn [gen_loop] in H; [injection H as <- <- <-; auto|]. unfold gen_one in H.
  destruct (dmem (so_file root h ".npy") (dk_npy d)).
  - destruct (sd_load (dk_npy d) (sd_zeros ntoys) (so_file root h ".npy")) as [a|e0]; [|injection H as <- <- <-; split; [reflexivity|discriminate]]. apply (IH _ _ _ _ _ (fun x Hx => HF x (or_intror Hx)) H).
  - destruct (has_lock (so_file root h ".lock") d && negb brk)%bool; [apply (IH _ _ _ _ _ (fun x Hx => HF x (or_intror Hx)) H)|].
    destruct (HF (h, s) (or_introl eq_refl)) as [e0 E0]. cbn [snd] in E0. rewrite E0 in H. injection H as <- <- <-. split; [reflexivity|discriminate].
Qed.
Lemma generate_fails hash o ntoys brk d d' o' e : (forall s, In s (so_samplers o) -> fails ntoys s) -> so_generate_and_save hash o ntoys brk true d = ((d', o'), e) -> dk_npy d' = dk_npy d /\ (e = None -> d' = d).
Proof.
  intros HF H. unfold so_generate_and_save in H. destruct (so_samplers o) as [|s0 ss] eqn:Es; [injection H as <- <- <-; split; [reflexivity|discriminate]|]. rewrite <- Es in *.
  destruct (gen_loop hash (so_root o) ntoys brk true (combine (so_hypos o) (so_samplers o)) (d, so_dists o)) as [[d1 ds] e1] eqn:E1. injection H as <- <- <-. eapply gen_loop_fails; [|exact E1].
  intros [h s] Hin. apply HF. exact (in_combine_r _ _ _ _ Hin).
Qed.
Lemma co_generate_fails hash a b root c ntoys brk d d' c' e : limit_samples a b root = Ok c -> (forall s, In s a \/ In s b -> fails ntoys s) -> co_generate_and_save hash c ntoys brk true d = ((d', c'), e) -> dk_npy d' = dk_npy d /\ (e = None -> d' = d).
Proof.
  intros Hc HF H. unfold limit_samples in Hc. apply bind_Ok in Hc as (oa & Ha & Hc). apply bind_Ok in Hc as (ob & Hb & Hc). injection Hc as <-. apply init_samplers in Ha as [_ ->]. apply init_samplers in Hb as [_ ->].
  unfold co_generate_and_save in H. cbn [co_clsb co_cl_b] in H. destruct (so_generate_and_save hash (mkSO (map sp_hypo a) a root []) ntoys brk true d) as [[d1 o1] [e1|]] eqn:E1.
  - injection H as <- <- <-. apply generate_fails in E1 as [A _]; [|intros s Hs; apply HF; now left]. split; [exact A|discriminate].
  - apply generate_fails in E1 as [A B]; [|intros s Hs; apply HF; now left]. rewrite (B eq_refl) in *. destruct (so_generate_and_save hash (mkSO (map sp_hypo b) b (root ++ "_clb") []) ntoys brk true d) as [[d2 o2] e2] eqn:E2. injection H as <- <- <-. apply generate_fails in E2; [exact E2|intros s Hs; apply HF; now right].
Qed.
Lemma full_samplers_fail dataset m n : (0 < n)%nat -> forall l sl, mapM (full_samplers dataset m) l = Ok sl -> forall s, In s (map fst sl) \/ In s (map snd sl) -> fails n s.
Proof.
  intros Hn l sl H. apply mapM_Forall2 in H. intros s Hs. assert (X : exists ss, In ss sl /\ (s = fst ss \/ s = snd ss)) by (destruct Hs as [Hs|Hs]; apply in_map_iff in Hs as (ss & <- & Hin); eauto).
  destruct X as (ss & Hin & Ess). destruct (Forall2_in_r _ _ _ _ H Hin) as ([[p g] q] & _ & E). unfold full_samplers in E. repeat (apply bind_Ok in E as (? & _ & E)). injection E as <-. cbn [fst snd] in Ess. destruct Ess as [-> | ->]; now apply full_fails.
Qed.
(** the parts of a run *)
Lemma full_run_cases L E C w pf dataset o f dk ops dk' e : full_run L E C w pf dataset o f dk = (ops, dk', e) ->
  (ops = [] /\ dk' = dk /\ ((0 < fo_ntoys o)%nat -> e <> None)) \/ exists mi gens r fast sl c, full_rasters L E C pf o f = Ok (mi, gens, r, fast) /\ (0 < fo_ntoys o)%nat /\
    mapM (full_samplers (dataset mi) (fst mi)) (combine (combine (map snd (ra_points r)) gens) (map snd (ra_points fast))) = Ok sl /\ limit_samples (map fst sl) (map snd sl) (fo_out o) = Ok c /\ dk_npy dk' = dk_npy dk /\
    ((ops = [] /\ e <> None) \/ (dk' = dk /\ exists c' lf lq sampling bands d, co_generate_and_save (sl_hash (ll_scan L)) c (fo_ntoys o) (fo_break o) true dk = ((dk, c'), None) /\
       full_limits L o c' r fast = Ok (lf, lq, sampling, bands) /\ full_results (ll_dec L) o (fst mi) lf lq sampling bands = Ok d /\ save_ops C w (full_results_file o) (Some "json") d = (ops, e))).
Proof.
  unfold full_run. intros H. destruct (full_rasters L E C pf o f) as [[[[mi gens] r] fast]|e0] eqn:ER; [|left; injection H as <- <- <-; split; [reflexivity|split; [reflexivity|discriminate]]].
  destruct (fo_ntoys o =? 0)%nat eqn:En; [left; apply Nat.eqb_eq in En; injection H as <- <- <-; split; [reflexivity|split; [reflexivity|lia]]|]. apply Nat.eqb_neq in En. assert (Hn : (0 < fo_ntoys o)%nat) by lia.
  destruct (mapM (full_samplers (dataset mi) (fst mi)) _) as [sl|e1] eqn:Es; cbn [bind] in H; [|left; injection H as <- <- <-; split; [reflexivity|split; [reflexivity|discriminate]]].
  destruct (limit_samples (map fst sl) (map snd sl) (fo_out o)) as [c|e1] eqn:Ec; [|left; injection H as <- <- <-; split; [reflexivity|split; [reflexivity|discriminate]]].
  right. exists mi, gens, r, fast, sl, c. split; [reflexivity|]. split; [exact Hn|]. split; [exact Es|]. split; [exact Ec|].
  destruct (co_generate_and_save (sl_hash (ll_scan L)) c (fo_ntoys o) (fo_break o) true dk) as [[d1 c1] [e1|]] eqn:Eg; destruct (co_generate_fails _ _ _ _ _ _ _ _ _ _ _ Ec (full_samplers_fail _ _ _ Hn _ _ Es) Eg) as [A B].
  - injection H as <- <- <-. split; [exact A|]. left. split; [reflexivity|discriminate].
  - rewrite (B eq_refl) in *. destruct (full_limits L o c1 r fast) as [[[[lf lq] sampling] bands]|e2] eqn:El; cbn [bind] in H; [|injection H as <- <- <-; split; [reflexivity|left; split; [reflexivity|discriminate]]].
    destruct (full_results (ll_dec L) o (fst mi) lf lq sampling bands) as [d|e2] eqn:Ed; [|injection H as <- <- <-; split; [reflexivity|left; split; [reflexivity|discriminate]]].
    destruct (save_ops C w (full_results_file o) (Some "json") d) as [ops1 e2] eqn:Ev. injection H as <- <- <-. split; [reflexivity|]. right. split; [reflexivity|]. exists c1, lf, lq, sampling, bands, d. auto.
Qed.

(** intended: the sampling distributions are generated.  Refuted: no run writes a sample file, and a run that succeeds leaves no lock either: the bounds given to the samplers cannot be used in a fit. *)
Theorem C111_no_samples_refuted : forall L E C w pf dataset o f dk ops dk' e, full_run L E C w pf dataset o f dk = (ops, dk', e) -> dk_npy dk' = dk_npy dk /\ (e = None -> dk' = dk).
Proof.
  intros L E C w pf dataset o f dk ops dk' e H. destruct (full_run_cases _ _ _ _ _ _ _ _ _ _ _ _ H) as [(_ & -> & _)|(mi & gens & r & fast & sl & c & _ & _ & _ & _ & A & [(_ & B)|(-> & _)])]; [auto| |auto]. split; [exact A|]. intros ->. contradiction.
Qed.
Print Assumptions C111_no_samples_refuted.
(** intended: the results are stored (-o).  Refuted: without toys (the default) nothing is written. *)
Theorem C111_no_results_refuted : forall L E C w pf dataset o f dk ops dk' e, fo_ntoys o = 0%nat -> full_run L E C w pf dataset o f dk = (ops, dk', e) -> ops = [] /\ dk' = dk.
Proof.
  intros L E C w pf dataset o f dk ops dk' e Hn H. destruct (full_run_cases _ _ _ _ _ _ _ _ _ _ _ _ H) as [(-> & -> & _)|(mi & gens & r & fast & sl & c & _ & X & _)]; [auto|lia].
Qed.
Print Assumptions C111_no_results_refuted.
(** The fits file and the model file are only read: a run changes no file except its results. *)
Theorem C111_inputs_kept : forall L E C w pf dataset o f dk ops dk' e q, full_run L E C w pf dataset o f dk = (ops, dk', e) -> q <> (fo_out o ++ "_results.json")%string -> run_ops ops f q = f q.
Proof.
  intros L E C w pf dataset o f dk ops dk' e q H Hq. destruct (full_run_cases _ _ _ _ _ _ _ _ _ _ _ _ H) as [(-> & _)|(mi & gens & r & fast & sl & c & _ & _ & _ & _ & _ & [(-> & _)|(_ & c' & lf & lq & sa & ba & d & _ & _ & _ & Hs)])]; [reflexivity|reflexivity|].
  eapply save_only; [exact Hs|exact Hq].
Qed.
Print Assumptions C111_inputs_kept.

(** intended: --regularize sets the regularization.  Refuted: the run fails. *)
Theorem C111_regularize_refuted : forall L E C w pf dataset o f dk mi x, model_load_file E C f (new_model true (fo_linear o)) (fo_model o) None = Ok mi -> fo_regularize o = Some x -> full_run L E C w pf dataset o f dk = ([], dk, Some AttributeError).
Proof. intros L E C w pf dataset o f dk mi x Hm Hr. unfold full_run, full_rasters, full_model. rewrite Hm. cbn [bind]. rewrite Hr. reflexivity. Qed.
Print Assumptions C111_regularize_refuted.
(** intended: --sethypo changes values of the hypotheses.  Refuted: whatever is asked for, a run with hypotheses fails. *)
Theorem C111_sethypo_refuted : forall L E C w pf dataset o f dk mi r gens, full_model E C o f = Ok mi -> fits_raster (sl_hash (ll_scan L)) C f (fo_fits o) (i_pm (snd mi)) = Ok r -> ra_points r <> [] -> gen_pars r = Ok gens ->
  fo_sethypo o <> "" -> full_run L E C w pf dataset o f dk = ([], dk, Some ValueError).
Proof.
  intros L E C w pf dataset o f dk mi r gens Hm Hr Hp Hg Hs. unfold full_run, full_rasters. rewrite Hm. cbn [bind snd]. rewrite Hr. cbn [bind]. rewrite Hg. cbn [bind]. unfold set_hypo. destruct (String.eqb_spec (fo_sethypo o) ""); [contradiction|]. destruct (ra_points r); [contradiction|]. reflexivity.
Qed.
Print Assumptions C111_sethypo_refuted.
(** intended: --asimov compares with the linear model for an Asimov dataset.  Refuted: whatever is asked for, the run fails. *)
Theorem C111_asimov_refuted : forall L E C w pf dataset o f dk mi r gens spec, full_model E C o f = Ok mi -> fits_raster (sl_hash (ll_scan L)) C f (fo_fits o) (i_pm (snd mi)) = Ok r -> gen_pars r = Ok gens ->
  fo_asimov o = Some spec -> fo_data o = None \/ fo_data o = Some "" -> full_run L E C w pf dataset o f dk = ([], dk, Some ValueError).
Proof.
  intros L E C w pf dataset o f dk mi r gens spec Hm Hr Hg Ha Hd. unfold full_run, full_rasters. rewrite Hm. cbn [bind snd]. rewrite Hr. cbn [bind]. rewrite Hg. cbn [bind].
  destruct (set_hypo o r) as [u|e0] eqn:Es; cbn [bind].
  - unfold full_data. rewrite Ha. destruct Hd as [-> | ->]; reflexivity.
  - unfold set_hypo in Es. destruct (String.eqb (fo_sethypo o) ""); [discriminate|]. destruct (ra_points r); [discriminate|]. injection Es as <-. reflexivity.
Qed.
Print Assumptions C111_asimov_refuted.
Definition with_bounds (o : FullOpts) (b : option string) : FullOpts := mkFO (fo_model o) (fo_fits o) (fo_ntoys o) (fo_cl o) (fo_out o) (fo_data o) (fo_asimov o) (fo_linear o) (fo_niter o) (fo_regularize o) (fo_cutoff o) b (fo_sethypo o) (fo_stat o) (fo_break o) (fo_bands o) (fo_trunc o).
Definition with_iterations (o : FullOpts) (n : nat) : FullOpts := mkFO (fo_model o) (fo_fits o) (fo_ntoys o) (fo_cl o) (fo_out o) (fo_data o) (fo_asimov o) (fo_linear o) n (fo_regularize o) (fo_cutoff o) (fo_bounds o) (fo_sethypo o) (fo_stat o) (fo_break o) (fo_bands o) (fo_trunc o).
(** intended: --bounds regularizes the model and --iterations accounts for non-linear effects.  Refuted: bounds that can be read, and any number of iterations, give the same run. *)
Theorem C111_bounds_refuted : forall L E C w pf dataset o b l l' n f dk, full_bounds pf o = Ok l -> full_bounds pf (with_bounds o b) = Ok l' ->
  full_run L E C w pf dataset (with_bounds o b) f dk = full_run L E C w pf dataset o f dk /\ full_run L E C w pf dataset (with_iterations o n) f dk = full_run L E C w pf dataset o f dk.
Proof.
  intros L E C w pf dataset o b l l' n f dk H1 H2.
  assert (X : full_rasters L E C pf (with_bounds o b) f = full_rasters L E C pf o f).
  { unfold full_rasters. change (full_model E C (with_bounds o b) f) with (full_model E C o f). destruct (full_model E C o f) as [mi|]; cbn [bind]; [|reflexivity]. change (fo_fits (with_bounds o b)) with (fo_fits o). destruct (fits_raster _ _ _ _ _) as [r|]; cbn [bind]; [|reflexivity].
    destruct (gen_pars r); cbn [bind]; [|reflexivity]. change (set_hypo (with_bounds o b) r) with (set_hypo o r). destruct (set_hypo o r); cbn [bind]; [|reflexivity]. change (full_data C (with_bounds o b) f mi) with (full_data C o f mi). destruct (full_data C o f mi); cbn [bind]; [|reflexivity].
    rewrite H1, H2. reflexivity. }
  split.
  - unfold full_run. rewrite X. reflexivity.
  - reflexivity.
Qed.
Print Assumptions C111_bounds_refuted.

(** C111: what enters the run: the model with its --cutoff, the dataset of --data-file (without it, that of the model file), with which the fast values are computed, and for each hypothesis the
    parameters of the fit to the hypothesis ("hypo_fit" in the fits file), from which the toys would be generated *)
Theorem C111_inputs : forall L E C pf o f m it gens r fast, full_rasters L E C pf o f = Ok ((m, it), gens, r, fast) ->
  exists m0 rf data rest k s s', model_load_file E C f (new_model true (fo_linear o)) (fo_model o) None = Ok (m0, it) /\
    (forall c, fo_cutoff o = Some c -> m_cutoff m = c) /\ (fo_cutoff o = None -> m = m0) /\ m_pois m = m_pois m0 /\ m_nps m = m_nps m0 /\ m_aux m = m_aux m0 /\ m_channels m = m_channels m0 /\ m_exprs m = m_exprs m0 /\
    fits_raster (sl_hash (ll_scan L)) C f (fo_fits o) (i_pm it) = Ok rf /\ Forall2 (fun hp g => fit_pars (plr_fixed (snd hp)) = Ok g) (ra_points rf) gens /\
    data_create C f (m, it) (match fo_data o with Some p => if String.eqb p "" then fo_model o else p | None => fo_model o end) = Ok (data, rest) /\
    recompute_raster (sl_hash (ll_scan L)) (sl_dist (ll_scan L)) k (ll_solver L) m it (sl_fit (ll_scan L) m it) data s r = Ok (fast, s').
Proof.
  intros L E C pf o f m it gens r fast H. unfold full_rasters in H. apply bind_Ok in H as ([m1 it1] & Hm & H). apply bind_Ok in H as (rf & Hrf & H). apply bind_Ok in H as (g & Hg & H). apply bind_Ok in H as (u & _ & H).
  apply bind_Ok in H as (data & Hd & H). apply bind_Ok in H as (bs & _ & H). apply bind_Ok in H as (k & _ & H). apply bind_Ok in H as (s & _ & H). apply bind_Ok in H as (r1 & _ & H). apply bind_Ok in H as ([fa s'] & Hf & H). cbn [fst snd] in *. injection H as -> -> -> -> ->.
  unfold full_model in Hm. apply bind_Ok in Hm as ([m0 it0] & H0 & Hm). apply bind_Ok in Hm as (u' & _ & Hm). cbn [fst snd] in Hm. injection Hm as Hm ->.
  assert (D : exists rest, data_create C f (m, it) (match fo_data o with Some p => if String.eqb p "" then fo_model o else p | None => fo_model o end) = Ok (data, rest)).
  { unfold full_data in Hd. assert (X : forall p, (let! d := data_create C f (m, it) p in Ok (fst d)) = Ok data -> exists rest, data_create C f (m, it) p = Ok (data, rest)) by (intros p Hp; apply bind_Ok in Hp as ([d rest] & Hp & E0); injection E0 as <-; eauto).
    destruct (fo_data o) as [p|]; [destruct (String.eqb p "")|]; try (apply X; exact Hd); destruct (fo_asimov o); try discriminate; apply X; exact Hd. }
  destruct D as [rest D]. exists m0, rf, data, rest, k, s, s'. split; [exact H0|].
  split; [intros c Ec; rewrite Ec in Hm; subst m; reflexivity|]. split; [intros Ec; rewrite Ec in Hm; congruence|].
  assert (Hs : m_pois m = m_pois m0 /\ m_nps m = m_nps m0 /\ m_aux m = m_aux m0 /\ m_channels m = m_channels m0 /\ m_exprs m = m_exprs m0) by (destruct (fo_cutoff o); subst m; repeat split; reflexivity).
  destruct Hs as (A1 & A2 & A3 & A4 & A5). do 5 (split; [assumption|]). split; [exact Hrf|]. split; [apply mapM_Forall2; exact Hg|]. split; [exact D|exact Hf].
Qed.
Print Assumptions C111_inputs.
