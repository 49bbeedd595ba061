(** C105-C107, continued: the model and the hypotheses poi_scan works with. *)
From Verif Require Import Py PyFacts Base BaseFacts Expressions Norms Sample Channels Params ParamsFacts Core CoreExample NpMin UtilFacts PoiMin PoiMinFacts PoiMinProps PoiHistProps TestStat FitData FitDataFacts FitDataProps RasterProps
  ParamsProps UtilProps Calculators CalcFacts CalcProps Scans ScansProps ModelIO ModelTools UtilTools FileIO FileIOProps Commands CommandChannelProps CommandReparamProps CommandMergeProps ReparamProps ScanCommand ScanFacts ScanCommandProps ScanCommandExProps.
Local Open Scope string_scope.
Local Open Scope list_scope.
Local Open Scope R_scope.

(** The model is the one of the file, loaded with the requested treatment of the nuisance parameters; --cutoff replaces its cutoff and --setrange the ranges of its parameters of interest
    (process_setranges: C63), and nothing else is changed. *)
Theorem C105_model : forall E C pf rmatch o f m I, scan_model E C pf rmatch o f = Ok (m, I) ->
  exists m0, model_load_file E C f (new_model (negb (so_sym o)) (so_linear o)) (so_model o) None = Ok (m0, I) /\
    (forall c, so_cutoff o = Some c -> m_cutoff m = c) /\ (so_cutoff o = None -> m_cutoff m = m_cutoff m0) /\
    (so_setrange o = None -> m_pois m = m_pois m0) /\ (forall spec, so_setrange o = Some spec -> process_setranges pf rmatch spec (m_pois m0) = (m_pois m, Ok tt)) /\
    m_name m = m_name m0 /\ m_nps m = m_nps m0 /\ m_aux m = m_aux m0 /\ m_channels m = m_channels m0 /\ m_exprs m = m_exprs m0 /\
    (m_asym m, m_linear m, m_simple_sym m, m_lognormal m) = (m_asym m0, m_linear m0, m_simple_sym m0, m_lognormal m0).
Proof.
  intros E C pf rmatch o f m I H. unfold scan_model in H. destruct (model_load_file _ _ _ _ _ _) as [[m0 I0]|]; cbn [bind] in H; [|discriminate]. destruct (so_regularize o); cbn [bind fst snd] in H; [discriminate|].
  exists m0. destruct (so_setrange o) as [spec|] eqn:Es.
  - destruct (process_setranges pf rmatch spec _) as [ps r] eqn:Ep. destruct r as [[]|]; cbn [bind] in H; [|discriminate]. injection H as <- <-.
    destruct (so_cutoff o) as [c|] eqn:Ec; cbn in *; repeat split; intros; congruence.
  - injection H as <- <-. destruct (so_cutoff o) as [c|] eqn:Ec; cbn in *; repeat split; intros; congruence.
Qed.
Print Assumptions C105_model.
Example C105_model_nonvacuous : exists C I m, let o := mkSO "m.json" None (Some "mu=1") None "1" "scan" false true "all" (Some "mu=1:5") true true 1 None (Some (1/2)) false in
  scan_model ex_env C s_pf s_match o s_fs = Ok (m, I) /\ m_cutoff m = 1/2 /\ map (fun kp => (fst kp, poi_min (snd kp), poi_max (snd kp))) (m_pois m) = [("mu", Some 1, Some 5)].
Proof.
  destruct s_loads as (I & HL & _). exists (table_codec [("1", sm_file)]), I. eexists. cbv zeta. split.
  - unfold scan_model, model_load_file. cbn [so_sym so_linear negb so_model so_regularize so_cutoff so_setrange]. change (load_file _ s_fs "m.json" None) with (Ok sm_file). cbn [bind]. rewrite HL. reflexivity.
  - split; reflexivity.
Qed.

(** Without --hypos the hypotheses are those of the stored raster: the run is the same as with these hypotheses given. *)
Definition with_hypos (o : ScanOpts) (h : option string) : ScanOpts :=
  mkSO (so_model o) (so_data o) (so_asimov o) h (so_cl o) (so_out o) (so_overwrite o) (so_force o) (so_mode o) (so_setrange o) (so_linear o) (so_sym o) (so_niter o) (so_regularize o) (so_cutoff o) (so_timing o).
Theorem C106_stored_hypotheses : forall L E C w pf pi rmatch o f m I data r spec, scan_model E C pf rmatch o f = Ok (m, I) -> scan_data C pf rmatch o f (m, I) = Ok data -> cached_raster L C o f I = Ok (Some r) -> so_hypos o = None ->
  parse_hypos (e_fuel E) pf pi rmatch m spec = Ok (map fst (ra_points r)) -> (forall h, In h (map fst (ra_points r)) -> NoDup (keys h)) ->
  scan_run L E C w pf pi rmatch o f = scan_run L E C w pf pi rmatch (with_hypos o (Some spec)) f.
Proof.
  intros L E C w pf pi rmatch o f m I data r spec Hm Hd Hc Hh Hp HN.
  rewrite (run_cached L E C w pf pi rmatch (with_hypos o (Some spec)) f m I data r spec (map fst (ra_points r)) Hm Hd Hc eq_refl Hp).
  - unfold scan_run. rewrite Hm. cbn [bind]. rewrite Hd. cbn [bind snd]. rewrite Hc. cbn [bind fst]. unfold scan_plan. rewrite Hh. reflexivity.
  - split; [now rewrite map_length|]. intros h Hin. apply in_map_iff in Hin as ([h' p] & <- & Hin). exists h', p. split; [exact Hin|]. apply hypo_eqb_refl, HN. apply in_map_iff. exists (h', p). auto.
Qed.
Print Assumptions C106_stored_hypotheses.
Example C106_stored_hypotheses_nonvacuous : exists C I f r data, let o := with_hypos s_opts None in scan_model ex_env C s_pf s_match o f = Ok (sm, I) /\ scan_data C s_pf s_match o f (sm, I) = Ok data /\ cached_raster s_libs C o f I = Ok (Some r) /\ so_hypos o = None /\
  parse_hypos (e_fuel ex_env) s_pf no_int s_match sm "mu=1|mu=2|mu=3|mu=4|mu=5" = Ok (map fst (ra_points r)) /\ (forall h, In h (map fst (ra_points r)) -> NoDup (keys h)).
Proof.
  destruct s_loads as (I & HL & Hp & Hr & _ & data & HD). destruct (s_computed I data Hp Hr) as (r & l & K1 & K2 & K3 & K4 & K5).
  set (C := table_codec [("2", [("fast", JList l)]); ("1", sm_file)]). assert (HC : faithful C) by (apply table_codec_faithful; cbn; repeat constructor; cbn; intuition congruence).
  assert (P1 : c_dump C "json" [("fast", JList l)] = (["2"], None)) by (unfold C, table_codec; cbn [c_dump find snd]; destruct (jv_eq_dec _ _); [reflexivity|contradiction]).
  assert (S1 : exists ops, save_ops C any_path (raster_file s_opts) None [("fast", JList l)] = (ops, None)).
  { unfold save_ops. change (flavor_of (raster_file s_opts) None) with "json". cbn [negb any_path String.eqb Ascii.eqb Bool.eqb orb]. rewrite P1. eexists. reflexivity. }
  destruct S1 as [ops S1]. assert (HN : NoDup (pm_pois (i_pm I) ++ np_names (i_pm I))) by (rewrite Hp; repeat constructor; cbn; intuition congruence).
  destruct (raster_reused s_libs C any_path s_opts s_fs ops sm I data s_hypos r l HC s_eval s_distinct HN K1 K3 S1 eq_refl) as (r' & Hc & [_ Hsv] & Hans).
  assert (Hmf : run_ops ops s_fs "m.json" = Some "1") by (rewrite (save_only _ _ _ _ _ _ _ s_fs "m.json" S1) by discriminate; reflexivity).
  destruct (compute_ok s_libs s_opts sm I data s_hypos r s_eval s_distinct K1) as (E1 & _).
  assert (Ef : map fst (ra_points r') = s_hypos).
  { rewrite <- E1. clear - Hsv. induction Hsv as [|a b la lb (X & _) _ IH]; [reflexivity|]. cbn [map]. now rewrite X, IH. }
  exists C, I, (run_ops ops s_fs), r', data. cbv zeta. split.
  - assert (X : load_file C (run_ops ops s_fs) "m.json" None = Ok sm_file) by (unfold load_file; rewrite Hmf; reflexivity). unfold scan_model, model_load_file. cbn [with_hypos s_opts so_sym so_linear negb so_model so_regularize so_cutoff so_setrange]. rewrite X. cbn [bind]. rewrite HL. reflexivity.
  - split; [exact HD|]. split; [exact Hc|]. split; [reflexivity|]. rewrite Ef. split; [reflexivity|apply s_distinct].
Qed.

(** A scan of two parameters that succeeds has found the best fit of the scan at the first level. *)
Theorem C107_two_parameters_best_fit : forall L m r p1 p2 cl cls d, scan_results L m r [p1; p2] (cl :: cls) = Ok d ->
  d = [] /\ exists s best, p2_new (sl_stat L) r "tmu" None None (fst (level_args cl)) (snd (level_args cl)) = Ok s /\ scan_minimum (p2_scan s) = Ok best /\
    (exists a b, dget (p2_poi1 s) (fst best) = Some a /\ dget (p2_poi2 s) (fst best) = Some b) /\
    forall cl', In cl' cls -> exists s', p2_new (sl_stat L) r "tmu" None None (fst (level_args cl')) (snd (level_args cl')) = Ok s'.
Proof.
  intros L m r p1 p2 cl cls d H. cbn [scan_results] in H. destruct (contour_levels L r true (cl :: cls)) as [[]|] eqn:Ec; cbn [bind] in H; [|discriminate]. injection H as <-. split; [reflexivity|].
  cbn [contour_levels] in Ec. destruct (p2_new _ _ _ _ _ _ _) as [s|] eqn:Es; cbn [bind] in Ec; [|discriminate]. destruct (p2_best_fit (sl_best2 L s) s) as [bf|] eqn:Eb; cbn [bind] in Ec; [|discriminate].
  unfold p2_best_fit in Eb. destruct (scan_minimum (p2_scan s)) as [best|] eqn:Em; cbn [bind] in Eb; [|discriminate]. unfold dgetE in Eb. destruct (dget (p2_poi1 s) (fst best)) as [a|] eqn:Ea; cbn [bind] in Eb; [|discriminate]. destruct (dget (p2_poi2 s) (fst best)) as [b|] eqn:Eb2; cbn [bind] in Eb; [|discriminate].
  exists s, best. split; [reflexivity|]. split; [exact Em|]. split; [eauto|]. clear - Ec. induction cls as [|c cls IH]; [intros ? []|]. cbn [contour_levels] in Ec. destruct (p2_new _ _ _ _ _ (fst (level_args c)) _) as [s'|] eqn:E; cbn [bind] in Ec; [|discriminate]. intros x [<-|Hx]; [eauto|]. now apply IH.
Qed.
Print Assumptions C107_two_parameters_best_fit.
Example C107_two_parameters_best_fit_nonvacuous : exists r, scan_results s_libs2 tmod2 r ["mu"; "nu"] [1] = Ok [].
Proof. destruct s_loads2 as (I & HL & Hp & Hr & data & HD). destruct (s_computed3 I data Hp Hr) as (r & l & K1 & K3 & Hd). eauto. Qed.
