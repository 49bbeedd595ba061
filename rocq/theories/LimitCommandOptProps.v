(** C109: the options --cutoff and --bounds of compute_fast_limits. *)
From Verif Require Import Py PyFacts RSort Base BaseFacts Expressions Norms Sample Channels Params ParamsFacts Core CoreExample CoreFacts NpMin PoiMin PoiMinFacts PoiMinProps PoiHistProps TestStat FitData FitDataFacts FitDataProps RasterProps
  ParamsProps UtilFacts Calculators CalcFacts CalcProps Scans ScansProps ModelIO ModelTools UtilTools LimitTools FileIO FileIOProps Commands Sampling SamplingFacts SamplingProps FileName FileNameProps ScanFacts ScanCommand ScanCommandProps ScanCommandExProps SamplesRun SamplesRunProps
  CommandChannelProps LimitCommand LimitFacts LimitCommandProps LimitCommandExProps.
Local Open Scope string_scope.
Local Open Scope list_scope.
Local Open Scope R_scope.

(** The model of the run is the one in the file, with the cutoff asked for. *)
Theorem C109_model : forall E C o f m it, limit_model E C o f = Ok (m, it) -> lo_regularize o = None /\
  exists m0, model_load_file E C f (new_model true false) (lo_model o) None = Ok (m0, it) /\ (forall c, lo_cutoff o = Some c -> m_cutoff m = c) /\ (lo_cutoff o = None -> m_cutoff m = m_cutoff m0) /\
    m_name m = m_name m0 /\ m_pois m = m_pois m0 /\ m_nps m = m_nps m0 /\ m_aux m = m_aux m0 /\ m_channels m = m_channels m0 /\ m_exprs m = m_exprs m0 /\
    (m_asym m, m_linear m, m_simple_sym m, m_lognormal m) = (m_asym m0, m_linear m0, m_simple_sym m0, m_lognormal m0).
Proof.
  intros E C o f m it H. unfold limit_model in H. destruct (model_load_file _ _ _ _ _ _) as [[m0 I0]|]; cbn [bind] in H; [|discriminate]. destruct (lo_regularize o); cbn [bind fst snd] in H; [discriminate|]. split; [reflexivity|].
  exists m0. destruct (lo_cutoff o) as [c|] eqn:Ec; injection H as <- <-; cbn; repeat split; intros; congruence.
Qed.
Print Assumptions C109_model.
Example C109_model_nonvacuous : exists it m, let o := mkLO "m.json" l_four 0 (9 / 10) "lim" None (Some "mu=1") 1 None (Some (1 / 2)) None "q_mu" false false None None in limit_model ex_env l_codec o l_fs = Ok (m, it) /\ m_cutoff m = 1 / 2 /\ m_cutoff lm = 0.
Proof.
  destruct l_inputs as (it & HL & _). exists it. eexists. cbv zeta. split; [unfold limit_model, model_load_file; cbn [lo_model lo_regularize lo_cutoff]; change (load_file l_codec l_fs "m.json" None) with (Ok lm_file); cbn [bind]; rewrite HL; reflexivity|]. split; reflexivity.
Qed.

(** The fits start and stay in the bounds: a parameter of interest with a bound of --bounds has that one, the others have the range of the model, and the initial values satisfy them if they can be. *)
Theorem C109_bounds : forall E C pf o f m it bounds s, limit_model E C o f = Ok (m, it) -> NoDup (keys (m_pois m)) -> limit_bounds pf o = Ok bounds -> NoDup (map pb_par bounds) -> limit_minimizer (m, it) bounds = Ok s ->
  exists p bs, mi_init s = Some p /\ mi_bounds s = Some bs /\ keys bs = keys (m_pois m) /\
    (forall k po, In (k, po) (m_pois m) -> ~ In k (map pb_par bounds) -> dget k bs = Some (mkPB k (poi_min po) (poi_max po))) /\
    (forall b, In b bounds -> dget (pb_par b) bs = Some b) /\
    (ranges_ok m (Some bounds) -> forall k b, In (k, b) bs -> exists v, pars_get p k = Ok v /\ PoiMinFacts.within b v).
Proof.
  intros E C pf o f m it bounds s Hm ND Hb NB H. unfold limit_minimizer in H. cbn [fst snd] in H. apply bind_Ok in H as ([p0 b0] & H0 & H). apply bind_Ok in H as (l & Hl & H). apply bind_Ok in H as ([p bs] & Hs & H). injection H as <-. exists p, bs. split; [reflexivity|]. split; [reflexivity|].
  assert (K0 : keys b0 = keys (m_pois m)).
  { destruct (set_pois_inv m it None None None false p0 b0 Logic.I H0) as (_ & _ & _ & _ & _ & Hab & _). unfold all_bounds in Hab. injection Hab as <-. unfold model_bounds, keys. rewrite map_map. reflexivity. }
  assert (HIn : forall b, In b bounds -> In (pb_par b) (keys (m_pois m))).
  { intros b Hin. rewrite <- K0. clear - Hl Hin. apply mapM_Forall2 in Hl. induction Hl as [|x y l l' E _ IH]; [destruct Hin|]. destruct Hin as [->|Hin]; [|now apply IH]. cbn [snd] in E. unfold dgetE in E. destruct (dget (pb_par b) b0) as [v|] eqn:Ev; [|discriminate]. apply dget_In in Ev. apply in_map_iff. exists (pb_par b, v). auto. }
  split; [|split; [|split]].
  - destruct (set_pois_inv m it None (Some bounds) None false p bs Logic.I Hs) as (_ & _ & _ & _ & _ & Hab & _). unfold all_bounds in Hab. injection Hab as <-. clear - HIn.
    assert (X : forall l d, keys d = keys (m_pois m) -> (forall b, In b l -> In (pb_par b) (keys (m_pois m))) -> keys (fold_left (fun d b => dset (pb_par b) (mkPB (pb_par b) (pb_min b) (pb_max b)) d) l d) = keys (m_pois m)).
    { induction l as [|b l IH]; intros d Hd Hin; [exact Hd|]. cbn [fold_left]. apply IH; [|intros x Hx; apply Hin; now right]. rewrite keys_dset; [exact Hd|]. rewrite Hd. apply Hin. now left. }
    apply X; [|exact HIn]. unfold model_bounds, keys. rewrite map_map. reflexivity.
  - intros k po Hk Hn. destruct (C31_model_range_kept m it None (Some bounds) None false p bs k po ND Logic.I Hs Hk ltac:(discriminate)) as [A _]. now apply A.
  - intros b Hin. specialize (HIn b Hin). apply in_map_iff in HIn as ([k po] & Ek & Hk). cbn [fst] in Ek. destruct (C31_model_range_kept m it None (Some bounds) None false p bs k po ND Logic.I Hs Hk ltac:(discriminate)) as [_ A]. rewrite <- Ek. apply (A bounds b eq_refl NB Hin (eq_sym Ek)).
  - intros R. exact (C31_initial_values_in_bounds m it None (Some bounds) None false p bs ND Logic.I R Hs).
Qed.
Print Assumptions C109_bounds.
Example C109_bounds_nonvacuous : exists it s, let o := mkLO "m.json" l_four 0 (9 / 10) "lim" None (Some "mu=1") 1 None None (Some "mu=2:8") "q_mu" false false None None in limit_model ex_env l_codec o l_fs = Ok (lm, it) /\ NoDup (keys (m_pois lm)) /\
  limit_bounds l_pf o = Ok [mkPB "mu" (Some 2) (Some 8)] /\ NoDup (map pb_par [mkPB "mu" (Some 2) (Some 8)]) /\ limit_minimizer (lm, it) [mkPB "mu" (Some 2) (Some 8)] = Ok s /\ ranges_ok lm (Some [mkPB "mu" (Some 2) (Some 8)]).
Proof.
  destruct l_loads as (it & HL & Hp & Hr & _). exists it. eexists. cbv zeta. split; [now apply l_model|]. split; [repeat constructor; intros []|]. split; [reflexivity|]. split; [repeat constructor; intros []|]. split.
  - unfold limit_minimizer, set_pois_min. cbn [fst snd]. rewrite Hp, Hr. unfold lm. ev. reflexivity.
  - split; [intros k po x y [[= <- <-]|[]]; cbn; intros [= <-] [= <-]; lra|intros l b x y [= <-] [<-|[]]; cbn; intros [= <-] [= <-]; lra].
Qed.
