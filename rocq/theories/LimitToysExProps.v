(** Concrete cases of the theorems of LimitToysProps.v: runs of compute_fast_limits with toys, on the model of LimitCommandExProps.v. *)
From Coq Require Import Permutation Sorted.
From Verif Require Import Py PyFacts RSort Base BaseFacts Expressions Norms Sample Channels Params ParamsFacts Core CoreExample CoreFacts NpMin PoiMin PoiMinFacts PoiMinProps PoiHistProps TestStat FitData FitDataFacts FitDataProps RasterProps
  ParamsProps UtilFacts Calculators CalcFacts CalcProps Scans ScansProps ModelIO ModelTools UtilTools LimitTools FileIO FileIOProps Commands Sampling SamplingFacts SamplingProps FileName FileNameProps ScanFacts ScanCommand ScanCommandProps ScanCommandExProps SamplesRun SamplesRunProps
  CommandChannelProps CommandReparamProps CommandMergeProps ReparamProps LimitCommand LimitFacts LimitCommandProps LimitCommandExProps LimitToysProps.
Local Open Scope string_scope.
Local Open Scope list_scope.
Local Open Scope R_scope.

(** the toys all have the p-value 1/4 *)
Fixpoint unary (n : nat) : string := match n with O => "" | S n => String "1" (unary n) end.
Lemma unary_inj i j : unary i = unary j -> i = j.
Proof. revert j. induction i as [|i IH]; intros [|j] H; try discriminate; [reflexivity|]. injection H as H. f_equal. now apply IH. Qed.
Definition t_libs_with (v : R) : LimitLibs := mkLL (ll_scan l_libs) (ll_solver l_libs) (fun _ => 1 / 2) unary (fun _ _ _ _ _ _ n => Ok (repeat v n)).
Definition t_libs : LimitLibs := t_libs_with (1 / 4).
Lemma t_complete : toys_complete t_libs.
Proof. intros mi h g b ni t k l H. injection H as <-. apply repeat_length. Qed.
Definition t_opts : LimitOpts := mkLO "m.json" l_four 2 (9 / 10) "lim" None (Some "mu=1") 1 None None None "q_mu" false false (Some 1%nat) None.
Lemma t_opts_ok : lo_ntoys t_opts = 2%nat /\ lo_bands t_opts = Some 1%nat /\ lo_trunc t_opts = None /\ lo_break t_opts = false /\ lo_overwrite t_opts = false.
Proof. repeat split. Qed.
Lemma t_hypos : distinct_hypos ["mu"] l_hypos.
Proof.
  constructor; [split; [repeat constructor; intros []|discriminate]|intros h Hh; cbn in Hh; decompose [or] Hh; subst; try contradiction; reflexivity|].
  assert (B : forall x, 4 <= x <= 7 -> Rabs (x - g6 x) < 1 / 10) by (intros x Hx; eapply Rle_lt_trans; [apply g6_err|]; rewrite Rabs_pos_eq by lra; lra).
  assert (D : forall x y, 4 <= x <= 7 -> 4 <= y <= 7 -> x + 1 <= y -> g6 x <> g6 y).
  { intros x y Hx Hy Hxy E. pose proof (B x Hx) as P. pose proof (B y Hy) as Q. rewrite E in P. apply Rabs_def2 in P. apply Rabs_def2 in Q. lra. }
  unfold l_hypos. cbn [map values snd]. repeat (constructor; [intros X; cbn [In] in X; decompose [or] X; try contradiction; match goal with H : [g6 ?b] = [g6 ?a] |- _ => injection H as H; symmetry in H; revert H; apply D; lra end|]). constructor.
Qed.

Definition xs4 : list R := [4; 5; 6; 7].
Definition q4 : list R := [1 / 4; 1 / 4].
Lemma q4_sorted : rsort q4 = q4.
Proof. unfold q4. cbn. rdec. reflexivity. Qed.
Definition t_sampler (h : Hypo) (x t : R) (it : Internal) : Sampler := mkSampler h (ll_toys t_libs (lm, it) h (mkPars [x] [] (Some (mkPM ["mu"] []))) [] 1 t).
Definition t_stat (x : R) : R := 2 * ((x - 3) * (x - 3) + - ((3 - 3) * (3 - 3))).
Lemma t_samplers it v : mapM (point_samplers (t_libs_with v) (lm, it) [] 1) (map snd (ra_points (l_rast xs4))) =
  Ok (map (fun x => (mkSampler [("mu", x)] (fun n => Ok (repeat v n)), mkSampler [("mu", x)] (fun n => Ok (repeat v n)))) xs4).
Proof. unfold l_rast, l_pt, l_fr, xs4. cbn -[Rplus Rmult Rminus Rdiv]. reflexivity. Qed.
(** all the samples are there after a run on an empty disk *)
Lemma t_generated l : l = map (fun x => mkSampler [("mu", x)] (fun n => Ok (repeat (1 / 4) n))) xs4 -> exists c dk' c', limit_samples l l "lim" = Ok c /\ co_generate_and_save h0 c 2 false true (mkDisk [] []) = ((dk', c'), None) /\
  so_hypos (co_clsb c') = l_hypos /\ forall x, In x xs4 -> hget h0 [("mu", x)] (so_dists (co_clsb c')) = Some q4 /\ hget h0 [("mu", x)] (so_dists (co_cl_b c')) = Some q4.
Proof.
  intros El. assert (Nl : l <> []) by (subst l; discriminate). assert (Hl : map sp_hypo l = l_hypos) by (subst l; reflexivity). assert (DH : distinct_hypos ["mu"] (map sp_hypo l)) by (rewrite Hl; exact t_hypos).
  set (o1 := mkSO (map sp_hypo l) l "lim" []). set (o2 := mkSO (map sp_hypo l) l ("lim" ++ "_clb")%string []).
  assert (K0 : on_params ["mu"] (@nil (Hypo * list R))) by (intros ? ? []).
  assert (GE : forall s, In s l -> sp_generate s 2 = Ok q4) by (subst l; intros s Hs; apply in_map_iff in Hs as (x & <- & _); reflexivity).
  assert (V : forall s, In s l -> values (sp_hypo s) <> []) by (subst l; intros s Hs; apply in_map_iff in Hs as (x & <- & _); discriminate).
  destruct (generate_spec h0 ["mu"] l "lim" o1 2 false true (mkDisk [] []) [] Nl eq_refl ltac:(lia) DH K0) as (d1 & o1' & R1 & A1 & _ & _ & K1 & P1 & F1 & L1 & _).
  { intros s Hs. unfold file_ok. cbn. split; [right; intros []|eauto]. }
  destruct (generate_spec h0 ["mu"] l ("lim" ++ "_clb")%string o2 2 false true d1 [] Nl eq_refl ltac:(lia) DH K0) as (d2 & o2' & R2 & A2 & _ & _ & K2 & P2 & F2 & L2 & _).
  { intros s Hs. unfold file_ok. cbn [fst snd]. rewrite F1; [|intros X; apply in_map_iff in X as (s' & E & Hs'); revert E; apply C108_clb_files_distinct; auto]. split; [right; intros X; apply L1 in X as [[] _]|eauto]. }
  exists (mkCO o1 o2), d2, (mkCO o1' o2'). split; [unfold limit_samples; destruct l; [congruence|]; reflexivity|]. split; [unfold co_generate_and_save; cbn [co_clsb co_cl_b]; rewrite R1, R2; reflexivity|]. cbn [co_clsb co_cl_b]. split; [rewrite A1; exact Hl|].
  intros x Hx. assert (Hs : In (mkSampler [("mu", x)] (fun n => Ok (repeat (1 / 4) n))) l) by (subst l; apply in_map_iff; eauto). specialize (P1 _ Hs). specialize (P2 _ Hs). specialize (GE _ Hs). unfold produced in P1, P2. cbn [fst snd sp_hypo] in P1, P2.
  rewrite F1 in P2 by (intros X; apply in_map_iff in X as (s' & E & Hs'); revert E; apply C108_clb_files_distinct; first [discriminate | now apply V]). cbn [dk_npy dget] in P1, P2.
  destruct P1 as (a & Ea & Ha & _). destruct P2 as (b & Eb & Hb & _). rewrite GE in Ea, Eb. injection Ea as <-. injection Eb as <-. rewrite q4_sorted in Ha, Hb. auto.
Qed.
(** their p-values *)
Definition err1 : R := sqrt ((2 + 1) * (2 - 2 + 1) / 2) / 2.
Definition err2 : R := 1 / 1 * sqrt ((err1 / 1) ^ 2 + (err1 / 1) ^ 2).
Lemma err1_bounds : 0 < err1 < 7 / 10.
Proof.
  unfold err1. assert (A : 0 < sqrt ((2 + 1) * (2 - 2 + 1) / 2)) by (apply sqrt_lt_R0; lra). assert (B : sqrt ((2 + 1) * (2 - 2 + 1) / 2) < sqrt ((14 / 10) * (14 / 10))) by (apply sqrt_lt_1; lra). rewrite sqrt_square in B by lra. lra.
Qed.
Lemma err2_bounds : 0 < err2 < 1.
Proof.
  unfold err2. pose proof err1_bounds as [A B]. assert (E : 0 < err1 * err1 < 49 / 100) by nra. assert (F : (err1 / 1) ^ 2 = err1 * err1) by field. rewrite F.
  assert (G : 0 < sqrt (err1 * err1 + err1 * err1)) by (apply sqrt_lt_R0; lra). assert (H : sqrt (err1 * err1 + err1 * err1) < sqrt 1) by (apply sqrt_lt_1; lra). rewrite sqrt_1 in H. lra.
Qed.
Lemma q4_pv : sd_pv_err q4 (1 / 2) = Ok (1, err1).
Proof.
  unfold sd_pv_err. change q4 with [1 / 4; 1 / 4] at 1. cbv iota zeta. assert (E : sd_nbelow q4 (1 / 2) = 2) by (unfold sd_nbelow, search_left, search_right, q4; cbn -[Rplus Rdiv]; rdec; cbn -[Rplus Rdiv]; rdec; cbn; lra).
  rewrite E. unfold err1. replace (INR (length q4)) with 2 by (cbn; lra). replace (2 / 2) with 1 by field. reflexivity.
Qed.
Lemma q4_mid : sd_pv q4 (1 / 4) = Ok (1 / 2).
Proof.
  unfold sd_pv. change q4 with [1 / 4; 1 / 4] at 1. cbv iota zeta. assert (E : sd_nbelow q4 (1 / 4) = 1) by (unfold sd_nbelow, search_left, search_right, q4; cbn -[Rplus Rdiv]; rdec; cbn -[Rplus Rdiv]; rdec; cbn; lra).
  rewrite E. replace (INR (length q4)) with 2 by (cbn; lra). reflexivity.
Qed.

(** the raster with the p-values of the samples, and the limits *)
Definition t_point (x : R) : PLR := l_pt (2 * ((x - 3) * (x - 3) - (3 - 3) * (3 - 3))) x.
Definition t_with (e1 e2 : R) (x : R) : Hypo * PLR :=
  ([("mu", x)], with_pvs (t_point x) (dset "sampling_cls" (VPair 1 e2) (dset "sampling_clb" (VPair 1 e1) (dset "sampling_pv" (VPair 1 e1) (plr_pvs (t_point x)))))).
Lemma t_points c : (forall x, In x xs4 -> hget h0 [("mu", x)] (so_dists (co_clsb c)) = Some q4 /\ hget h0 [("mu", x)] (so_dists (co_cl_b c)) = Some q4) ->
  on_points (sampling_point h0 c) (l_rast xs4) = Ok (mkRaster (map (t_with err1 err2) xs4) ["mu"] (Some (mkPM ["mu"] []))).
Proof.
  intros H. assert (P : forall x, In x xs4 -> sampling_point h0 c (t_point x) = Ok (snd (t_with err1 err2 x))).
  { intros x Hx. destruct (H x Hx) as [Ha Hb]. unfold sampling_point. change (bind (dgetE "pv" (plr_pvs (t_point x))) num_of) with (Ok (1 / 2)). cbn [bind]. change (plr_hypo (t_point x)) with ([("mu", x)] : Hypo). unfold co_pv_err, so_pv_err. rewrite Ha, Hb, q4_pv. cbn [bind fst snd].
    rewrite (proj2 (Rleb_false 1 0)) by lra. cbn [fst snd]. unfold t_with, err2. cbn [snd]. replace (1 / 1) with 1 by field. reflexivity. }
  unfold on_points, l_rast, xs4. cbn [ra_points map mapM fst snd ra_pois ra_model]. fold (t_point 4) (t_point 5) (t_point 6) (t_point 7). rewrite !P by (unfold xs4; cbn; auto). reflexivity.
Qed.
Lemma t_bands c : so_hypos (co_clsb c) = l_hypos -> (forall x, In x xs4 -> hget h0 [("mu", x)] (so_dists (co_clsb c)) = Some q4 /\ hget h0 [("mu", x)] (so_dists (co_cl_b c)) = Some q4) ->
  co_bands h0 (fun _ => 1 / 2) c 1 = Ok (map (fun i => (i, [1; 1; 1; 1])) [(-1)%Z; 0%Z; 1%Z]).
Proof.
  intros Hh H. assert (P : forall x, In x xs4 -> mapM (co_pv h0 c [("mu", x)]) q4 = Ok [1; 1]).
  { intros x Hx. destruct (H x Hx) as [Ha Hb]. assert (Q : co_pv h0 c [("mu", x)] (1 / 4) = Ok 1) by (unfold co_pv, so_pv; rewrite Ha, Hb, q4_mid; cbn [bind]; rewrite (proj2 (Rltb_true 0 (1 / 2))) by lra; f_equal; field). unfold q4. cbn [mapM]. rewrite Q. reflexivity. }
  unfold co_bands. rewrite Hh. unfold l_hypos. cbn [so_init bind foldM]. destruct (H 4) as [_ H4]; [unfold xs4; cbn; auto|]. destruct (H 5) as [_ H5]; [unfold xs4; cbn; auto|]. destruct (H 6) as [_ H6]; [unfold xs4; cbn; auto|]. destruct (H 7) as [_ H7]; [unfold xs4; cbn; auto|].
  rewrite H4, H5, H6, H7, !P by (unfold xs4; cbn; auto). cbn [bind]. clear.
  assert (S : sd_sort [1; 1] = [1; 1]) by (unfold sd_sort; cbn; rdec; reflexivity). rewrite S.
  assert (D : hset h0 [("mu", 7)] [1; 1] (hset h0 [("mu", 6)] [1; 1] (hset h0 [("mu", 5)] [1; 1] (hset h0 [("mu", 4)] [1; 1] []))) = map (fun x => ([("mu", x)], [1; 1])) xs4) by (evA; reflexivity).
  rewrite D. assert (G : forall x n, In x xs4 -> so_quantile h0 (fun _ => 1 / 2) (with_dists (mkSO [[("mu", 4)]; [("mu", 5)]; [("mu", 6)]; [("mu", 7)]] [] "" []) (map (fun x => ([("mu", x)], [1; 1])) xs4)) [("mu", x)] n = Ok 1).
  { intros x n Hx. unfold so_quantile. cbn [so_dists with_dists]. assert (E : hget h0 [("mu", x)] (map (fun x => ([("mu", x)], [1; 1])) xs4) = Some [1; 1]) by (unfold xs4 in *; cbn in Hx; decompose [or] Hx; subst; try contradiction; evA; reflexivity). rewrite E.
    unfold sd_quantile. cbn [bind]. rewrite (proj2 (Rltb_false (1 / 2) 0)), (proj2 (Rltb_false 1 (1 / 2))) by lra. cbn [orb length INR]. destruct (int_of _) as [|[|k]] eqn:Ek; [reflexivity|reflexivity|]. exfalso. unfold int_of in Ek. pose proof (base_Int_part ((1 + 1) * (1 / 2))) as [B1 B2].
    assert (T : IZR (Int_part ((1 + 1) * (1 / 2))) < 2) by lra. apply lt_IZR in T. lia. }
  unfold so_bands. change (band_orders 1) with [(-1)%Z; 0%Z; 1%Z]. cbn [mapM map so_hypos with_dists]. rewrite !G by (unfold xs4; cbn; auto). reflexivity.
Qed.
Lemma t_limits e1 e2 r : 0 < e1 < 1 -> 0 < e2 < 1 -> r = fold_left (fill_band unary) (map (fun i => (i, [1; 1; 1; 1])) [(-1)%Z; 0%Z; 1%Z]) (mkRaster (map (t_with e1 e2) xs4) ["mu"] (Some (mkPM ["mu"] []))) ->
  exists usb us lsb ls, ul_new r "sampling_pv" None (9 / 10) = Ok usb /\ ul_new r "sampling_cls" None (9 / 10) = Ok us /\ ul_limit_err (sl_spline (ll_scan l_libs)) usb 3 true = Ok lsb /\ ul_limit_err (sl_spline (ll_scan l_libs)) us 3 true = Ok ls /\
    forall i, In i [(-1)%Z; 0%Z; 1%Z] -> exists u l, ul_new r (band_pv unary i) None (95 / 100) = Ok u /\ ul_limit (sl_spline (ll_scan l_libs)) u 3 true = Ok l.
Proof.
  intros H1 H2 ->. do 4 eexists. split; [evA; reflexivity|]. split; [evA; reflexivity|]. split; [evA; reflexivity|]. split; [evA; reflexivity|]. intros i Hi. cbn in Hi. decompose [or] Hi; subst; try contradiction; (do 2 eexists; split; [evA; reflexivity|evA; reflexivity]).
Qed.
Lemma t_sampling c : so_hypos (co_clsb c) = l_hypos -> (forall x, In x xs4 -> hget h0 [("mu", x)] (so_dists (co_clsb c)) = Some q4 /\ hget h0 [("mu", x)] (so_dists (co_cl_b c)) = Some q4) -> exists v, sampling_limits t_libs t_opts c (l_rast xs4) = Ok v.
Proof.
  intros Hh H. unfold sampling_limits. change (sl_hash (ll_scan t_libs)) with h0. rewrite (t_points c H). cbn [bind]. change (bands_of t_opts) with (Some 1%nat). cbv iota. change (ll_cdf t_libs) with (fun _ : R => 1 / 2). rewrite (t_bands c Hh H). cbn [bind]. change (ll_dec t_libs) with unary. change (lo_cl t_opts) with (9 / 10).
  match goal with |- context [ul_new ?r "sampling_pv" _ _] => destruct (t_limits err1 err2 r) as (usb & us & lsb & ls & E1 & E2 & E3 & E4 & E5); [pose proof err1_bounds; lra|exact err2_bounds|reflexivity|] end.
  rewrite E1. cbn [bind]. rewrite E2. cbn [bind]. change (ll_scan t_libs) with (ll_scan l_libs). rewrite E3. cbn [bind]. rewrite E4. cbn [bind]. change (band_orders 1) with [(-1)%Z; 0%Z; 1%Z]. cbn [mapM].
  destruct (E5 (-1)%Z) as (u1 & l1 & A1 & B1); [cbn; auto|]. destruct (E5 0%Z) as (u2 & l2 & A2 & B2); [cbn; auto|]. destruct (E5 1%Z) as (u3 & l3 & A3 & B3); [cbn; auto|].
  rewrite A1. cbn [bind]. rewrite B1. cbn [bind]. rewrite A2. cbn [bind]. rewrite B2. cbn [bind]. rewrite A3. cbn [bind]. rewrite B3. cbn [bind]. eexists. reflexivity.
Qed.
Definition t_fs : fs := fun q => if String.eqb q "m.json" then Some "1" else None.
Definition t_codec (d : dict jv) : Codec := table_codec (combine ["1"; "2"; "3"] [lm_file; [("fast", JList (l_dumped xs4))]; d]).
Lemma t_faithful d : faithful (t_codec d).
Proof. apply table_codec_faithful. cbn [keys map fst combine]. repeat constructor; cbn; intuition congruence. Qed.
Lemma t_save d path flavor x : In x [lm_file; [("fast", JList (l_dumped xs4))]; d] -> flavor_of path flavor = "json" -> exists ops, save_ops (t_codec d) any_path path flavor x = (ops, None).
Proof.
  intros H Hf. assert (T : exists t, c_dump (t_codec d) "json" x = ([t], None)).
  { unfold t_codec, table_codec. cbn [c_dump find snd combine]. repeat (match goal with |- context [jv_eq_dec ?a ?b] => destruct (jv_eq_dec a b) as [?E|?N]; [eexists; reflexivity|] end). exfalso. cbn [In] in H. decompose [or] H; subst; try contradiction; congruence. }
  destruct T as [t Ht]. unfold save_ops. rewrite Hf. cbn [negb any_path String.eqb Ascii.eqb Bool.eqb orb]. rewrite Ht. eexists. reflexivity.
Qed.
Lemma t_results asy toys : exists d, limit_results unary t_opts lm asy toys = Ok d.
Proof. unfold limit_results, lm. cbn [m_pois]. eexists. reflexivity. Qed.
(** everything before the samples *)
Lemma t_begin d o v dk : lo_model o = "m.json" -> lo_regularize o = None -> lo_cutoff o = None -> lo_data o = None -> lo_asimov o = Some "mu=1" -> lo_hypos o = l_four -> lo_bounds o = None -> lo_stat o = "q_mu" -> lo_out o = "lim" ->
  exists it ops, limit_model ex_env (t_codec d) o t_fs = Ok (lm, it) /\ NoDup (pm_pois (i_pm it) ++ np_names (i_pm it)) /\ limit_run (t_libs_with v) ex_env (t_codec d) any_path l_pf no_int s_match o t_fs dk = limit_finish (t_libs_with v) (t_codec d) any_path o (lm, it) [] (l_rast xs4) ops dk.
Proof.
  intros O1 O2 O3 O4 O5 O6 O7 O8 O9. destruct l_inputs as (it & HL & Hp & HN & Hs & (d1 & H1 & _ & HR) & _).
  assert (HM : limit_model ex_env (t_codec d) o t_fs = Ok (lm, it)) by (unfold limit_model, model_load_file; rewrite O1, O2, O3; change (load_file (t_codec d) t_fs "m.json" None) with (Ok lm_file); cbn [bind]; rewrite HL; reflexivity).
  destruct (t_save d (limit_raster_file o) None [("fast", JList (l_dumped xs4))]) as [ops S1]; [cbn; auto|unfold limit_raster_file; rewrite O9; reflexivity|]. exists it, ops. split; [exact HM|]. split; [exact HN|].
  assert (Hh : parse_hypos (e_fuel ex_env) l_pf no_int s_match lm (lo_hypos o) = Ok l_hypos) by (rewrite O6; exact l_parse). assert (Hb : limit_bounds l_pf o = Ok []) by (unfold limit_bounds; rewrite O7; reflexivity). assert (Hk : limit_stat lm (lo_stat o) = Ok CalcQMu) by (rewrite O8; reflexivity). assert (Hf : t_fs (limit_raster_file o) = None) by (unfold limit_raster_file; rewrite O9; reflexivity).
  rewrite (limit_run_fresh (t_libs_with v) ex_env (t_codec d) any_path l_pf no_int s_match o t_fs dk lm it d1 _ [] CalcQMu l_s HM Hh (H1 _ _ _ O4 O5) Hb Hk Hs Hf).
  change (limit_compute (t_libs_with v) CalcQMu l_s (lm, it) d1 l_hypos) with (limit_compute l_libs CalcQMu l_s (lm, it) d1 (hyps [4; 5; 6; 7])). rewrite (HR [4; 5; 6; 7]) by (cbn; auto). cbn [bind]. change [4; 5; 6; 7] with xs4. rewrite (l_dump xs4) by (cbn; auto). cbn [bind with_results]. rewrite S1. reflexivity.
Qed.
Lemma t_run : exists d it ops dk', limit_model ex_env (t_codec d) t_opts t_fs = Ok (lm, it) /\ NoDup (pm_pois (i_pm it) ++ np_names (i_pm it)) /\ limit_run t_libs ex_env (t_codec d) any_path l_pf no_int s_match t_opts t_fs (mkDisk [] []) = (ops, dk', None).
Proof.
  destruct (t_generated _ eq_refl) as (c & dk' & c' & Hc & Hg & Hh & Hd). destruct (t_sampling c' Hh Hd) as ([[r2 l] lb] & Hl). destruct (t_results (Some 6, Some 6) (Some (l, lb))) as [d Hr].
  destruct (t_begin d t_opts (1 / 4) (mkDisk [] [])) as (it & ops & HM & HN & HR); try reflexivity. destruct (t_save d (limit_results_file t_opts) (Some "json") d) as [ops' S2]; [cbn; auto|reflexivity|].
  exists d, it, (ops ++ ops'), dk'. split; [exact HM|]. split; [exact HN|]. unfold t_libs at 1. rewrite HR. unfold limit_finish. change (sl_spline (ll_scan (t_libs_with (1 / 4)))) with (sl_spline (ll_scan l_libs)). change (l_rast xs4) with (l_rast [4; 5; 6; 7]) at 1. rewrite l_limits. change (lo_ntoys t_opts =? 0)%nat with false. cbv iota.
  change (lo_niter t_opts) with 1%nat. rewrite t_samplers. cbn [bind]. rewrite !map_map. cbn [fst snd]. change (lo_out t_opts) with "lim". rewrite Hc. change (sl_hash (ll_scan (t_libs_with (1 / 4)))) with h0. change (lo_ntoys t_opts) with 2%nat. change (lo_break t_opts) with false. rewrite Hg.
  change (truncated h0 t_opts c') with (Ok c'). cbn [bind]. change (t_libs_with (1 / 4)) with t_libs. rewrite Hl. change (ll_dec t_libs) with unary. cbn [fst]. rewrite Hr. rewrite S2. reflexivity.
Qed.

(** two toys for each of four hypotheses, and the bands of one standard deviation *)
Example C110_results_nonvacuous : exists d it ops dk' p, let o := t_opts in faithful (t_codec d) /\ limit_model ex_env (t_codec d) o t_fs = Ok (lm, it) /\ m_pois lm = [("mu", p)] /\ parse_hypos (e_fuel ex_env) l_pf no_int s_match lm (lo_hypos o) = Ok l_hypos /\ distinct (sl_hash (ll_scan t_libs)) l_hypos /\
  distinct_hypos ["mu"] l_hypos /\ fits_evaluate t_libs lm it /\ toys_complete t_libs /\ (forall i j, ll_dec t_libs i = ll_dec t_libs j -> i = j) /\ t_fs (limit_raster_file o) = None /\ (0 < lo_ntoys o)%nat /\ stored_sorted (mkDisk [] []) /\ orders o = [(-1)%Z; 0%Z; 1%Z] /\
  limit_run t_libs ex_env (t_codec d) any_path l_pf no_int s_match o t_fs (mkDisk [] []) = (ops, dk', None).
Proof.
  destruct t_run as (d & it & ops & dk' & HM & HN & HR). exists d, it, ops, dk'. eexists. cbv zeta. split; [apply t_faithful|]. split; [exact HM|]. split; [reflexivity|]. split; [exact l_parse|]. split; [exact l_distinct|]. split; [exact t_hypos|]. split; [intros ?; exact s_eval|]. split; [exact t_complete|]. split; [exact unary_inj|].
  split; [reflexivity|]. split; [cbn; lia|]. split; [intros ? ? [=]|]. split; [reflexivity|exact HR].
Qed.
(** and again, with other toys *)
Example C110_rerun_same_nonvacuous : exists d it ops dk' p, let o := t_opts in faithful (t_codec d) /\ limit_model ex_env (t_codec d) o t_fs = Ok (lm, it) /\ m_pois lm = [("mu", p)] /\ parse_hypos (e_fuel ex_env) l_pf no_int s_match lm (lo_hypos o) = Ok l_hypos /\ distinct (sl_hash (ll_scan t_libs)) l_hypos /\
  distinct_hypos ["mu"] l_hypos /\ fits_evaluate t_libs lm it /\ NoDup (pm_pois (i_pm it) ++ np_names (i_pm it)) /\ toys_complete t_libs /\ lo_model o <> limit_raster_file o /\ lo_model o <> limit_results_file o /\ limit_path o <> limit_raster_file o /\ limit_path o <> limit_results_file o /\
  t_fs (limit_raster_file o) = None /\ lo_overwrite o = false /\ (0 < lo_ntoys o)%nat /\ limit_run t_libs ex_env (t_codec d) any_path l_pf no_int s_match o t_fs (mkDisk [] []) = (ops, dk', None) /\
  let L' := t_libs_with (1 / 3) in ll_scan L' = ll_scan t_libs /\ ll_cdf L' = ll_cdf t_libs /\ ll_dec L' = ll_dec t_libs /\ ll_toys L' <> ll_toys t_libs.
Proof.
  destruct t_run as (d & it & ops & dk' & HM & HN & HR). exists d, it, ops, dk'. eexists. cbv zeta. split; [apply t_faithful|]. split; [exact HM|]. split; [reflexivity|]. split; [exact l_parse|]. split; [exact l_distinct|]. split; [exact t_hypos|]. split; [intros ?; exact s_eval|]. split; [exact HN|]. split; [exact t_complete|].
  repeat (split; [reflexivity || discriminate|]). split; [cbn; lia|]. split; [exact HR|]. do 3 (split; [reflexivity|]). intros X. apply (f_equal (fun g => g (lm, it) [] (mkPars [] [] None) [] 1%nat 0 1%nat)) in X. cbn in X. injection X as X. lra.
Qed.
(** a lock of a run that was interrupted *)
Example C110_locked_refuted_nonvacuous : exists d it ops dk' e p, let o := t_opts in let h := [("mu", 5)] in let dk := mkDisk [] [so_file "lim" h ".lock"] in limit_model ex_env (t_codec d) o t_fs = Ok (lm, it) /\ m_pois lm = [("mu", p)] /\ parse_hypos (e_fuel ex_env) l_pf no_int s_match lm (lo_hypos o) = Ok l_hypos /\
  distinct (sl_hash (ll_scan t_libs)) l_hypos /\ distinct_hypos ["mu"] l_hypos /\ fits_evaluate t_libs lm it /\ t_fs (limit_raster_file o) = None /\ (0 < lo_ntoys o)%nat /\ lo_break o = false /\ In h l_hypos /\ lo_out o = "lim" /\ dget (so_file "lim" h ".npy") (dk_npy dk) = None /\ In (so_file "lim" h ".lock") (dk_lock dk) /\
  limit_run t_libs ex_env (t_codec d) any_path l_pf no_int s_match o t_fs dk = (ops, dk', e).
Proof.
  destruct t_run as (d & it & _ & _ & HM & _). set (dk := mkDisk [] [so_file "lim" [("mu", 5)] ".lock"]). destruct (limit_run t_libs ex_env (t_codec d) any_path l_pf no_int s_match t_opts t_fs dk) as [[ops dk'] e] eqn:HR. exists d, it, ops, dk', e. eexists. cbv zeta. split; [exact HM|]. split; [reflexivity|]. split; [exact l_parse|].
  split; [exact l_distinct|]. split; [exact t_hypos|]. split; [intros ?; exact s_eval|]. split; [reflexivity|]. split; [cbn; lia|]. split; [reflexivity|]. split; [right; left; reflexivity|]. split; [reflexivity|]. split; [reflexivity|]. split; [left; reflexivity|exact HR].
Qed.
