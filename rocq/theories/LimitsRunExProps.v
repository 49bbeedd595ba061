(** Concrete cases of the theorems of LimitsRunProps.v and LimitsResultProps.v: runs of compute_limits on the model of LimitCommandExProps.v, with the raster of that file as fits file. *)
From Coq Require Import Permutation Sorted.
From Verif Require Import Py PyFacts RSort Base BaseFacts Expressions Norms Sample Channels Params ParamsFacts Core CoreExample CoreFacts NpMin PoiMin PoiMinFacts PoiMinProps PoiHistProps TestStat FitData FitDataFacts FitDataProps RasterProps
  ParamsProps UtilFacts Calculators CalcFacts CalcProps Scans ScansProps ModelIO ModelTools UtilTools LimitTools FileIO FileIOProps Commands Sampling SamplingFacts SamplingProps FileName FileNameProps ScanFacts ScanCommand ScanCommandProps ScanCommandExProps SamplesRun SamplesRunProps
  CommandChannelProps CommandReparamProps CommandMergeProps ReparamProps LimitCommand LimitFacts LimitCommandProps LimitCommandExProps LimitToysProps LimitToysExProps LimitsRun LimitsRunProps LimitsResultProps.
Local Open Scope string_scope.
Local Open Scope list_scope.
Local Open Scope R_scope.

Definition f_pm : PModel := mkPM ["mu"] [].
Definition f_fr (x : R) : FitResult := mkFR [("mu", mkFP (mkPOI (Some "mu") (Some 0) (Some 0) (Some 0) None None) (Some x) None)] (Some ((x - 3) * (x - 3))) (Some f_pm).
Definition f_t (x : R) : R := 2 * ((x - 3) * (x - 3) - (3 - 3) * (3 - 3)).
Definition f_pvs : dict pyval := [("pv", VNum (1 / 2)); ("cls", VNum (1 / 2 / (1 / 2))); ("clb", VNum (1 / 2))].
Definition f_loaded (x : R) : PLR := mkPLR [("mu", x)] (f_fr 3) (f_fr x) [("tmu", VNum (f_t x)); ("tmu_A0", VNum (l_tmu x)); ("q_mu", VNum (f_t x))] f_pvs (Some (l_full x)) (Some f_pm) None.
Definition f_point (x : R) : PLR := mkPLR [("mu", x)] (f_fr 3) (f_fr x) [("tmu", VNum (f_t x)); ("tmu_A0", VNum (f_t x)); ("q_mu", VNum (f_t x))] f_pvs (Some (l_full x)) (Some f_pm) (Some (f_loaded x)).
Definition f_names (xs : list R) : list string := match xs with [_] => [] | _ => ["mu"] end.
Definition f_rast (pt : R -> PLR) (xs : list R) : Raster := mkRaster (map (fun x => ([("mu", x)], pt x)) xs) (f_names xs) (Some f_pm).
Lemma f_load xs : In xs [xs4; [4]] -> raster_load h0 [] true true (Some f_pm) (l_dumped xs) = Ok (f_rast f_loaded xs).
Proof. intros [<-|[<-|[]]]; unfold l_dumped, l_rast, l_pt, xs4, f_rast, f_loaded, f_fr, f_t, f_pm; evA; reflexivity. Qed.
Lemma f_fits xs r : In xs [xs4; [4]] -> r = f_rast f_loaded xs -> (let! r1 := raster_set_asimov r r "tmu_A0" in raster_new (ra_points r1) true true (Some f_pm)) = Ok (f_rast f_point xs).
Proof. intros Hx ->. destruct Hx as [<-|[<-|[]]]; unfold xs4, f_rast, f_loaded, f_point, f_fr, f_t, f_pm; evA; reflexivity. Qed.
Lemma f_fill xs : In xs [xs4; [4]] -> fill_all_pv (sl_dist (ll_scan t_libs)) CalcQMu (f_rast f_point xs) = Ok (f_rast f_point xs).
Proof. intros [<-|[<-|[]]]; unfold xs4, f_rast, f_loaded, f_point, f_fr, f_t, f_pm; evA; reflexivity. Qed.
Lemma f_gens xs : In xs [xs4; [4]] -> gen_pars (f_rast f_point xs) = Ok (map l_full xs).
Proof. intros [<-|[<-|[]]]; unfold xs4, f_rast, f_loaded, f_point, f_fr, f_t, f_pm, l_full; evA; reflexivity. Qed.
Lemma f_samplers ds : exists sl, mapM (full_samplers ds lm) (combine (combine (map snd (ra_points (f_rast f_point xs4))) (map l_full xs4)) (map snd (ra_points (l_rast xs4)))) = Ok sl /\ map sp_hypo (map fst sl) = l_hypos /\ map sp_hypo (map snd sl) = l_hypos.
Proof. eexists. split; [unfold xs4, f_rast, f_point, f_fr, f_pm, l_rast, l_pt, l_full, full_samplers, lm; cbn -[Rplus Rmult Rminus Rdiv full_sampler]; reflexivity|]. split; reflexivity. Qed.

(** a disk with two toys for each of the hypotheses *)
Definition f_disk : disk := mkDisk (map (fun x => (so_file "lim" [("mu", x)] ".npy", q4)) xs4 ++ map (fun x => (so_file ("lim" ++ "_clb") [("mu", x)] ".npy", q4)) xs4) [].
Lemma f_disk_values q a : In (q, a) (dk_npy f_disk) -> a = q4.
Proof. unfold f_disk. cbn [dk_npy]. intros H. apply in_app_or in H as [H|H]; apply in_map_iff in H as (x & E & _); now injection E as <- <-. Qed.
Lemma f_disk_get q : In q (keys (dk_npy f_disk)) -> dget q (dk_npy f_disk) = Some q4.
Proof. intros H. destruct (dget q (dk_npy f_disk)) as [a|] eqn:E; [f_equal; apply dget_In in E; now apply f_disk_values in E|]. apply dget_None in E. contradiction. Qed.
Lemma f_disk_file x : In x xs4 -> dget (so_file "lim" [("mu", x)] ".npy") (dk_npy f_disk) = Some q4 /\ dget (so_file ("lim" ++ "_clb") [("mu", x)] ".npy") (dk_npy f_disk) = Some q4.
Proof. intros H. split; apply f_disk_get; unfold f_disk, keys; cbn [dk_npy]; rewrite map_app, !map_map; apply in_or_app; [left|right]; cbn [fst]; apply in_map_iff; exists x; split; [reflexivity|exact H|reflexivity|exact H]. Qed.
Lemma f_disk_sorted : stored_sorted f_disk.
Proof. intros q a H. apply dget_In in H. apply f_disk_values in H as ->. unfold q4. repeat constructor; lra. Qed.
Lemma l_hypos_x h : In h l_hypos -> exists x, In x xs4 /\ h = [("mu", x)].
Proof. intros H. unfold l_hypos, xs4 in *. cbn in *. decompose [or] H; subst; try contradiction; eexists; (split; [|reflexivity]); tauto. Qed.
Lemma f_generated la lb : map sp_hypo la = l_hypos -> map sp_hypo lb = l_hypos -> exists c c', limit_samples la lb "lim" = Ok c /\ co_generate_and_save h0 c 2 false true f_disk = ((f_disk, c'), None) /\
  so_hypos (co_clsb c') = l_hypos /\ forall x, In x xs4 -> hget h0 [("mu", x)] (so_dists (co_clsb c')) = Some q4 /\ hget h0 [("mu", x)] (so_dists (co_cl_b c')) = Some q4.
Proof.
  intros Ha Hb. assert (Na : la <> []) by (intros ->; discriminate). assert (Nb : lb <> []) by (intros ->; discriminate). assert (DA : distinct_hypos ["mu"] (map sp_hypo la)) by (rewrite Ha; exact t_hypos). assert (DB : distinct_hypos ["mu"] (map sp_hypo lb)) by (rewrite Hb; exact t_hypos).
  set (o1 := mkSO (map sp_hypo la) la "lim" []). set (o2 := mkSO (map sp_hypo lb) lb ("lim" ++ "_clb")%string []). assert (K0 : on_params ["mu"] (@nil (Hypo * list R))) by (intros ? ? []).
  assert (XA : forall s, In s la -> exists x, In x xs4 /\ sp_hypo s = [("mu", x)]) by (intros s Hs; apply l_hypos_x; rewrite <- Ha; now apply in_map). assert (XB : forall s, In s lb -> exists x, In x xs4 /\ sp_hypo s = [("mu", x)]) by (intros s Hs; apply l_hypos_x; rewrite <- Hb; now apply in_map).
  destruct (generate_spec h0 ["mu"] la "lim" o1 2 false true f_disk [] Na eq_refl ltac:(lia) DA K0) as (d1 & o1' & R1 & A1 & _ & _ & K1 & P1 & _ & _ & U1).
  { intros s Hs. unfold file_ok. cbn [fst]. destruct (XA s Hs) as (x & Hx & ->). rewrite (proj1 (f_disk_file x Hx)). cbn. lia. }
  rewrite U1 in R1 by (intros s Hs; destruct (XA s Hs) as (x & Hx & ->); rewrite (proj1 (f_disk_file x Hx)); discriminate).
  destruct (generate_spec h0 ["mu"] lb ("lim" ++ "_clb")%string o2 2 false true f_disk [] Nb eq_refl ltac:(lia) DB K0) as (d2 & o2' & R2 & A2 & _ & _ & K2 & P2 & _ & _ & U2).
  { intros s Hs. unfold file_ok. cbn [fst]. destruct (XB s Hs) as (x & Hx & ->). rewrite (proj2 (f_disk_file x Hx)). cbn. lia. }
  rewrite U2 in R2 by (intros s Hs; destruct (XB s Hs) as (x & Hx & ->); rewrite (proj2 (f_disk_file x Hx)); discriminate).
  exists (mkCO o1 o2), (mkCO o1' o2'). split; [unfold limit_samples; destruct la; [congruence|]; destruct lb; [congruence|]; reflexivity|]. split; [unfold co_generate_and_save; cbn [co_clsb co_cl_b]; rewrite R1, R2; reflexivity|]. cbn [co_clsb co_cl_b]. split; [rewrite A1; exact Ha|].
  intros x Hx. assert (Hl : In [("mu", x)] l_hypos) by (unfold l_hypos; unfold xs4 in Hx; cbn in *; decompose [or] Hx; subst; try contradiction; tauto). destruct (f_disk_file x Hx) as [F1 F2]. split.
  - rewrite <- Ha in Hl. apply in_map_iff in Hl as (s & Es & Hs). specialize (P1 s Hs). unfold produced in P1. cbn [fst snd] in P1. rewrite Es, F1 in P1. apply P1.
  - rewrite <- Hb in Hl. apply in_map_iff in Hl as (s & Es & Hs). specialize (P2 s Hs). unfold produced in P2. cbn [fst snd] in P2. rewrite Es, F2 in P2. apply P2.
Qed.

(** the limits *)
Definition f_opts (ntoys : nat) (fits : string) (data asimov : option string) : FullOpts := mkFO "m.json" fits ntoys (9 / 10) "lim" data asimov false 1 None None None "" "q_mu" false (Some 1%nat) None.
Definition f_with (e1 e2 : R) (x : R) : Hypo * PLR := ([("mu", x)], with_pvs (f_point x) (dset "sampling_cls" (VPair 1 e2) (dset "sampling_clb" (VPair 1 e1) (dset "sampling_pv" (VPair 1 e1) f_pvs)))).
Lemma f_points c : (forall x, In x xs4 -> hget h0 [("mu", x)] (so_dists (co_clsb c)) = Some q4 /\ hget h0 [("mu", x)] (so_dists (co_cl_b c)) = Some q4) ->
  on_points (sampling_point h0 c) (f_rast f_point xs4) = Ok (mkRaster (map (f_with err1 err2) xs4) ["mu"] (Some f_pm)).
Proof.
  intros H. assert (P : forall x, In x xs4 -> sampling_point h0 c (f_point x) = Ok (snd (f_with err1 err2 x))).
  { intros x Hx. destruct (H x Hx) as [Ha Hb]. unfold sampling_point. change (bind (dgetE "pv" (plr_pvs (f_point x))) num_of) with (Ok (1 / 2)). cbn [bind]. change (plr_hypo (f_point x)) with ([("mu", x)] : Hypo). unfold co_pv_err, so_pv_err. rewrite Ha, Hb, q4_pv. cbn [bind fst snd].
    rewrite (proj2 (Rleb_false 1 0)) by lra. cbn [fst snd]. unfold f_with, err2. cbn [snd]. replace (1 / 1) with 1 by field. reflexivity. }
  unfold on_points, f_rast, xs4. cbn [ra_points map mapM fst snd ra_pois ra_model f_names]. rewrite !P by (unfold xs4; cbn; auto). reflexivity.
Qed.
Lemma f_ul e1 e2 r : 0 < e1 < 1 -> 0 < e2 < 1 -> r = fold_left (fill_band unary) (map (fun i => (i, [1; 1; 1; 1])) [(-1)%Z; 0%Z; 1%Z]) (mkRaster (map (f_with e1 e2) xs4) ["mu"] (Some f_pm)) ->
  exists usb us lsb ls, ul_new r "sampling_pv" None (9 / 10) = Ok usb /\ ul_new r "sampling_cls" None (9 / 10) = Ok us /\ ul_limit_err (sl_spline (ll_scan l_libs)) usb 3 true = Ok lsb /\ ul_limit_err (sl_spline (ll_scan l_libs)) us 3 true = Ok ls /\
    asymptotic_limits (sl_spline (ll_scan l_libs)) r (9 / 10) = Ok (Some 6, Some 6) /\
    forall i, In i [(-1)%Z; 0%Z; 1%Z] -> exists u l, ul_new r (band_pv unary i) None (95 / 100) = Ok u /\ ul_limit (sl_spline (ll_scan l_libs)) u 3 true = Ok l.
Proof.
  intros H1 H2 ->. do 4 eexists. split; [evA; reflexivity|]. split; [evA; reflexivity|]. split; [evA; reflexivity|]. split; [evA; reflexivity|]. split; [evA; reflexivity|]. intros i Hi. cbn in Hi. decompose [or] Hi; subst; try contradiction; (do 2 eexists; split; [evA; reflexivity|evA; reflexivity]).
Qed.
Lemma f_limits nt fits dt asi c : so_hypos (co_clsb c) = l_hypos -> (forall x, In x xs4 -> hget h0 [("mu", x)] (so_dists (co_clsb c)) = Some q4 /\ hget h0 [("mu", x)] (so_dists (co_cl_b c)) = Some q4) ->
  exists lf lq sa ba, full_limits t_libs (f_opts nt fits dt asi) c (f_rast f_point xs4) (l_rast xs4) = Ok (lf, lq, sa, ba).
Proof.
  intros Hh H. unfold full_limits. change (truncated (sl_hash (ll_scan t_libs)) (shared_opts (f_opts nt fits dt asi)) c) with (Ok c). cbn [bind]. change (ra_pois (f_rast f_point xs4)) with ["mu"]. cbv iota. cbn [bind].
  unfold sampling_limits. change (sl_hash (ll_scan t_libs)) with h0. rewrite (f_points c H). cbn [bind]. change (bands_of (shared_opts (f_opts nt fits dt asi))) with (Some 1%nat). cbv iota. change (ll_cdf t_libs) with (fun _ : R => 1 / 2). rewrite (t_bands c Hh H). cbn [bind]. change (ll_dec t_libs) with unary. change (lo_cl (shared_opts (f_opts nt fits dt asi))) with (9 / 10). change (fo_cl (f_opts nt fits dt asi)) with (9 / 10).
  match goal with |- context [ul_new ?r "sampling_pv" _ _] => destruct (f_ul err1 err2 r) as (usb & us & lsb & ls & E1 & E2 & E3 & E4 & EA & E5); [pose proof err1_bounds; lra|exact err2_bounds|reflexivity|] end.
  rewrite E1. cbn [bind]. rewrite E2. cbn [bind]. change (ll_scan t_libs) with (ll_scan l_libs). rewrite E3. cbn [bind]. rewrite E4. cbn [bind]. change (band_orders 1) with [(-1)%Z; 0%Z; 1%Z]. cbn [mapM].
  destruct (E5 (-1)%Z) as (u1 & l1 & A1 & B1); [cbn; auto|]. destruct (E5 0%Z) as (u2 & l2 & A2 & B2); [cbn; auto|]. destruct (E5 1%Z) as (u3 & l3 & A3 & B3); [cbn; auto|].
  rewrite A1. cbn [bind]. rewrite B1. cbn [bind]. rewrite A2. cbn [bind]. rewrite B2. cbn [bind]. rewrite A3. cbn [bind]. rewrite B3. cbn [bind]. rewrite EA. cbn [bind]. change (l_rast xs4) with (l_rast [4; 5; 6; 7]). rewrite l_limits. cbn [bind]. do 4 eexists. reflexivity.
Qed.

(** ** runs *)
Definition f_doc (xs : list R) : dict jv := [("data", JList (l_dumped xs)); ("asimov", JList (l_dumped xs))].
Definition f_data (n : Z) : dict jv := [("data", JObj [("channels", JList [JObj [("name", JStr "C"); ("bins", JList [JObj [("name", JStr "b1"); ("counts", JInt n)]])]]); ("aux_obs", JList [])])].
Definition f_docs (d : dict jv) : list (dict jv) := [lm_file; f_doc xs4; f_data 7; f_data 8; f_doc [4]; d].
Definition f_codec (d : dict jv) : Codec := table_codec (combine ["1"; "2"; "3"; "4"; "5"; "6"] (f_docs d)).
Lemma f_faithful d : faithful (f_codec d).
Proof. apply table_codec_faithful. unfold f_docs. cbn [keys map fst combine]. repeat constructor; cbn; intuition congruence. Qed.
Lemma f_save d path flavor : flavor_of path flavor = "json" -> exists ops, save_ops (f_codec d) any_path path flavor d = (ops, None).
Proof.
  intros Hf. assert (T : exists t, c_dump (f_codec d) "json" d = ([t], None)).
  { unfold f_codec, table_codec, f_docs. cbn [c_dump find snd combine]. repeat (match goal with |- context [jv_eq_dec ?a ?b] => destruct (jv_eq_dec a b) as [?E|?N]; [eexists; reflexivity|] end). exfalso. congruence. }
  destruct T as [t Ht]. unfold save_ops. rewrite Hf. cbn [negb any_path String.eqb Ascii.eqb Bool.eqb orb]. rewrite Ht. eexists. reflexivity.
Qed.
Definition f_fs : fs := fun q => dget q [("m.json", "1"); ("fits.json", "2"); ("d.json", "3"); ("d2.json", "4"); ("one.json", "5")].
(** everything that does not depend on the results *)
Lemma f_inputs : exists it, i_pm it = f_pm /\ full_minimizer (lm, it) = Ok l_s /\ (forall d o, fo_model o = "m.json" -> fo_linear o = false -> model_load_file ex_env (f_codec d) f_fs (new_model true (fo_linear o)) (fo_model o) None = Ok (lm, it)) /\
  forall n p, In (p, n) [("d.json", 7%Z); ("d2.json", 8%Z)] -> exists data, (forall d o, fo_data o = Some p -> full_data (f_codec d) o f_fs (lm, it) = Ok data) /\ exists s, compute_fast_results h0 (sl_dist (ll_scan t_libs)) CalcQMu (ll_solver t_libs) lm it (sl_fit (ll_scan t_libs) lm it) data l_s l_hypos (map (fun x => ([("mu", x)], l_full x)) xs4) = Ok (l_rast xs4, s).
Proof.
  destruct l_loads as (it & HL & Hp & Hr & _). exists it. split; [exact Hp|]. split; [unfold full_minimizer, set_pois_min; cbn [fst snd]; rewrite Hp, Hr; unfold lm; ev; reflexivity|].
  split; [intros d o Hm Hl; rewrite Hm, Hl; unfold model_load_file; change (load_file (f_codec d) f_fs "m.json" None) with (Ok lm_file); cbn [bind]; exact HL|].
  intros n p Hnp. assert (DD : exists data, (forall d, data_create (f_codec d) f_fs (lm, it) p = Ok (data, None)) /\ exists a, generate_expected_0 (ll_solver l_libs) lm it data = Ok a).
  { assert (LF : forall d, load_file (f_codec d) f_fs p None = Ok (f_data n)) by (intros d; cbn [In] in Hnp; destruct Hnp as [Ek|[Ek|[]]]; injection Ek as <- <-; reflexivity).
    pose (Q := fun (it : Internal) (data : Data) => (forall d, data_create (f_codec d) f_fs (lm, it) p = Ok (data, None)) /\ exists a, generate_expected_0 (ll_solver l_libs) lm it data = Ok a).
    assert (HQ : forall it data, (forall d, data_create (f_codec d) f_fs (lm, it) p = Ok (data, None)) -> (exists a, generate_expected_0 (ll_solver l_libs) lm it data = Ok a) -> Q it data) by (split; assumption).
    change (exists data, Q it data). clearbody Q. clear - HL LF HQ. revert HL. unfold model_load, finish, lm_file. unfold lm at 1. ev. intros [= <-]. eexists. apply HQ.
    - intros d. unfold data_create. rewrite LF. unfold lm, f_data, data_init, data_load. ev. reflexivity.
    - eexists. unfold generate_expected_0, lm. evA. match goal with |- context [Rltb ?x ((1 / 1000) ^ 0)] => destruct (Rltb x ((1 / 1000) ^ 0)) end; evA; reflexivity. }
  destruct DD as (data & HD & a & Ha). exists data. split.
  - intros d o Ho. unfold full_data. rewrite Ho. assert (Ep : String.eqb p "" = false) by (cbn [In] in Hnp; destruct Hnp as [E|[E|[]]]; injection E as <- <-; reflexivity). rewrite Ep, HD. reflexivity.
  - pose proof (l_computed it data a Hp Ha) as H. unfold limit_compute in H. apply bind_Ok in H as (full & Hf & H). apply bind_Ok in H as ([r s] & Hr' & H). cbn [fst snd] in *. injection H as ->. exists s.
    assert (F : foldM (fun d h => let! p := pars_init (PIDict (map (fun kv => (fst kv, Some (snd kv))) h)) NINone (Some (mkPM ["mu"] [])) in Ok (hset (sl_hash (ll_scan l_libs)) h p d)) l_hypos [] = Ok (map (fun x => ([("mu", x)], l_full x)) [4; 5; 6; 7])) by (evA; reflexivity).
    rewrite Hp, F in Hf. injection Hf as <-. exact Hr'.
Qed.

Definition f_any : Model * Internal -> Params -> res unit := fun _ _ => Ok tt.
Definition f_opts_with (nt : nat) (fits : string) (p : string) : FullOpts := f_opts nt fits (Some p) None.
Lemma f_full_model d o it : (forall d o, fo_model o = "m.json" -> fo_linear o = false -> model_load_file ex_env (f_codec d) f_fs (new_model true (fo_linear o)) (fo_model o) None = Ok (lm, it)) -> fo_model o = "m.json" -> fo_linear o = false -> fo_regularize o = None -> fo_cutoff o = None -> full_model ex_env (f_codec d) o f_fs = Ok (lm, it).
Proof. intros HM H1 H2 H3 H4. unfold full_model. rewrite (HM d o H1 H2). cbn [bind]. rewrite H3, H4. reflexivity. Qed.
Lemma f_load_file d name xs : In (name, xs) [("fits.json", xs4); ("one.json", [4])] -> In name ["fits.json"; "one.json"] -> load_file (f_codec d) f_fs name None = Ok (f_doc xs).
Proof. intros [E|[E|[]]] _; injection E as <- <-; reflexivity. Qed.
Lemma f_raster d name xs part : In (name, xs) [("fits.json", xs4); ("one.json", [4])] -> In part ["data"; "asimov"] -> load_raster h0 (f_codec d) f_fs name part f_pm = Ok (f_rast f_loaded xs).
Proof.
  intros Hn Hp. assert (Hx : In xs [xs4; [4]]) by (cbn in Hn; destruct Hn as [E|[E|[]]]; injection E as <- <-; cbn; auto). unfold load_raster. rewrite (f_load_file d name xs Hn) by (cbn in Hn; destruct Hn as [E|[E|[]]]; injection E as <- <-; cbn; auto).
  cbn [bind]. destruct Hp as [<-|[<-|[]]]; unfold f_doc; cbn [dgetE dget String.eqb Ascii.eqb Bool.eqb bind jlist]; apply (f_load xs Hx).
Qed.
Lemma f_fits_raster d name xs : In (name, xs) [("fits.json", xs4); ("one.json", [4])] -> fits_raster h0 (f_codec d) f_fs name f_pm = Ok (f_rast f_point xs).
Proof.
  intros Hn. assert (Hx : In xs [xs4; [4]]) by (cbn in Hn; destruct Hn as [E|[E|[]]]; injection E as <- <-; cbn; auto). unfold fits_raster. rewrite !(f_raster d name xs) by (cbn; auto). cbn [bind]. apply (f_fits xs _ Hx eq_refl).
Qed.
Lemma f_rasters : exists it, i_pm it = f_pm /\ (forall d o, fo_model o = "m.json" -> fo_linear o = false -> model_load_file ex_env (f_codec d) f_fs (new_model true (fo_linear o)) (fo_model o) None = Ok (lm, it)) /\
  forall d nt p, In p ["d.json"; "d2.json"] -> (exists data, full_data (f_codec d) (f_opts_with nt "fits.json" p) f_fs (lm, it) = Ok data) /\ full_rasters t_libs ex_env (f_codec d) l_pf (f_opts_with nt "fits.json" p) f_fs = Ok (lm, it, map l_full xs4, f_rast f_point xs4, l_rast xs4).
Proof.
  destruct f_inputs as (it & Hp & Hs & HM & HD). exists it. split; [exact Hp|]. split; [exact HM|]. intros d nt p Hin.
  assert (X : exists data, full_data (f_codec d) (f_opts_with nt "fits.json" p) f_fs (lm, it) = Ok data /\ exists s, compute_fast_results h0 (sl_dist (ll_scan t_libs)) CalcQMu (ll_solver t_libs) lm it (sl_fit (ll_scan t_libs) lm it) data l_s l_hypos (map (fun x => ([("mu", x)], l_full x)) xs4) = Ok (l_rast xs4, s)).
  { destruct Hin as [<-|[<-|[]]]; [destruct (HD 7%Z "d.json") as (data & A & B)|destruct (HD 8%Z "d2.json") as (data & A & B)]; try (cbn; auto; fail); exists data; (split; [apply A; reflexivity|exact B]). }
  destruct X as (data & A & s & B). split; [eauto|]. unfold full_rasters. rewrite (f_full_model d _ it HM) by reflexivity. cbn [bind fst snd]. rewrite Hp. change (sl_hash (ll_scan t_libs)) with h0. change (fo_fits (f_opts_with nt "fits.json" p)) with "fits.json". rewrite (f_fits_raster d "fits.json" xs4) by (cbn; auto). cbn [bind].
  rewrite f_gens by (cbn; auto). cbn [bind]. change (set_hypo (f_opts_with nt "fits.json" p) (f_rast f_point xs4)) with (@Ok unit tt). cbn [bind]. rewrite A. cbn [bind]. change (full_bounds l_pf (f_opts_with nt "fits.json" p)) with (@Ok (list ParBound) []). cbn [bind]. change (full_stat (f_rast f_point xs4) (fo_stat (f_opts_with nt "fits.json" p))) with (Ok CalcQMu). cbn [bind]. rewrite Hs. cbn [bind].
  rewrite f_fill by (cbn; auto). cbn [bind]. unfold recompute_raster. change (map fst (ra_points (f_rast f_point xs4))) with l_hypos.
  assert (F : full_hypos_of h0 (f_rast f_point xs4) = map (fun x => ([("mu", x)], l_full x)) xs4) by (unfold full_hypos_of, f_rast, xs4; evA; reflexivity). rewrite F, B. reflexivity.
Qed.
(** a run on the samples of the disk *)
Lemma f_runs : exists it, i_pm it = f_pm /\ (forall d o, fo_model o = "m.json" -> fo_linear o = false -> model_load_file ex_env (f_codec d) f_fs (new_model true (fo_linear o)) (fo_model o) None = Ok (lm, it)) /\
  exists d ops, forall p, In p ["d.json"; "d2.json"] -> full_run t_libs ex_env (f_codec d) any_path l_pf f_any (f_opts_with 2 "fits.json" p) f_fs f_disk = (ops, f_disk, None).
Proof.
  destruct f_rasters as (it & Hp & HM & HR). exists it. split; [exact Hp|]. split; [exact HM|]. destruct (f_samplers (fun _ => Ok tt)) as (sl & Hsl & Ha & Hb).
  destruct (f_generated (map fst sl) (map snd sl) Ha Hb) as (c & c' & Hc & Hg & Hh & Hd).
  destruct (f_limits 2 "fits.json" (Some "d.json") None c' Hh Hd) as (lf & lq & sa & ba & Hlim).
  assert (Hres : exists d, full_results unary (f_opts_with 2 "fits.json" "d.json") lm lf lq sa ba = Ok d) by (unfold full_results, lm; cbn [m_pois]; eexists; reflexivity). destruct Hres as [d Hres].
  destruct (f_save d (full_results_file (f_opts_with 2 "fits.json" "d.json")) (Some "json") eq_refl) as [ops Hsave]. exists d, ops. intros p Hin. unfold full_run. destruct (HR d 2%nat p Hin) as [_ ->]. change (fo_ntoys (f_opts_with 2 "fits.json" p) =? 0)%nat with false. cbv iota. cbn [fst].
  change (f_any (lm, it)) with (fun _ : Params => Ok tt). rewrite Hsl. cbn [bind]. change (fo_out (f_opts_with 2 "fits.json" p)) with "lim". rewrite Hc. change (sl_hash (ll_scan t_libs)) with h0. change (fo_ntoys (f_opts_with 2 "fits.json" p)) with 2%nat. change (fo_break (f_opts_with 2 "fits.json" p)) with false. rewrite Hg.
  change (full_limits t_libs (f_opts_with 2 "fits.json" p) c' (f_rast f_point xs4) (l_rast xs4)) with (full_limits t_libs (f_opts 2 "fits.json" (Some "d.json") None) c' (f_rast f_point xs4) (l_rast xs4)). rewrite Hlim. cbn [bind]. change (ll_dec t_libs) with unary.
  change (full_results unary (f_opts_with 2 "fits.json" p)) with (full_results unary (f_opts_with 2 "fits.json" "d.json")). rewrite Hres. change (full_results_file (f_opts_with 2 "fits.json" p)) with (full_results_file (f_opts_with 2 "fits.json" "d.json")). rewrite Hsave. reflexivity.
Qed.

(** two toys for each of four hypotheses, and the bands of one standard deviation *)
Lemma f_keys h pt xs : In xs [xs4; [4]] -> In h (map fst (ra_points (f_rast pt xs))) -> keys h = ["mu"].
Proof. intros Hx H. unfold f_rast in H. cbn [ra_points] in H. rewrite map_map in H. apply in_map_iff in H as (x & <- & _). reflexivity. Qed.
Example C111_results_nonvacuous : exists d it ops p rd ra, let o := f_opts_with 2 "fits.json" "d.json" in let L := t_libs in faithful (f_codec d) /\ full_model ex_env (f_codec d) o f_fs = Ok (lm, it) /\ m_pois lm = [("mu", p)] /\
  load_raster (sl_hash (ll_scan L)) (f_codec d) f_fs (fo_fits o) "data" (i_pm it) = Ok rd /\ load_raster (sl_hash (ll_scan L)) (f_codec d) f_fs (fo_fits o) "asimov" (i_pm it) = Ok ra /\ map fst (ra_points rd) = l_hypos /\ distinct_hypos ["mu"] l_hypos /\
  (forall h, In h (map fst (ra_points ra)) -> keys h = ["mu"]) /\ fits_evaluate L lm it /\ (forall i j, ll_dec L i = ll_dec L j -> i = j) /\ (0 < fo_ntoys o)%nat /\ stored_sorted f_disk /\ full_run L ex_env (f_codec d) any_path l_pf f_any o f_fs f_disk = (ops, f_disk, None).
Proof.
  destruct f_runs as (it & Hp & HM & d & ops & HR). exists d, it, ops. do 3 eexists. cbv zeta. split; [apply f_faithful|]. split; [apply f_full_model; auto|]. split; [reflexivity|]. rewrite Hp. split; [apply (f_raster d "fits.json" xs4 "data"); cbn; auto|]. split; [apply (f_raster d "fits.json" xs4 "asimov"); cbn; auto|].
  split; [reflexivity|]. split; [exact t_hypos|]. split; [intros h Hh; apply (f_keys h f_loaded xs4); [cbn; auto|exact Hh]|]. split; [intros ?; exact s_eval|]. split; [exact unary_inj|]. split; [cbn; lia|]. split; [exact f_disk_sorted|]. apply HR. cbn. auto.
Qed.
(** no samples on the disk *)
Example C111_missing_sample_refuted_nonvacuous : exists d it ops dk' e p rd ra, let o := f_opts_with 2 "fits.json" "d.json" in let L := t_libs in let dk := mkDisk [] [] in faithful (f_codec d) /\ full_model ex_env (f_codec d) o f_fs = Ok (lm, it) /\ m_pois lm = [("mu", p)] /\
  load_raster (sl_hash (ll_scan L)) (f_codec d) f_fs (fo_fits o) "data" (i_pm it) = Ok rd /\ load_raster (sl_hash (ll_scan L)) (f_codec d) f_fs (fo_fits o) "asimov" (i_pm it) = Ok ra /\ map fst (ra_points rd) = l_hypos /\ distinct_hypos ["mu"] l_hypos /\
  (forall h, In h (map fst (ra_points ra)) -> keys h = ["mu"]) /\ fits_evaluate L lm it /\ (forall i j, ll_dec L i = ll_dec L j -> i = j) /\ (0 < fo_ntoys o)%nat /\ stored_sorted dk /\ In [("mu", 5)] l_hypos /\ dget (so_file (fo_out o) [("mu", 5)] ".npy") (dk_npy dk) = None /\
  full_run L ex_env (f_codec d) any_path l_pf f_any o f_fs dk = (ops, dk', e).
Proof.
  destruct f_runs as (it & Hp & HM & d & _). destruct (full_run t_libs ex_env (f_codec d) any_path l_pf f_any (f_opts_with 2 "fits.json" "d.json") f_fs (mkDisk [] [])) as [[ops dk'] e] eqn:HR. exists d, it, ops, dk', e. do 3 eexists. cbv zeta. split; [apply f_faithful|]. split; [apply f_full_model; auto|]. split; [reflexivity|]. rewrite Hp. split; [apply (f_raster d "fits.json" xs4 "data"); cbn; auto|]. split; [apply (f_raster d "fits.json" xs4 "asimov"); cbn; auto|].
  split; [reflexivity|]. split; [exact t_hypos|]. split; [intros h Hh; apply (f_keys h f_loaded xs4); [cbn; auto|exact Hh]|]. split; [intros ?; exact s_eval|]. split; [exact unary_inj|]. split; [cbn; lia|]. split; [intros ? ? [=]|]. split; [right; left; reflexivity|]. split; [reflexivity|exact HR].
Qed.
Example C111_first_toy_refuted_nonvacuous : exists d it fast sl, let o := f_opts_with 2 "fits.json" "d.json" in let L := t_libs in let r := f_rast f_point xs4 in let dk := mkDisk [] [] in full_rasters L ex_env (f_codec d) l_pf o f_fs = Ok ((lm, it), l_full 4 :: map l_full [5; 6; 7], r, fast) /\
  ra_points r = ([("mu", 4)], f_point 4) :: tl (ra_points r) /\ f_any (lm, it) (l_full 4) = Ok tt /\ (0 < fo_ntoys o)%nat /\ mapM (full_samplers (f_any (lm, it)) lm) (combine (combine (map snd (ra_points r)) (l_full 4 :: map l_full [5; 6; 7])) (map snd (ra_points fast))) = Ok sl /\ ra_points fast <> [] /\
  dget (so_file (fo_out o) (plr_hypo (f_point 4)) ".npy") (dk_npy dk) = None /\ ~ In (so_file (fo_out o) (plr_hypo (f_point 4)) ".lock") (dk_lock dk).
Proof.
  destruct f_rasters as (it & Hp & HM & HR). destruct (f_samplers (fun _ => Ok tt)) as (sl & Hsl & _). exists [], it, (l_rast xs4), sl. cbv zeta. split; [apply (HR [] 2%nat "d.json"); cbn; auto|]. split; [reflexivity|]. split; [reflexivity|]. split; [cbn; lia|]. split; [exact Hsl|]. split; [discriminate|]. split; [reflexivity|intros []].
Qed.
Example C111_data_refuted_nonvacuous : exists d ops ops2, let o := f_opts_with 2 "fits.json" "d.json" in faithful (f_codec d) /\ (0 < fo_ntoys o)%nat /\ full_run t_libs ex_env (f_codec d) any_path l_pf f_any o f_fs f_disk = (ops, f_disk, None) /\
  full_run t_libs ex_env (f_codec d) any_path l_pf f_any (with_data o (Some "d2.json")) f_fs f_disk = (ops2, f_disk, None).
Proof.
  destruct f_runs as (it & Hp & HM & d & ops & HR). exists d, ops, ops. cbv zeta. split; [apply f_faithful|]. split; [cbn; lia|]. split; [apply HR; cbn; auto|]. apply (HR "d2.json"). cbn. auto.
Qed.
Definition f_stat (o : FullOpts) (st : string) : FullOpts := mkFO (fo_model o) (fo_fits o) (fo_ntoys o) (fo_cl o) (fo_out o) (fo_data o) (fo_asimov o) (fo_linear o) (fo_niter o) (fo_regularize o) (fo_cutoff o) (fo_bounds o) (fo_sethypo o) st (fo_break o) (fo_bands o) (fo_trunc o).
Example C111_refused_nonvacuous : exists it data, let o := f_stat (f_opts_with 2 "fits.json" "d.json") "t_mu" in full_model ex_env (f_codec []) o f_fs = Ok (lm, it) /\ fits_raster (sl_hash (ll_scan t_libs)) (f_codec []) f_fs (fo_fits o) (i_pm it) = Ok (f_rast f_point xs4) /\ gen_pars (f_rast f_point xs4) = Ok (map l_full xs4) /\ fo_sethypo o = "" /\
  full_data (f_codec []) o f_fs (lm, it) = Ok data /\ full_bounds l_pf o = Ok [] /\ fo_stat o <> "q~mu" /\ fo_stat o <> "q_mu".
Proof.
  destruct f_rasters as (it & Hp & HM & HR). destruct (HR [] 2%nat "d.json") as [[data Hd] _]; [cbn; auto|]. exists it, data. cbv zeta. split; [apply f_full_model; auto|]. rewrite Hp. split; [apply (f_fits_raster [] "fits.json" xs4); cbn; auto|]. split; [apply f_gens; cbn; auto|]. split; [reflexivity|]. split; [exact Hd|]. split; [reflexivity|]. split; discriminate.
Qed.
Example C111_single_hypothesis_refuted_nonvacuous : exists it ops dk' e, let o := f_opts_with 2 "one.json" "d.json" in full_model ex_env (f_codec []) o f_fs = Ok (lm, it) /\ fits_raster (sl_hash (ll_scan t_libs)) (f_codec []) f_fs (fo_fits o) (i_pm it) = Ok (f_rast f_point [4]) /\ (length (ra_points (f_rast f_point [4%R])) <= 1)%nat /\ (0 < fo_ntoys o)%nat /\
  full_run t_libs ex_env (f_codec []) any_path l_pf f_any o f_fs f_disk = (ops, dk', e).
Proof.
  destruct f_rasters as (it & Hp & HM & _). destruct (full_run t_libs ex_env (f_codec []) any_path l_pf f_any (f_opts_with 2 "one.json" "d.json") f_fs f_disk) as [[ops dk'] e] eqn:HR. exists it, ops, dk', e. cbv zeta. split; [apply f_full_model; auto|]. rewrite Hp. split; [apply (f_fits_raster [] "one.json" [4]); cbn; auto|]. split; [cbn; lia|]. split; [cbn; lia|exact HR].
Qed.
Example C111_no_samples_refuted_nonvacuous : exists d ops, full_run t_libs ex_env (f_codec d) any_path l_pf f_any (f_opts_with 2 "fits.json" "d.json") f_fs f_disk = (ops, f_disk, None).
Proof. destruct f_runs as (it & Hp & HM & d & ops & HR). exists d, ops. apply HR. cbn. auto. Qed.
Example C111_no_results_refuted_nonvacuous : let o := f_opts_with 0 "fits.json" "d.json" in fo_ntoys o = 0%nat /\ full_run t_libs ex_env (f_codec []) any_path l_pf f_any o f_fs f_disk = ([], f_disk, None).
Proof. destruct f_rasters as (it & Hp & HM & HR). split; [reflexivity|]. unfold full_run. destruct (HR [] 0%nat "d.json") as [_ ->]; [cbn; auto|]. reflexivity. Qed.
Example C111_inputs_kept_nonvacuous : exists d ops, let o := f_opts_with 2 "fits.json" "d.json" in full_run t_libs ex_env (f_codec d) any_path l_pf f_any o f_fs f_disk = (ops, f_disk, None) /\ "fits.json" <> (fo_out o ++ "_results.json")%string /\ f_fs "fits.json" <> None.
Proof. destruct f_runs as (it & Hp & HM & d & ops & HR). exists d, ops. cbv zeta. split; [apply HR; cbn; auto|]. split; discriminate. Qed.
Definition f_regularize (o : FullOpts) (x : R) : FullOpts := mkFO (fo_model o) (fo_fits o) (fo_ntoys o) (fo_cl o) (fo_out o) (fo_data o) (fo_asimov o) (fo_linear o) (fo_niter o) (Some x) (fo_cutoff o) (fo_bounds o) (fo_sethypo o) (fo_stat o) (fo_break o) (fo_bands o) (fo_trunc o).
Example C111_regularize_refuted_nonvacuous : exists mi, let o := f_regularize (f_opts_with 2 "fits.json" "d.json") 1 in model_load_file ex_env (f_codec []) f_fs (new_model true (fo_linear o)) (fo_model o) None = Ok mi /\ fo_regularize o = Some 1.
Proof. destruct f_rasters as (it & Hp & HM & _). exists (lm, it). cbv zeta. split; [apply HM; reflexivity|reflexivity]. Qed.
Definition f_sethypo (o : FullOpts) (s : string) : FullOpts := mkFO (fo_model o) (fo_fits o) (fo_ntoys o) (fo_cl o) (fo_out o) (fo_data o) (fo_asimov o) (fo_linear o) (fo_niter o) (fo_regularize o) (fo_cutoff o) (fo_bounds o) s (fo_stat o) (fo_break o) (fo_bands o) (fo_trunc o).
Example C111_sethypo_refuted_nonvacuous : exists it, let o := f_sethypo (f_opts_with 2 "fits.json" "d.json") "mu=1" in full_model ex_env (f_codec []) o f_fs = Ok (lm, it) /\ fits_raster (sl_hash (ll_scan t_libs)) (f_codec []) f_fs (fo_fits o) (i_pm it) = Ok (f_rast f_point xs4) /\ ra_points (f_rast f_point xs4) <> [] /\
  gen_pars (f_rast f_point xs4) = Ok (map l_full xs4) /\ fo_sethypo o <> "".
Proof. destruct f_rasters as (it & Hp & HM & _). exists it. cbv zeta. split; [apply f_full_model; auto|]. rewrite Hp. split; [apply (f_fits_raster [] "fits.json" xs4); cbn; auto|]. split; [discriminate|]. split; [apply f_gens; cbn; auto|discriminate]. Qed.
Example C111_asimov_refuted_nonvacuous : exists it, let o := f_opts 2 "fits.json" None (Some "mu=1") in full_model ex_env (f_codec []) o f_fs = Ok (lm, it) /\ fits_raster (sl_hash (ll_scan t_libs)) (f_codec []) f_fs (fo_fits o) (i_pm it) = Ok (f_rast f_point xs4) /\
  gen_pars (f_rast f_point xs4) = Ok (map l_full xs4) /\ fo_asimov o = Some "mu=1" /\ fo_data o = None.
Proof. destruct f_rasters as (it & Hp & HM & _). exists it. cbv zeta. split; [apply f_full_model; auto|]. rewrite Hp. split; [apply (f_fits_raster [] "fits.json" xs4); cbn; auto|]. split; [apply f_gens; cbn; auto|]. split; reflexivity. Qed.
Example C111_bounds_refuted_nonvacuous : exists l', let o := f_opts_with 2 "fits.json" "d.json" in full_bounds l_pf o = Ok [] /\ full_bounds l_pf (with_bounds o (Some "mu=4:5")) = Ok l' /\ l' <> [].
Proof. eexists. cbv zeta. split; [reflexivity|]. split; [reflexivity|discriminate]. Qed.
Example C111_inputs_nonvacuous : exists it fast, full_rasters t_libs ex_env (f_codec []) l_pf (f_opts_with 2 "fits.json" "d.json") f_fs = Ok ((lm, it), map l_full xs4, f_rast f_point xs4, fast).
Proof. destruct f_rasters as (it & _ & _ & H). exists it, (l_rast xs4). apply H. cbn; auto. Qed.
