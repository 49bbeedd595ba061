(** Examples for C114. *)
From Coq Require Import Permutation Sorted.
From Verif Require Import Py PyFacts Base BaseFacts Expressions ExprProps Norms RSort Sample SampleFacts Channels ChannelFacts Params ParamsFacts Core CoreFacts CoreSpec CoreCoefs CoreYields CoreExample CoreMore NpMin PoiMin
  ModelIO ModelIOFacts ModelIOProps ModelTools ModelToolsFacts NPPruneFacts NPPruneProps PoiMinProps UtilTools FileIO FileIOProps Commands CalcProps CommandChannelProps ScanCommandExProps LimitCommandExProps FitCommandExProps Impacts ImpactProps.
Local Open Scope string_scope.
Local Open Scope list_scope.
Local Open Scope R_scope.

(** a fit that returns a POI of 3 in the complete model, where NP a has the value 1/2, 4 without NP b and 6 without NP a *)
Definition i_fit : fitter := fun mi _ =>
  Ok (match keys (m_nps (fst mi)) with
      | ["a"] => mkPars [4] [0] (Some (i_pm (snd mi)))
      | ["b"] => mkPars [6] [0] (Some (i_pm (snd mi)))
      | _ => mkPars [3] [1/2; 0] (Some (i_pm (snd mi)))
      end).
Definition i_data : Data := mkData [10] [0; 0].
Lemma pr0_usable : exists I, usable_model ex_env pr0 I.
Proof.
  destruct C56_nonvacuous as (I & m' & I' & A & B & C & D & T & _). exists I. constructor; try assumption; try reflexivity.
  - constructor; (split; [repeat constructor; cbn; intuition congruence|]).
    + intros k p [X|[]]; inversion X; reflexivity.
    + intros k p [X|[X|[]]]; inversion X; subst; (split; [reflexivity|discriminate]).
    + intros k p [].
    + intros k p [].
    + exact D.
  - intros k c [X|[]]; inversion X; reflexivity.
Qed.
Lemma i_pm_pr0 I : usable_model ex_env pr0 I -> i_pm I = mkPM ["mu"] [("a", 0, 1); ("b", 0, 1)] /\ set_internal_vars ex_env pr0 = Ok I.
Proof.
  intros U. pose proof (um_built _ _ _ U) as HF. apply finish_object in HF as (HS & _). split; [|exact HS]. apply siv_built in HS. pose proof (bt_pm _ _ _ HS) as H. cbn in H. congruence.
Qed.
Lemma remove_a I v : set_internal_vars ex_env pr0 = Ok I -> exists m' I', remove_nps ex_env never (renamed pr0 "pr_pruned", I) [("a", Some v)] = Ok (m', I') /\ keys (m_nps m') = ["b"] /\ i_pm I' = mkPM ["mu"] [("b", 0, 1)] /\ i_ref_pois I' = [1] /\ i_nbins I' = 1%nat.
Proof.
  assert (exists J, set_internal_vars ex_env pr0 = Ok J /\ exists m' I', remove_nps ex_env never (renamed pr0 "pr_pruned", J) [("a", Some v)] = Ok (m', I') /\ keys (m_nps m') = ["b"] /\ i_pm I' = mkPM ["mu"] [("b", 0, 1)] /\ i_ref_pois I' = [1] /\ i_nbins I' = 1%nat) as (J & HJ & R).
  { eexists. split; [unfold pr0, pr_model; ev; reflexivity|]. do 2 eexists. split; [unfold pr0, pr_model, renamed; ev; reflexivity|]. repeat split. }
  intros H. assert (J = I) by congruence. now subst J.
Qed.
Lemma remove_b I v : set_internal_vars ex_env pr0 = Ok I -> exists m' I', remove_nps ex_env never (renamed pr0 "pr_pruned", I) [("b", Some v)] = Ok (m', I') /\ keys (m_nps m') = ["a"] /\ i_pm I' = mkPM ["mu"] [("a", 0, 1)] /\ i_ref_pois I' = [1] /\ i_nbins I' = 1%nat.
Proof.
  assert (exists J, set_internal_vars ex_env pr0 = Ok J /\ exists m' I', remove_nps ex_env never (renamed pr0 "pr_pruned", J) [("b", Some v)] = Ok (m', I') /\ keys (m_nps m') = ["a"] /\ i_pm I' = mkPM ["mu"] [("a", 0, 1)] /\ i_ref_pois I' = [1] /\ i_nbins I' = 1%nat) as (J & HJ & R).
  { eexists. split; [unfold pr0, pr_model; ev; reflexivity|]. do 2 eexists. split; [unfold pr0, pr_model, renamed; ev; reflexivity|]. repeat split. }
  intros H. assert (J = I) by congruence. now subst J.
Qed.
Lemma fit_varied I n v m' I' r x : usable_model ex_env pr0 I -> remove_nps ex_env never (renamed pr0 "pr_pruned", I) [(n, Some v)] = Ok (m', I') -> keys (m_nps m') = [r] -> i_pm I' = mkPM ["mu"] [(r, 0, 1)] -> i_ref_pois I' = [1] -> i_nbins I' = 1%nat ->
  (r = "a" /\ x = 4) \/ (r = "b" /\ x = 6) -> varied_fit ex_env never (fun _ => Ok i_fit) pr0 i_data [0] n v "mu" = Ok x.
Proof.
  intros U H Hk Hp Hr Hb Hx. unfold varied_fit, remove_nps_of_clone. rewrite (clone_named _ _ _ _ _ (um_built _ _ _ U) (um_keyed _ _ _ U) (um_poisson _ _ _ U)). cbn [bind]. change (m_name pr0 ++ "_pruned")%string with "pr_pruned". rewrite H. cbn [bind fst snd].
  rewrite Hp, Hr. unfold pars_clone, pars_init. cbn [pois nps pmod bind length pm_pois pm_nps Nat.eqb repeat]. unfold data_init, set_counts. cbn [i_data d_counts length]. rewrite Hb. cbn [Nat.eqb bind].
  assert (L : length (m_nps m') = 1%nat) by (rewrite <- (map_length fst); change (map fst (m_nps m')) with (keys (m_nps m')); now rewrite Hk). unfold set_aux_obs. cbn [length Nat.eqb]. rewrite L. cbn [Nat.eqb bind]. unfold i_fit. cbn [fst snd bind]. rewrite Hk, Hp.
  destruct Hx as [(-> & ->)|(-> & ->)]; reflexivity.
Qed.
Definition i_best : Params := mkPars [3] [1/2; 0] (Some (mkPM ["mu"] [("a", 0, 1); ("b", 0, 1)])).
Lemma impact_a I : usable_model ex_env pr0 I -> impact_of ex_env never (fun _ => Ok i_fit) pr0 i_data i_best "mu" "a" = Ok (mkImpact "a" (6 - 3) (6 - 3) (1/2)).
Proof.
  intros U. unfold impact_of. change (dgetE "a" (m_nps pr0)) with (@Ok NP (snd (np1 "a" 0))). cbn [bind snd np1 np_name name_of np_nominal]. change (index "a" (keys (m_nps pr0))) with (Some 0%nat). cbn [i_data d_aux delete_at length Nat.ltb Nat.leb firstn skipn app bind].
  change (pars_get i_best "a") with (@Ok R (1/2)). change (pars_get i_best "mu") with (@Ok R 3). cbn [bind]. destruct (i_pm_pr0 I U) as (_ & HS).
  match goal with |- context [varied_fit _ _ _ _ ?d ?a ?n ?v _] => destruct (remove_a I v HS) as (m1 & I1 & A1 & A2 & A3 & A4 & A5); rewrite (fit_varied I n v m1 I1 "b" 6 U A1 A2 A3 A4 A5) by auto end. cbn [bind].
  match goal with |- context [varied_fit _ _ _ _ ?d ?a ?n ?v _] => destruct (remove_a I v HS) as (m2 & I2 & B1 & B2 & B3 & B4 & B5); rewrite (fit_varied I n v m2 I2 "b" 6 U B1 B2 B3 B4 B5) by auto end. reflexivity.
Qed.
Lemma impact_b I : usable_model ex_env pr0 I -> impact_of ex_env never (fun _ => Ok i_fit) pr0 i_data i_best "mu" "b" = Ok (mkImpact "b" (4 - 3) (4 - 3) 0).
Proof.
  intros U. unfold impact_of. change (dgetE "b" (m_nps pr0)) with (@Ok NP (snd (np1 "b" 0))). cbn [bind snd np1 np_name name_of np_nominal]. change (index "b" (keys (m_nps pr0))) with (Some 1%nat). cbn [i_data d_aux delete_at length Nat.ltb Nat.leb firstn skipn app bind].
  change (pars_get i_best "b") with (@Ok R 0). change (pars_get i_best "mu") with (@Ok R 3). cbn [bind]. destruct (i_pm_pr0 I U) as (_ & HS).
  match goal with |- context [varied_fit _ _ _ _ ?d ?a ?n ?v _] => destruct (remove_b I v HS) as (m1 & I1 & A1 & A2 & A3 & A4 & A5); rewrite (fit_varied I n v m1 I1 "a" 4 U A1 A2 A3 A4 A5) by auto end. cbn [bind].
  match goal with |- context [varied_fit _ _ _ _ ?d ?a ?n ?v _] => destruct (remove_b I v HS) as (m2 & I2 & B1 & B2 & B3 & B4 & B5); rewrite (fit_varied I n v m2 I2 "a" 4 U B1 B2 B3 B4 B5) by auto end. reflexivity.
Qed.
(** all the hypotheses of C114_impacts, C114_order, C114_one_sigma and C114_units_refuted *)
Example C114_impacts_nonvacuous : exists I l, usable_model ex_env pr0 I /\ d_counts i_data <> [] /\ length (d_aux i_data) = length (m_nps pr0) /\ NoDup (processed pr0 None) /\
  impacts ex_env never i_fit (fun _ => Ok i_fit) (pr0, I) i_data "mu" None = Ok l /\ In ("a", mkImpact "a" (6 - 3) (6 - 3) (1/2)) l /\ In ("b", mkImpact "b" (4 - 3) (4 - 3) 0) l /\
  exists par, dget "a" (m_nps pr0) = Some par /\ np_nominal par = Some 0 /\ np_variation par = 1.
Proof.
  destruct pr0_usable as (I & U).
  assert (X : exists l, impacts ex_env never i_fit (fun _ => Ok i_fit) (pr0, I) i_data "mu" None = Ok l /\ l = fold_left (fun acc i => dset (im_name i) i acc) (by_size [mkImpact "a" (6 - 3) (6 - 3) (1/2); mkImpact "b" (4 - 3) (4 - 3) 0]) []).
  { eexists. split; [|reflexivity]. unfold impacts.
    assert (F : i_fit (pr0, I) i_data = Ok i_best) by (unfold i_fit; cbn [fst snd]; rewrite (proj1 (i_pm_pr0 I U)); reflexivity). rewrite F. cbn [bind]. change (pars_clone i_best) with (@Ok Params i_best). cbn [bind fst].
    change (keys (m_nps pr0)) with ["a"; "b"]. cbn [mapM]. rewrite (impact_a I U), (impact_b I U). reflexivity. }
  destruct X as (l & X & El). exists I, l. split; [exact U|]. split; [discriminate|]. split; [reflexivity|]. split; [repeat constructor; cbn; intuition congruence|]. split; [exact X|].
  assert (P : forall i, In i [mkImpact "a" (6 - 3) (6 - 3) (1/2); mkImpact "b" (4 - 3) (4 - 3) 0] -> In (im_name i, i) l).
  { intros i Hi. rewrite El, fold_distinct. 2: { cbn [keys map app]. eapply Permutation_NoDup; [apply Permutation_map, Permutation_sym, by_size_perm|]. repeat constructor; cbn; intuition congruence. }
    cbn [app]. apply in_map_iff. exists i. split; [reflexivity|]. eapply Permutation_in; [apply Permutation_sym, by_size_perm|exact Hi]. }
  split; [apply (P (mkImpact "a" (6 - 3) (6 - 3) (1/2))); now left|]. split; [apply (P (mkImpact "b" (4 - 3) (4 - 3) 0)); right; now left|].
  eexists. split; [reflexivity|]. split; reflexivity.
Qed.

Example C114_package_minimizers_nonvacuous : processed pr0 None = ["a"; "b"] /\ processed pr0 (Some ["b"]) = ["b"].
Proof. split; reflexivity. Qed.
(** plot_impacts on a file with a model with a NP *)
Example C114_command_nonvacuous : exists m I, model_create ex_env (table_codec [("1", fm_file)]) s_fs "m.json" = Ok (m, I) /\ m_nps m <> [].
Proof.
  assert (X : exists m I, model_load ex_env (new_model true false) fm_file = Ok (m, I) /\ m_nps m <> []) by (unfold model_load, finish, fm_file, fm; do 2 eexists; split; [ev; reflexivity|discriminate]).
  destruct X as (m & I & X & Hn). exists m, I. split; [|exact Hn]. unfold model_create, model_load_file. change (load_file (table_codec [("1", fm_file)]) s_fs "m.json" None) with (@Ok (dict jv) fm_file). exact X.
Qed.
(** and on a file with a model without NPs and a dataset *)
Definition lmd_file : dict jv := lm_file ++ [("data", JObj [("channels", JList [JObj [("name", JStr "C"); ("bins", JList [JObj [("name", JStr "b1"); ("counts", JInt 5)]])]]); ("aux_obs", JList [])])].
Definition i_codec : Codec := table_codec [("1", lmd_file); ("2", [])].
Definition i_opts : ImpOpts := mkIO "m.json" None "out.json" "mu" 0.
Example C114_command_no_nps_nonvacuous : faithful i_codec /\ exists m I ops, model_create ex_env i_codec s_fs (io_model i_opts) = Ok (m, I) /\ m_nps m = [] /\
  impacts_run (fun _ _ _ => l_fit) ex_env i_codec (fun _ => true) never i_opts s_fs = (ops, None).
Proof.
  split; [apply table_codec_faithful; cbn; repeat constructor; cbn; intuition congruence|].
  assert (X : exists I d, model_load ex_env (new_model true false) lmd_file = Ok (lm, I) /\ i_pm I = mkPM ["mu"] [] /\ i_ref_pois I = [1] /\ data_create i_codec s_fs (lm, I) "m.json" = Ok d).
  { unfold model_load, finish, lmd_file, lm_file, lm. do 2 eexists. split; [ev; reflexivity|]. split; [reflexivity|]. split; [reflexivity|]. unfold data_create. change (load_file i_codec s_fs "m.json" None) with (@Ok (dict jv) lmd_file). unfold lmd_file, lm_file, lm. ev. reflexivity. }
  destruct X as (I & d & X & Hp & Hr & Hd). exists lm, I.
  assert (Hm : model_create ex_env i_codec s_fs "m.json" = Ok (lm, I)) by (unfold model_create, model_load_file; change (load_file i_codec s_fs "m.json" None) with (@Ok (dict jv) lmd_file); exact X).
  assert (Hf : exists p, opti_fitter (fun _ _ _ => l_fit) 0 (lm, I) (fst d) = Ok p /\ pars_clone p = Ok p).
  { unfold opti_fitter. cbn [fst snd]. unfold minimize, set_pois_min. rewrite Hp, Hr. unfold lm. eexists. split; [evA; reflexivity|]. reflexivity. }
  destruct Hf as (p & Hf & Hc).
  assert (Hi : impacts ex_env never (opti_fitter (fun _ _ _ => l_fit) 0) package_clone (lm, I) (fst d) "mu" None = Ok []) by (unfold impacts; rewrite Hf; cbn [bind]; rewrite Hc; reflexivity).
  assert (D : exists t, c_dump i_codec "json" [] = ([t], None)).
  { unfold i_codec, table_codec. cbn [c_dump find snd]. destruct (jv_eq_dec (JObj lmd_file) (JObj [])); [eexists; reflexivity|]. destruct (jv_eq_dec (JObj []) (JObj [])); [eexists; reflexivity|contradiction]. }
  destruct D as (t & D).
  eexists. split; [exact Hm|]. split; [reflexivity|]. unfold impacts_run. cbn [io_model i_opts impact_source io_data io_verbosity io_poi]. rewrite Hm. cbn [bind]. rewrite Hd. cbn [bind]. rewrite Hi. cbn [impacts_json map].
  unfold save_impacts, save_ops. cbn [negb impacts_json map]. cbn [io_out impact_prefix i_opts]. unfold flavor_of. cbn [String.eqb Ascii.eqb Bool.eqb orb].
  rewrite D. reflexivity.
Qed.

Example C114_plot_file_nonvacuous : let l := [("a", mkImpact "a" 3 (-2) (1/2))] in exists C ops, faithful C /\ save_impacts C (fun _ => true) "out" l = (ops, None).
Proof.
  intros l. exists (table_codec [("2", impacts_json l)]). eexists. split; [apply table_codec_faithful; cbn; repeat constructor; cbn; intuition congruence|]. unfold save_impacts, save_ops. cbn [negb]. unfold flavor_of. cbn [String.eqb Ascii.eqb Bool.eqb orb].
  assert (D : c_dump (table_codec [("2", impacts_json l)]) "json" (impacts_json l) = (["2"], None)); [|rewrite D; reflexivity].
  unfold table_codec. cbn [c_dump find snd]. destruct (jv_eq_dec (JObj (impacts_json l)) (JObj (impacts_json l))); [reflexivity|contradiction].
Qed.
