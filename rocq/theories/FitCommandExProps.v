(** Concrete cases of the theorems of FitCommandProps.v: runs of fit_model on a model with one bin, one POI and one NP. *)
From Coq Require Import ClassicalDedekindReals Classical_Prop.
From Verif Require Import Py PyFacts Base BaseFacts Expressions Norms Sample Channels ChannelFacts Params ParamsFacts Core CoreFacts CoreExample CoreMore CoreMoreProps NpMin UtilFacts PoiMin PoiMinFacts PoiMinProps PoiHistProps TestStat FitData
  ParamsProps UtilProps Calculators CalcFacts CalcProps Scans ModelIO ModelTools UtilTools FileIO FileIOProps Commands CommandChannelProps ScanCommand ScanFacts ScanCommandProps ScanCommandExProps FitCommand FitCommandProps.
Local Open Scope string_scope.
Local Open Scope list_scope.
Local Open Scope R_scope.

Definition fm : Model :=
  mkModel "t" None [("mu", mkPOI (Some "mu") (Some 0) (Some 10) (Some 1) None None)] [("a", mkNP (Some "a") (Some 2) (1/2) None None None None)] []
    [("C", mkChannel "C" (KMulti ["b1"]) [("S", mkSample "S" (ExprNorm "mu") (Some 1) (Some [10]) [("a", JFlt (1/10))]); ("B", mkSample "B" (NumberNorm (Some 1)) (Some 1) (Some [5]) [("a", JFlt 0)])])] [] true true true false 0.
Definition fm_file : dict jv := match model_fill ex_env fm [] with Ok d => d | Err _ => [] end.
Definition fm_pm : PModel := mkPM ["mu"] [("a", 2, 1/2)].
(** an optimization that succeeds if 3 is the minimum *)
Definition em_dec (P : Prop) : {P} + {~ P} := match sig_not_dec P with left n => left (NNPP P n) | right n => right n end.
Definition in_box (ranges : list (option R * option R)) (x : list R) : Prop := Forall2 (fun b y => (forall lo, fst b = Some lo -> lo <= y) /\ (forall hi, snd b = Some hi -> y <= hi)) ranges x.
Definition opt3 : optimizer := fun _ obj _ _ ranges => let! e := obj [3] in match e with
  | Fin v => if em_dec (forall x w, in_box ranges x -> obj x = Ok (Fin w) -> v <= w) then Ok (mkOpt [[3]] true [3] (Fin v)) else Ok (mkOpt [[3]] false [3] (Fin v))
  | _ => Err ValueError end.
Lemma opt3_at_result : at_result opt3.
Proof. intros me obj j x0 b r H. unfold opt3 in H. apply bind_Ok in H as (e & He & H). destruct e as [v| | |]; try discriminate. destruct (em_dec _); injection H as <-; cbn; (split; [exists []; reflexivity|exact He]). Qed.
Lemma opt3_finds : finds_minimum opt3.
Proof. intros me obj j x0 b r v H Hs Hv x w Hb Hx. unfold opt3 in H. apply bind_Ok in H as (e & He & H). destruct e as [v'| | |]; try discriminate. destruct (em_dec _) as [D|D]; injection H as <-; [|discriminate]. injection Hv as ->. exact (D x w Hb Hx). Qed.
Definition g_nll (p : Params) : ext := Fin ((nth 0 (pois p) 0 - 3) * (nth 0 (pois p) 0 - 3)).
Definition g_fit : FitEnv := mkFit (fun _ _ p => Ok (None, p, g_nll p)) (fun _ => false) opt3.
Lemma g_profiles pm : profiles g_fit pm g_nll.
Proof. intros k fl h d p x W H. injection H as <- <- <-. split; [exact W|reflexivity]. Qed.
Definition g_libs (F : FitEnv) : FitLibs := mkFL (fun _ _ _ => F) (fun _ _ _ => Ok (fun _ => 0)) inv12 (mkDist (fun _ => 1/2) (fun _ => 0) (fun _ _ => 1/2)) TypeError.
Definition g_opts (hypo out : option string) : FitOpts := mkFt "m.json" "" hypo out (Some "mu=1") None "scalar" true 1 None None 0.
Definition g_pars : Params := mkPars [3] [0] (Some fm_pm).

Lemma g_loads : exists it data, model_load ex_env (new_model true true) fm_file = Ok (fm, it) /\ i_pm it = fm_pm /\ i_ref_pois it = [1] /\ expected_data fm it [("mu", 1)] = Ok data /\
  exists H, nll_hessian ex_env fm it [3] [0] data = Ok H /\ 0 < H 0%nat 0%nat.
Proof.
  unfold model_load, finish, fm_file, fm. eexists _, _. split; [ev; reflexivity|]. split; [reflexivity|]. split; [reflexivity|]. split; [unfold expected_data, pars_init, pois_from_dict; ev; reflexivity|].
  eexists. split; [ev; reflexivity|]. unfold cut; cbn; rdec; cbn. unfold div0. rewrite (Rmax_left 0 0), (Rmin_left 0 0) by lra. rdec. match goal with |- 0 < ?x => replace x with (60 / 49) by field end. lra.
Qed.
Definition g_zero : R := (3 - 3) * (3 - 3).
Definition gives3 (success : bool) (o : optimizer) : Prop := forall obj j x0, (forall x, obj [x] = Ok (Fin ((x - 3) * (x - 3)))) -> o "scalar" obj j x0 [(Some 0, Some 10)] = Ok (mkOpt [[3]] success [3] (Fin g_zero)).
Lemma opt3_gives : gives3 true opt3.
Proof.
  intros obj j x0 H. unfold opt3. rewrite H. cbn [bind]. fold g_zero. destruct (em_dec _) as [D|D]; [reflexivity|]. exfalso. apply D. intros x w Hb Hx. inversion Hb as [|? y ? l _ Hl]; subst. inversion Hl; subst. rewrite H in Hx. injection Hx as <-. unfold g_zero. pose proof (Rle_0_sqr (y - 3)). unfold Rsqr in *. lra.
Qed.
Lemma topt_gives b : gives3 b (topt b [3]).
Proof. intros obj j x0 H. unfold topt. cbn [mapM bind]. rewrite H. reflexivity. Qed.
Definition g_env (o : optimizer) : FitEnv := mkFit (fun _ _ p => Ok (None, p, g_nll p)) (fun _ => false) o.
Lemma g_minimize b o it h out : i_pm it = fm_pm -> i_ref_pois it = [1] -> gives3 b o -> exists s, minimize fm it (g_env o) (fit_minimizer (g_opts h out)) None = Ok (if b then RNll (Fin g_zero) else RPair, s) /\ mi_min_pars s = Some g_pars.
Proof.
  intros Hp Hr Ho. unfold minimize, set_pois_min. rewrite Hp, Hr. unfold fm, fm_pm. eexists. split.
  - cbn [fit_minimizer mini_init mi_init mi_bounds]. ev. rewrite Ho by (intros x; ev; reflexivity). destruct b; ev; reflexivity.
  - destruct b; reflexivity.
Qed.
Lemma g_inputs C it data h out : load_file C s_fs "m.json" None = Ok fm_file -> model_load ex_env (new_model true true) fm_file = Ok (fm, it) -> expected_data fm it [("mu", 1)] = Ok data -> fit_inputs ex_env C s_pf s_match (g_opts h out) s_fs fm it data.
Proof.
  intros Hl HL HD. split.
  - unfold fit_model, model_load_file. change (ft_model (g_opts h out)) with "m.json". rewrite Hl. cbn [bind]. change (ft_linear (g_opts h out)) with true. rewrite HL. reflexivity.
  - exact HD.
Qed.
Lemma g_best o it h out : i_pm it = fm_pm -> i_ref_pois it = [1] -> gives3 true o -> exists s, best_fit (g_env o) fm it (g_opts h out) = Ok (Fin g_zero, g_pars, s).
Proof. intros Hp Hr Ho. destruct (g_minimize true o it h out Hp Hr Ho) as (s & Hm & Hs). exists s. unfold best_fit. rewrite Hm. cbn [bind]. rewrite Hs. reflexivity. Qed.
Lemma g_results it data : i_pm it = fm_pm -> (exists H, nll_hessian ex_env fm it [3] [0] data = Ok H /\ 0 < H 0%nat 0%nat) -> exists d, fit_results TypeError fm (covariance_matrix inv12 ex_env fm it [3] [0] data) (Fin g_zero) g_pars = Ok d.
Proof.
  intros Hp (H & HH & H0). unfold covariance_matrix. rewrite HH. change (length (m_pois fm)) with 1%nat. unfold inv12. cbv zeta. rewrite (proj2 (Reqb_false _ 0)) by lra. eexists. unfold fit_results, g_pars, fm_pm.
  assert (X : 0 < 1 / H 0%nat 0%nat) by (apply Rdiv_lt_0_compat; lra). unfold correlation_matrix, parabolic_errors, esqrt. cbn -[Rltb]. rewrite (proj2 (Rltb_true _ _) X), (proj2 (Rltb_false (1 / H 0%nat 0%nat) 0)) by lra. cbn. reflexivity.
Qed.
Lemma g_codec d : exists C, faithful C /\ load_file C s_fs "m.json" None = Ok fm_file /\ forall w p f0, w p = true -> flavor_of p (Some "json") = "json" -> exists ops, save_ops C w p (Some "json") d = (ops, None) /\ f0 = f0 :> fs.
Proof.
  exists (table_codec [("1", fm_file); ("2", d)]). split; [apply table_codec_faithful; cbn; repeat constructor; cbn; intuition congruence|]. split; [reflexivity|]. intros w p f0 Hw Hf. unfold save_ops. rewrite Hw, Hf. cbn [negb String.eqb Ascii.eqb Bool.eqb orb].
  assert (P : exists t, c_dump (table_codec [("1", fm_file); ("2", d)]) "json" d = ([t], None)).
  { unfold table_codec. cbn [c_dump find snd]. destruct (jv_eq_dec (JObj fm_file) (JObj d)); [eexists; reflexivity|]. destruct (jv_eq_dec (JObj d) (JObj d)); [eexists; reflexivity|contradiction]. }
  destruct P as [t ->]. eauto.
Qed.
Lemma g_run op h out t : gives3 true op -> (forall it data s, i_pm it = fm_pm -> i_ref_pois it = [1] -> model_load ex_env (new_model true true) fm_file = Ok (fm, it) -> expected_data fm it [("mu", 1)] = Ok data -> best_fit (g_env op) fm it (g_opts h out) = Ok (Fin g_zero, g_pars, s) -> exists hypo, fit_hypo s_pf s_match (g_opts h out) fm = Ok hypo /\ fit_test (g_libs (g_env op)) (fm, it) data s hypo = Ok t) ->
  (forall file, out = Some file -> flavor_of (fit_file file) (Some "json") = "json") ->
  exists C it data ops, faithful C /\ fit_inputs ex_env C s_pf s_match (g_opts h out) s_fs fm it data /\ i_pm it = fm_pm /\ fit_run (g_libs (g_env op)) ex_env C any_path s_pf s_match (g_opts h out) s_fs = (ops, Ok t).
Proof.
  intros Hop Ht Hfl. destruct g_loads as (it & data & HL & Hp & Hr & HD & HH). destruct (g_results it data Hp HH) as [d Hd]. destruct (g_codec d) as (C & HC & Hm & Hs). pose proof (g_inputs C it data h out Hm HL HD) as Hi. destruct (g_best op it h out Hp Hr Hop) as [s Hb].
  destruct (Ht it data s Hp Hr HL HD Hb) as (hypo & Hh & Hte). exists C, it, data. destruct Hi as [H1 H2]. unfold fit_run. rewrite H1. cbn [bind]. rewrite H2. cbn [bind fst snd]. rewrite Hh. cbn [bind]. change (fl_fit (g_libs (g_env op)) fm it data) with (g_env op). rewrite Hb. cbn [bind].
  change (poi_values fm g_pars) with (@Ok (list R) [3]). cbn [bind]. change (fl_inv (g_libs (g_env op))) with inv12. change (fl_imshow (g_libs (g_env op))) with TypeError. change (pois g_pars) with [3]. change (nps g_pars) with [0]. change (ft_out (g_opts h out)) with out.
  destruct out as [file|].
  - rewrite Hd. cbn [bind]. rewrite Hte. cbn [bind]. destruct (Hs any_path (fit_file file) s_fs eq_refl (Hfl file eq_refl)) as (ops & -> & _). exists ops. split; [exact HC|]. split; [split; assumption|]. split; [exact Hp|reflexivity].
  - cbn [bind]. rewrite Hte. cbn [bind]. exists []. split; [exact HC|]. split; [split; assumption|]. split; [exact Hp|reflexivity].
Qed.
Lemma g_run0 out : (forall file, out = Some file -> flavor_of (fit_file file) (Some "json") = "json") ->
  exists C it data ops, faithful C /\ fit_inputs ex_env C s_pf s_match (g_opts None out) s_fs fm it data /\ i_pm it = fm_pm /\ fit_run (g_libs g_fit) ex_env C any_path s_pf s_match (g_opts None out) s_fs = (ops, Ok None).
Proof. apply (g_run opt3); [exact opt3_gives|]. intros it data s _ _ _ _ _. exists None. split; reflexivity. Qed.

Lemma fm_names : NoDup (["mu"] ++ ["a"]).
Proof. repeat constructor; cbn; intuition congruence. Qed.
Lemma fm_free : forall k, In k (keys (m_pois fm)) -> ~ In k reserved.
Proof. intros k [<-|[]] H. cbn in H. intuition congruence. Qed.
Example C112_results_nonvacuous : exists C it data ops, let o := g_opts None (Some "out.json") in faithful C /\ inverts (fl_inv (g_libs g_fit)) /\ output_base o "out" /\ fit_inputs ex_env C s_pf s_match o s_fs fm it data /\ NoDup (pm_pois (i_pm it) ++ np_names (i_pm it)) /\
  (forall k, In k (keys (m_pois fm)) -> ~ In k reserved) /\ profiles (fl_fit (g_libs g_fit) fm it data) (i_pm it) g_nll /\ at_result (f_opt (fl_fit (g_libs g_fit) fm it data)) /\ fit_run (g_libs g_fit) ex_env C any_path s_pf s_match o s_fs = (ops, Ok None).
Proof.
  destruct (g_run0 (Some "out.json")) as (C & it & data & ops & HC & Hi & Hp & H); [intros file [= <-]; reflexivity|]. exists C, it, data, ops. cbv zeta. split; [exact HC|]. split; [exact inv12_inverts|]. split; [left; reflexivity|]. split; [exact Hi|]. split; [rewrite Hp; exact fm_names|].
  split; [exact fm_free|]. split; [exact (g_profiles _)|]. split; [exact opt3_at_result|exact H].
Qed.
Example C112_minimum_nonvacuous : exists C it data ops h, let o := g_opts None (Some "out") in faithful C /\ output_base o "out" /\ fit_inputs ex_env C s_pf s_match o s_fs fm it data /\ NoDup (pm_pois (i_pm it) ++ np_names (i_pm it)) /\
  (forall k, In k (keys (m_pois fm)) -> ~ In k reserved) /\ (forall k po, In (k, po) (m_pois fm) -> exists lo hi, poi_min po = Some lo /\ poi_max po = Some hi /\ lo <= hi) /\ finds_minimum (f_opt (fl_fit (g_libs g_fit) fm it data)) /\
  fit_run (g_libs g_fit) ex_env C any_path s_pf s_match o s_fs = (ops, Ok None) /\ wf h (i_pm it) /\ nps h = repeat 0 (length (pm_nps (i_pm it))) /\ in_ranges fm h /\ f_prof (fl_fit (g_libs g_fit) fm it data) 1 (Some (/ 10000000)) h = Ok (None, h, Fin ((7 - 3) * (7 - 3))).
Proof.
  destruct (g_run0 (Some "out")) as (C & it & data & ops & HC & Hi & Hp & H); [intros file [= <-]; reflexivity|]. exists C, it, data, ops, (mkPars [7] [0] (Some fm_pm)). cbv zeta. split; [exact HC|].
  split; [right; split; [reflexivity|]; intros s E; destruct s as [|c [|c2 [|c3 [|c4 s]]]]; cbn in E; congruence|]. split; [exact Hi|]. split; [rewrite Hp; exact fm_names|].
  split; [exact fm_free|]. split; [intros k po [[= <- <-]|[]]; exists 0, 10; cbn; repeat split; lra|]. split; [exact opt3_finds|]. split; [exact H|]. rewrite Hp. split; [repeat split; reflexivity|]. split; [reflexivity|].
  split; [|reflexivity]. intros k po x [[= <- <-]|[]] Hx. injection Hx as <-. cbn. split; intros y [= <-]; lra.
Qed.

Lemma g_hypo out : fit_hypo s_pf s_match (g_opts (Some "mu=2") out) fm = Ok (Some [("mu", 2)]).
Proof. reflexivity. Qed.
Lemma g_test out : exists st t, forall it d0 data, i_pm it = fm_pm -> i_ref_pois it = [1] -> generate_expected_0 (fl_solver (g_libs g_fit)) fm it data = Ok d0 -> best_fit (g_env (topt true [3])) fm it (g_opts (Some "mu=2") out) = Ok (Fin g_zero, g_pars, st) /\
  fit_test (g_libs (g_env (topt true [3]))) (fm, it) data st (Some [("mu", 2)]) = Ok (Some t).
Proof.
  eexists _, _. intros it d0 data Hp Hr H0. split.
  - unfold best_fit, minimize, set_pois_min. rewrite Hp, Hr. unfold fm, fm_pm. cbn [fit_minimizer mini_init mi_init mi_bounds]. ev. reflexivity.
  - unfold fit_test, compute_fast_q. cbn [fst snd]. 
    change (fl_fit (g_libs (g_env (topt true [3]))) fm it) with (fun _ : Data => g_env (topt true [3])). cbv beta. change (fl_solver (g_libs (g_env (topt true [3])))) with (fl_solver (g_libs g_fit)). rewrite H0. unfold compute_fast_plr, opti_tmu, poi_tmu, set_pois_min, check_hypo. rewrite Hp, Hr. clear H0 Hp Hr. unfold fm, fm_pm. evA. reflexivity.
Qed.
Lemma g_expected : exists it data, model_load ex_env (new_model true true) fm_file = Ok (fm, it) /\ expected_data fm it [("mu", 1)] = Ok data /\ exists d0, generate_expected_0 (fl_solver (g_libs g_fit)) fm it data = Ok d0.
Proof.
  unfold model_load, finish, fm_file, fm. eexists _, _. split; [ev; reflexivity|]. split; [unfold expected_data, pars_init, pois_from_dict; ev; reflexivity|]. unfold generate_expected_0, profile. evA. cbn. rdec. cbn.
  match goal with |- context [if Rltb ?a ?b then _ else _] => destruct (Rltb a b) end; evA; eexists; reflexivity.
Qed.
Lemma g_run2 out : (forall file, out = Some file -> flavor_of (fit_file file) (Some "json") = "json") ->
  exists C it data ops t, let L := g_libs (g_env (topt true [3])) in faithful C /\ fit_inputs ex_env C s_pf s_match (g_opts (Some "mu=2") out) s_fs fm it data /\ i_pm it = fm_pm /\ fit_run L ex_env C any_path s_pf s_match (g_opts (Some "mu=2") out) s_fs = (ops, Ok (Some t)).
Proof.
  intros Hf. destruct g_expected as (it0 & data0 & HL0 & HD0 & d0 & H0). destruct (g_test out) as (st & t & Ht). destruct (g_run (topt true [3]) (Some "mu=2") out (Some t)) as (C & it & data & ops & X).
  - apply topt_gives.
  - intros it data s Hp Hr HL HD HB. exists (Some [("mu", 2)]). split; [apply g_hypo|]. rewrite HL0 in HL. injection HL as ->. rewrite HD0 in HD. injection HD as ->. destruct (Ht it d0 data Hp Hr H0) as [B T]. rewrite HB in B. injection B as ->. exact T.
  - exact Hf.
  - exists C, it, data, ops, t. exact X.
Qed.
Example C112_model_nonvacuous : exists C it, fit_model ex_env C s_pf s_match (mkFt "m.json" "" None None None (Some "mu=1:5") "scalar" true 1 None (Some (1/2)) 0) s_fs = Ok (ModelTools.with_pois (with_cutoff fm (1/2)) [("mu", mkPOI (Some "mu") (Some 1) (Some 5) (Some 1) None None)], it).
Proof.
  destruct g_loads as (it & data & HL & _). destruct (g_codec []) as (C & _ & Hl & _). exists C, it. unfold fit_model, model_load_file. change (load_file C s_fs "m.json" None = Ok fm_file) in Hl. cbn [ft_model ft_linear ft_regularize ft_cutoff ft_setrange]. rewrite Hl. cbn [bind]. rewrite HL. reflexivity.
Qed.
Example C112_dataset_nonvacuous : exists C it data, fit_dataset C s_pf s_match (g_opts None None) s_fs (fm, it) = Ok data /\ ft_data (g_opts None None) = "" /\ ft_asimov (g_opts None None) = Some "mu=1" /\ NoDup (pm_pois (i_pm it)).
Proof.
  destruct (g_run0 None) as (C & it & data & ops & _ & Hi & Hp & _); [discriminate|]. exists C, it, data. split; [exact (proj2 Hi)|]. split; [reflexivity|]. split; [reflexivity|]. rewrite Hp. repeat constructor. intros [].
Qed.
Example C112_only_output_nonvacuous : exists C ops t q, let o := g_opts (Some "mu=2") (Some "out.json") in fit_run (g_libs (g_env (topt true [3]))) ex_env C any_path s_pf s_match o s_fs = (ops, Ok t) /\ output_base o "out" /\ q <> "out.json" /\ ops <> [].
Proof.
  destruct (g_run2 (Some "out.json")) as (C & it & data & ops & t & HC & Hi & Hp & H); [intros file [= <-]; reflexivity|]. exists C, ops, (Some t), "m.json". cbv zeta. split; [exact H|]. split; [left; reflexivity|]. split; [discriminate|].
  destruct (C112_name_clash_refuted _ _ _ _ _ _ (g_opts (Some "mu=2") (Some "out.json")) _ "out" _ _ _ _ _ HC (or_introl eq_refl) Hi H) as (d & l & Hd & _). intros ->. revert Hd. vm_compute. discriminate.
Qed.
Example C112_hypothesis_kept_apart_nonvacuous : exists L C ops t, fit_run L ex_env C any_path s_pf s_match (with_hypo (g_opts None (Some "out.json")) (Some "mu=2")) s_fs = (ops, Ok (Some t)).
Proof.
  destruct (g_run2 (Some "out.json")) as (C & it & data & ops & t & HC & Hi & Hp & H); [intros file [= <-]; reflexivity|]. exists (g_libs (g_env (topt true [3]))), C, ops, t. exact H.
Qed.
Example C112_hypothesis_test_nonvacuous : exists L C it data h v p s ops t, fit_inputs ex_env C s_pf s_match (g_opts (Some "mu=2") (Some "out.json")) s_fs fm it data /\ fit_hypo s_pf s_match (g_opts (Some "mu=2") (Some "out.json")) fm = Ok (Some h) /\
  best_fit (fl_fit L fm it data) fm it (g_opts (Some "mu=2") (Some "out.json")) = Ok (v, p, s) /\ fit_run L ex_env C any_path s_pf s_match (g_opts (Some "mu=2") (Some "out.json")) s_fs = (ops, Ok t) /\ length (m_pois fm) = 1%nat.
Proof.
  destruct (g_run2 (Some "out.json")) as (C & it & data & ops & t & HC & Hi & Hp & H); [intros file [= <-]; reflexivity|]. pose proof H as H'. unfold fit_run in H'. destruct Hi as [Hm Hd]. rewrite Hm in H'. cbn [bind] in H'. rewrite Hd in H'. cbn [bind fst snd] in H'. rewrite g_hypo in H'. cbn [bind] in H'.
  destruct (best_fit (fl_fit (g_libs (g_env (topt true [3]))) fm it data) fm it (g_opts (Some "mu=2") (Some "out.json"))) as [[[v p] s]|e] eqn:Hb; [|cbn [bind] in H'; discriminate].
  exists (g_libs (g_env (topt true [3]))), C, it, data, [("mu", 2)], v, p, s, ops, (Some t). split; [split; assumption|]. split; [apply g_hypo|]. split; [exact Hb|]. split; [exact H|reflexivity].
Qed.
(** the test fails if the likelihood cannot be profiled at the hypothesis *)
Definition g_fails : FitEnv := mkFit (fun _ _ p => if Reqb (nth 0 (pois p) 0) 2 then Err LinAlgError else Ok (None, p, g_nll p)) (fun _ => false) (topt true [3]).
Lemma g_fails_test out : exists st e, forall it data, i_pm it = fm_pm -> i_ref_pois it = [1] -> best_fit g_fails fm it (g_opts (Some "mu=2") out) = Ok (Fin g_zero, g_pars, st) /\ fit_test (g_libs g_fails) (fm, it) data st (Some [("mu", 2)]) = Err e.
Proof.
  eexists _, _. intros it data Hp Hr. split.
  - unfold best_fit, minimize, set_pois_min. rewrite Hp, Hr. unfold fm, fm_pm. cbn [fit_minimizer mini_init mi_init mi_bounds]. ev. reflexivity.
  - unfold fit_test. cbn [fst snd]. change (fl_fit (g_libs g_fails) fm it) with (fun _ : Data => g_fails). cbv beta. unfold opti_tmu, poi_tmu, set_pois_min, check_hypo. rewrite Hp, Hr. unfold fm, fm_pm. ev. reflexivity.
Qed.
Example C112_hypothesis_loses_results_refuted_nonvacuous : exists C it data hypo v p s e, let o := g_opts (Some "mu=2") (Some "out.json") in
  fit_inputs ex_env C s_pf s_match o s_fs fm it data /\ fit_hypo s_pf s_match o fm = Ok hypo /\ best_fit (fl_fit (g_libs g_fails) fm it data) fm it o = Ok (v, p, s) /\ fit_test (g_libs g_fails) (fm, it) data s hypo = Err e.
Proof.
  destruct g_loads as (it & data & HL & Hp & Hr & HD & _). destruct (g_codec []) as (C & _ & Hl & _). destruct (g_fails_test (Some "out.json")) as (st & e & H). destruct (H it data Hp Hr) as [B T].
  exists C, it, data, (Some [("mu", 2)]), (Fin g_zero), g_pars, st, e. cbv zeta. split; [apply g_inputs; assumption|]. split; [apply g_hypo|]. split; assumption.
Qed.
Example C112_iterations_refuted_nonvacuous : exists C ops, fit_run (g_libs g_fit) ex_env C any_path s_pf s_match (with_niter (g_opts None (Some "out.json")) 7) s_fs = (ops, Ok None).
Proof. destruct (g_run0 (Some "out.json")) as (C & it & data & ops & _ & _ & _ & H); [intros file [= <-]; reflexivity|]. exists C, ops. rewrite C112_iterations_refuted. exact H. Qed.
Example C112_regularize_refuted_nonvacuous : exists C it, let o := mkFt "m.json" "" None None None None "scalar" true 1 (Some (1/10)) None 0 in model_load_file ex_env C s_fs (new_model true (ft_linear o)) (ft_model o) None = Ok (fm, it) /\ ft_regularize o = Some (1/10).
Proof.
  destruct g_loads as (it & data & HL & _). destruct (g_codec []) as (C & _ & Hl & _). exists C, it. cbv zeta. split; [|reflexivity]. unfold model_load_file. cbn [ft_model ft_linear]. rewrite Hl. cbn [bind]. rewrite HL. reflexivity.
Qed.
Example C112_failed_fit_nonvacuous : exists C it data s, let o := g_opts None (Some "out.json") in fit_inputs ex_env C s_pf s_match o s_fs fm it data /\ fit_hypo s_pf s_match o fm = Ok None /\
  minimize fm it (fl_fit (g_libs (g_env (topt false [3]))) fm it data) (fit_minimizer o) None = Ok (RPair, s).
Proof.
  destruct g_loads as (it & data & HL & Hp & Hr & HD & _). destruct (g_codec []) as (C & _ & Hl & _). destruct (g_minimize false _ it None (Some "out.json") Hp Hr (topt_gives false)) as (s & Hs & _).
  exists C, it, data, s. cbv zeta. split; [apply g_inputs; assumption|]. split; [reflexivity|exact Hs].
Qed.
Example C112_singular_refuted_nonvacuous : exists L C it data v p s, let o := g_opts None (Some "out.json") in fit_inputs ex_env C s_pf s_match o s_fs fm it data /\ fit_hypo s_pf s_match o fm = Ok None /\
  best_fit (fl_fit L fm it data) fm it o = Ok (v, p, s) /\ covariance_matrix (fl_inv L) ex_env fm it (pois p) (nps p) data = None.
Proof.
  destruct g_loads as (it & data & HL & Hp & Hr & HD & H & HH & _). destruct (g_codec []) as (C & _ & Hl & _). destruct (g_best opt3 it None (Some "out.json") Hp Hr opt3_gives) as [s Hb].
  exists (mkFL (fun _ _ _ => g_fit) (fun _ _ _ => Ok (fun _ => 0)) (fun _ _ => Err LinAlgError) (mkDist (fun _ => 1/2) (fun _ => 0) (fun _ _ => 1/2)) TypeError), C, it, data, (Fin g_zero), g_pars, s.
  cbv zeta. split; [apply g_inputs; assumption|]. split; [reflexivity|]. split; [exact Hb|]. unfold covariance_matrix. cbn [pois nps g_pars]. rewrite HH. reflexivity.
Qed.
(** a run that meets the hypotheses; the theorem assumes nothing about the names, so for a POI called correlation_matrix the file has no entry with its value *)
Example C112_name_clash_refuted_nonvacuous : exists C it data ops, let o := g_opts None (Some "out.json") in faithful C /\ output_base o "out" /\ fit_inputs ex_env C s_pf s_match o s_fs fm it data /\ fit_run (g_libs g_fit) ex_env C any_path s_pf s_match o s_fs = (ops, Ok None).
Proof.
  destruct (g_run0 (Some "out.json")) as (C & it & data & ops & HC & Hi & _ & H); [intros file [= <-]; reflexivity|]. exists C, it, data, ops. cbv zeta. split; [exact HC|]. split; [left; reflexivity|]. split; assumption.
Qed.
