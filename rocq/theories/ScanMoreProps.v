(** C75, C77: more on the parameters of a scan and on the stored fits. *)
From Verif Require Import Py PyFacts Base Expressions Norms Sample Channels Params ParamsFacts Core CoreExample NpMin PoiMin PoiMinFacts PoiMinProps PoiHistProps TestStat FitData FitDataFacts Scans Calculators CalcFacts CalcProps.
Local Open Scope string_scope.
Local Open Scope list_scope.
Local Open Scope R_scope.

(** The parameters of a raster: the names shared, in the same order, by all its hypotheses, when there are at least two points; none
    when they differ.  They are POIs of the model. *)
Theorem C75_common_parameters : forall points g fill m r, raster_new points g fill m = Ok r -> (2 <= length points)%nat ->
  ((exists names, forall h p, In (h, p) points -> keys h = names) <-> forall h p, In (h, p) points -> keys h = ra_pois r) /\
  ((forall names, ~ forall h p, In (h, p) points -> keys h = names) -> ra_pois r = []) /\
  (forall n pm, m = Some pm -> In n (ra_pois r) -> In n (pm_pois pm)).
Proof.
  intros points g fill m r H L. unfold raster_new in H. apply bind_Ok in H as (p1 & H1 & H). apply bind_Ok in H as (p2 & H2 & H). apply bind_Ok in H as (pois & H3 & H). injection H as <-. cbn [ra_pois].
  assert (E1 : p1 = points). { destruct g; [|congruence]. unfold set_global_best_fit in H1. destruct points as [|a [|b l]]; try congruence. destruct (forallb _ _); congruence. }
  assert (E2 : map fst p2 = map fst points).
  { subst p1. destruct fill; [|congruence]. unfold raster_compute_tmu in H2. clear -H2. revert p2 H2. induction points as [|[h p] l IH]; intros p2 H2; cbn in H2; [injection H2 as <-; reflexivity|].
    apply bind_Ok in H2 as (x & Hx & H2). apply bind_Ok in H2 as (xs & Hxs & H2). injection H2 as <-. apply bind_Ok in Hx as (q & _ & Hx). injection Hx as <-. cbn. rewrite (IH _ Hxs). reflexivity. }
  unfold raster_set_pois in H3. rewrite E2 in H3. clear H1 H2 E1 E2 p1 p2.
  assert (E : pois = have_compatible_pois (map fst points) /\ forall n pm, m = Some pm -> In n pois -> In n (pm_pois pm)).
  { revert pois H3. induction (have_compatible_pois (map fst points)) as [|n l IH]; intros pois H3; cbn in H3; [injection H3 as <-; split; [reflexivity|intros ? ? _ []]|].
    apply bind_Ok in H3 as (x & Hx & H3). apply bind_Ok in H3 as (xs & Hxs & H3). injection H3 as <-. destruct (IH xs Hxs) as [-> B]. destruct m as [pm|]; [|discriminate].
    destruct (index n (pm_pois pm)) as [i|] eqn:Ei; [|discriminate]. injection Hx as <-. split; [reflexivity|]. intros k pm' [= <-] [<-|Hk]; [apply index_In; eauto|eapply B; eauto]. }
  destruct E as [-> E]. clear H3. destruct points as [|[h0 p0] [|[h1 p1] l]]; cbn in L; try lia.
  set (pts := (h0, p0) :: (h1, p1) :: l) in *. change (map fst pts) with (h0 :: h1 :: map fst l) in *.
  assert (HC : have_compatible_pois (h0 :: h1 :: map fst l) = keys h0 /\ (forall h p, In (h, p) pts -> keys h = keys h0) \/
               have_compatible_pois (h0 :: h1 :: map fst l) = [] /\ exists h p, In (h, p) pts /\ keys h <> keys h0).
  { unfold have_compatible_pois. match goal with |- context [existsb ?f ?k] => destruct (existsb f k) eqn:EX end.
    - right. split; [reflexivity|]. apply existsb_exists in EX as (h & Hh & EX). destruct (list_eq_dec string_dec (keys h) (keys h0)) as [|NE]; [discriminate|].
      change (h1 :: map fst l) with (map fst ((h1, p1) :: l)) in Hh. apply in_map_iff in Hh as ([h' p'] & Eh & Hh). cbn in Eh. subst h'. exists h, p'. split; [right; exact Hh|exact NE].
    - left. split; [reflexivity|]. intros h p [E'|Hin]; [injection E' as <- <-; reflexivity|]. destruct (list_eq_dec string_dec (keys h) (keys h0)) as [|NE]; [assumption|]. exfalso.
      apply not_true_iff_false in EX. apply EX. apply existsb_exists. exists h. split; [change (h1 :: map fst l) with (map fst ((h1, p1) :: l)); apply (in_map fst _ (h, p)), Hin|].
      destruct (list_eq_dec string_dec (keys h) (keys h0)); [contradiction|reflexivity]. }
  destruct HC as [[HC HA]|[HC (h & p & Hin & NE)]]; rewrite HC in *.
  - split; [|split; [|exact E]]; [split; [intros _; exact HA|eauto]|]. intros N. exfalso. apply (N (keys h0)). exact HA.
  - split; [|split; [reflexivity|exact E]]. assert (H0 : In (h0, p0) pts) by (left; reflexivity). split; [|eauto]. intros (names & HN). exfalso. apply NE. rewrite (HN _ _ Hin), (HN _ _ H0). reflexivity.
Qed.
Print Assumptions C75_common_parameters.

(** a two-dimensional scan made without naming its parameters is over the first two of the raster *)
Theorem C75_two_parameters : forall T r key cl ns s, p2_new T r key None None cl ns = Ok s ->
  nth_error (ra_pois r) 0 = Some (p2_poi1 s) /\ nth_error (ra_pois r) 1 = Some (p2_poi2 s) /\ sc_raster (p2_scan s) = r /\ sc_key (p2_scan s) = key.
Proof.
  intros T r key cl ns s H. unfold p2_new in H. apply bind_Ok in H as (sc & Hs & H). apply bind_Ok in H as (a & Ha & H). apply bind_Ok in H as (b & Hb & H).
  unfold scan_new in Hs. destruct (is_filled r key false false); [|discriminate]. injection Hs as <-. unfold find_poi in Ha, Hb. cbn [sc_raster] in *.
  destruct (nth_error (ra_pois r) 0) eqn:E0; [|discriminate]. destruct (nth_error (ra_pois r) 1) eqn:E1; [|discriminate]. injection Ha as ->. injection Hb as ->.
  destruct cl as [c|]; [|destruct ns; [|discriminate]]; injection H as <-; repeat split.
Qed.
Print Assumptions C75_two_parameters.
(** and named parameters are taken as named *)
Theorem C75_named_parameters : forall T r key a b cl ns s, p2_new T r key (Some a) (Some b) cl ns = Ok s -> p2_poi1 s = a /\ p2_poi2 s = b /\ In a (ra_pois r) /\ In b (ra_pois r).
Proof.
  intros T r key a b cl ns s H. unfold p2_new in H. apply bind_Ok in H as (sc & Hs & H). apply bind_Ok in H as (a' & Ha & H). apply bind_Ok in H as (b' & Hb & H).
  unfold scan_new in Hs. destruct (is_filled r key false false); [|discriminate]. injection Hs as <-. unfold find_poi in Ha, Hb. cbn [sc_raster] in *.
  assert (X : forall x, existsb (String.eqb x) (ra_pois r) = true -> In x (ra_pois r)) by (intros x E; apply existsb_exists in E as (y & Hy & E); apply String.eqb_eq in E; subst; exact Hy).
  destruct (existsb (String.eqb a) (ra_pois r)) eqn:E0; [|discriminate]. destruct (existsb (String.eqb b) (ra_pois r)) eqn:E1; [|discriminate]. injection Ha as <-. injection Hb as <-.
  destruct cl as [c|]; [|destruct ns; [|discriminate]]; injection H as <-; repeat split; auto.
Qed.
Print Assumptions C75_named_parameters.

(** ** the two fits stored with a test statistic *)

(** a fit result that holds the parameters of [q]: POI values as they are, NPs in original units, and the likelihood value [v] *)
Definition holds (pm : PModel) (f : FitResult) (q : Params) (v : option ext) : Prop :=
  fr_nll f = match v with Some (Fin x) => Some x | _ => None end /\
  (forall n x, In n (pm_pois pm) -> pars_get q n = Ok x -> exists fp, dget n (fr_pars f) = Some fp /\ fp_value fp = Some x) /\
  (forall n nom var x, In (n, nom, var) (pm_nps pm) -> pars_get q n = Ok x -> exists fp, dget n (fr_pars f) = Some fp /\ fp_value fp = Some (nom + x * var)).

Lemma fit_holds pm q v n f : wf q pm -> NoDup (pm_pois pm ++ np_names pm) -> num_nll v = Ok n -> fit_new (Some q) n (Some pm) None = Ok f -> holds pm f q v.
Proof.
  intros W N HV H. rewrite (fit_new_form q pm n None W) in H. injection H as <-. rewrite app_nil_r. unfold holds. cbn [fr_nll fr_pars].
  set (L := map (fun n => (n, getv q n)) (pm_pois pm) ++ map (fun np : string * R * R => let '(n, nom, var) := np in (n, unscaled_value nom var (getv q n))) (pm_nps pm)).
  assert (K : map fst L = pm_pois pm ++ np_names pm).
  { unfold L. rewrite map_app, !map_map. cbn [fst]. rewrite map_id. f_equal. unfold np_names. apply map_ext. intros [[a b] c]. reflexivity. }
  split; [destruct v as [[x| | |]|]; cbn in HV; congruence|]. split.
  - intros k x Hk Hx. pose proof (fold_dset_in fst (fun kv : string * R => fitpar_new (fst kv) (Some (snd kv))) L [] (k, getv q k) ltac:(rewrite K; exact N)) as G.
    cbn [fst snd] in G. rewrite G; [|apply in_or_app; left; apply (in_map (fun n => (n, getv q n))), Hk]. eexists. split; [reflexivity|]. cbn. unfold getv. rewrite Hx. reflexivity.
  - intros k nom var x Hk Hx. pose proof (fold_dset_in fst (fun kv : string * R => fitpar_new (fst kv) (Some (snd kv))) L [] (k, unscaled_value nom var (getv q k)) ltac:(rewrite K; exact N)) as G.
    cbn [fst snd] in G. rewrite G; [|apply in_or_app; right; apply in_map_iff; exists (k, nom, var); split; [reflexivity|exact Hk]]. eexists. split; [reflexivity|]. cbn. unfold getv. rewrite Hx. reflexivity.
Qed.

(** A single test keeps the two fits behind its t_mu: the free fit with its parameters and likelihood as the free fit, the fit of the
    hypothesis as the hypothesis fit, with t_mu as the test statistic. *)
Theorem C77_stored_fits : forall m I F s h full p s' qf qh, compute_fast_plr m I F s h full = Ok (p, s') -> NoDup (pm_pois (i_pm I) ++ np_names (i_pm I)) ->
  mi_free_pars s' = Some qf -> wf qf (i_pm I) -> mi_hypo_pars s' = Some qh -> wf qh (i_pm I) ->
  holds (i_pm I) (plr_free p) qf (mi_free_nll s') /\ holds (i_pm I) (plr_fixed p) qh (mi_hypo_nll s') /\
  exists t, opti_tmu m I F s h full = Ok (Fin t, s') /\ dget "tmu" (plr_ts p) = Some (VNum t) /\ plr_hypo p = h /\ plr_full p = full.
Proof.
  intros m I F s h full p s' qf qh H N Hf Wf Hh Wh. unfold compute_fast_plr in H. apply bind_Ok in H as (u & _ & H). apply bind_Ok in H as ([t s1] & Ht & H). apply bind_Ok in H as (t0 & Et & H).
  apply bind_Ok in H as (fn & Hfn & H). apply bind_Ok in H as (free & Hfree & H). apply bind_Ok in H as (hn & Hhn & H). apply bind_Ok in H as (fixed & Hfixed & H). apply bind_Ok in H as (p' & Hp & H). injection H as <- <-.
  rewrite Hf in Hfree. rewrite Hh in Hfixed.
  unfold plr_update in Hp. apply bind_Ok in Hp as (w & _ & Hp). cbn in Hp. injection Hp as <-. cbn [plr_free plr_fixed plr_ts plr_hypo plr_full].
  split; [eapply fit_holds; eassumption|]. split; [eapply fit_holds; eassumption|]. exists t0. destruct t as [x| | |]; cbn in Et; try discriminate. injection Et as <-. repeat split. exact Ht.
Qed.
Print Assumptions C77_stored_fits.
Example C77_stored_fits_nonvacuous : exists I p s' qf qh, set_internal_vars ex_env (tmod (Some 0) (Some 10)) = Ok I /\
  compute_fast_plr (tmod (Some 0) (Some 10)) I (tfit (topt true [3])) (tmini "scalar") [("mu", 5)] None = Ok (p, s') /\ NoDup (pm_pois (i_pm I) ++ np_names (i_pm I)) /\
  mi_free_pars s' = Some qf /\ wf qf (i_pm I) /\ pars_get qf "mu" = Ok 3 /\ mi_hypo_pars s' = Some qh /\ wf qh (i_pm I) /\ pars_get qh "mu" = Ok 5.
Proof.
  destruct (tmod_built (Some 0) (Some 10)) as (I & H & Hp & Hr). exists I. eexists _, _, _, _. split; [exact H|].
  split; [unfold compute_fast_plr, opti_tmu, poi_tmu, set_pois_min, check_hypo; rewrite Hp, Hr; ev; reflexivity|]. rewrite Hp. split; [cbn; repeat constructor; cbn; intuition congruence|]. repeat split; reflexivity.
Qed.
Definition npt (k : string) (v : R) : Hypo * PLR := ([(k, v); ("nu", 0)], mkPLR [(k, v); ("nu", 0)] (mkFR [] (Some 1) None) (mkFR [] (Some 2) None) [] [] None None None).
Example C75_common_parameters_nonvacuous : exists r r', raster_new [npt "mu" 1; npt "mu" 2] true true (Some (mkPM ["nu"; "mu"] [])) = Ok r /\ ra_pois r = ["mu"; "nu"] /\
  raster_new [npt "mu" 1; npt "xi" 2] true true (Some (mkPM ["nu"; "mu"] [])) = Ok r' /\ ra_pois r' = [] /\
  forall T, exists s, p2_new T r "tmu" None None (Some (9 / 10)) None = Ok s /\ p2_poi1 s = "mu" /\ p2_poi2 s = "nu".
Proof. eexists _, _. split; [reflexivity|]. split; [reflexivity|]. split; [reflexivity|]. split; [reflexivity|]. intros T. eexists. split; [reflexivity|]. split; reflexivity. Qed.
