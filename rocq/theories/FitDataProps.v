(** Property theorems about hypotheses, fit results and rasters: C51, C52, C53, C54, C72, C73. *)
From Coq Require Import Permutation.
From Verif Require Import Py PyFacts Base BaseFacts ChannelFacts Params ParamsFacts ParamsProps PoiMin PoiMinFacts FitData FitDataFacts.
Local Open Scope string_scope.
Local Open Scope list_scope.

(** ** C51: hypotheses as dictionary keys *)

(** two hypotheses compare equal exactly when they give the same value to the same parameters *)
Theorem C51_equality_is_same_contents : forall a b, NoDup (keys a) -> NoDup (keys b) ->
  (hypo_eqb a b = true <-> forall k, dget k a = dget k b).
Proof. exact hypo_eqb_spec. Qed.
Print Assumptions C51_equality_is_same_contents.
Example C51_equality_nonvacuous : NoDup (keys [("mu", 1); ("nu", 2)]) /\ hypo_eqb [("mu", 1); ("nu", 2)] [("nu", 2); ("mu", 1)] = true.
Proof.
  split; [repeat constructor; cbn; firstorder discriminate|]. unfold hypo_eqb. cbn. rewrite !(proj2 (Reqb_true _ _)) by reflexivity. reflexivity.
Qed.

(** Equal hypotheses with their parameters in the same order have the same hash, and what is stored under one, in any
    dictionary, is found under the other. Missing: equal hypotheses written in another order. *)
Theorem C51_same_order_found : forall (V : Type) hash a b (v : V) (d : hdict V),
  NoDup (keys a) -> (forall h w, In (h, w) d -> NoDup (keys h)) ->
  keys a = keys b -> (forall k, dget k a = dget k b) ->
  hypo_hash hash a = hypo_hash hash b /\ hget hash b (hset hash a v d) = Some v.
Proof.
  intros V hash a b v d Na Nd Hk He. assert (Nb : NoDup (keys b)) by (rewrite <- Hk; exact Na).
  split; [unfold hypo_hash; now rewrite Hk|].
  assert (S : forall h, NoDup (keys h) -> same_key hash h a = same_key hash h b).
  { intros h Nh. unfold same_key, hypo_hash. rewrite Hk. f_equal.
    apply eq_true_iff_eq. rewrite !hypo_eqb_spec by assumption. split; intros E k; rewrite E; [apply He|symmetry; apply He]. }
  induction d as [|[h w] d IH]; cbn.
  - rewrite <- S by exact Na. unfold same_key. rewrite Z.eqb_refl. cbn. rewrite (proj2 (hypo_eqb_spec a a Na Na)) by reflexivity. reflexivity.
  - destruct (same_key hash h a) eqn:E; cbn; rewrite <- S by (eapply Nd; now left); rewrite E; [reflexivity|].
    apply IH. intros h' w' Hin. eapply Nd. right. exact Hin.
Qed.
Print Assumptions C51_same_order_found.
Example C51_same_order_nonvacuous : let a := [("mu", 1); ("nu", 2)] in NoDup (keys a) /\ keys a = keys [("mu", 1); ("nu", 2)].
Proof. split; [repeat constructor; cbn; firstorder discriminate|reflexivity]. Qed.

(** storing under a hypothesis never changes what is found under a different one, although hashes ignore the values *)
Theorem C51_different_not_confused : forall (V : Type) hash a b (v : V) (d : hdict V),
  NoDup (keys a) -> NoDup (keys b) -> (forall h w, In (h, w) d -> NoDup (keys h)) -> ~ (forall k, dget k a = dget k b) ->
  hget hash b (hset hash a v d) = hget hash b d.
Proof.
  intros V hash a b v d Na Nb Nd Hne. induction d as [|[h w] d IH]; cbn.
  - destruct (same_key hash a b) eqn:E; [|reflexivity]. exfalso. apply andb_true_iff in E as [_ E]. apply Hne, (hypo_eqb_spec a b Na Nb), E.
  - assert (Nh : NoDup (keys h)) by (eapply Nd; now left).
    destruct (same_key hash h a) eqn:E; cbn.
    + destruct (same_key hash h b) eqn:E'; [|reflexivity]. exfalso. apply Hne. apply andb_true_iff in E as [_ E]. apply andb_true_iff in E' as [_ E'].
      intros k. rewrite <- (proj1 (hypo_eqb_spec h a Nh Na) E). apply (proj1 (hypo_eqb_spec h b Nh Nb) E').
    + rewrite IH; [reflexivity|]. intros h' w' Hin. eapply Nd. right. exact Hin.
Qed.
Print Assumptions C51_different_not_confused.
Example C51_different_nonvacuous : ~ (forall k, dget k [("mu", 1)] = dget k [("mu", 2)]).
Proof. intros H. specialize (H "mu"). cbn in H. injection H as H. lra. Qed.

(** False part: for every hash of tuples of names that tells two orders of the names apart, a result stored under a
    hypothesis is not found under the equal hypothesis written in the other order. *)
Theorem C51_other_order_refuted : forall (V : Type) hash a b (v : V), NoDup (keys a) -> Permutation a b ->
  hash (keys a) <> hash (keys b) -> hypo_eqb a b = true /\ hget hash b (hset hash a v []) = None.
Proof.
  intros V hash a b v Na HP Hh. assert (Nb : NoDup (keys b)) by (eapply Permutation_NoDup; [apply Permutation_map, HP|exact Na]).
  split.
  - apply hypo_eqb_spec; auto. intros k. destruct (dget k a) as [x|] eqn:E.
    + symmetry. apply In_dget; [exact Nb|]. eapply Permutation_in; [exact HP|]. apply dget_In, E.
    + symmetry. apply dget_None. apply dget_None in E. intros F. apply E. eapply Permutation_in; [symmetry; apply Permutation_map, HP|exact F].
  - cbn. unfold same_key, hypo_hash. rewrite (proj2 (Z.eqb_neq _ _)) by exact Hh. reflexivity.
Qed.
Print Assumptions C51_other_order_refuted.
Example C51_other_order_nonvacuous : exists hash : list string -> Z, hash ["mu"; "nu"] <> hash ["nu"; "mu"].
Proof. exists (fun l => if string_dec (hd "" l) "mu" then 0%Z else 1%Z). cbn. discriminate. Qed.

(** ** C52: fit results *)

(** Any fit result whose entries carry their own names is saved and loaded with the same likelihood, the same value and
    uncertainty of every parameter, and the same scaled parameters. *)
Theorem C52_roundtrip : forall f, fit_keyed f -> (forall m, fr_model f = Some m -> NoDup (pm_pois m)) ->
  exists f', fit_load (mkFR [] None (fr_model f)) (fit_dump f) = Ok f' /\ fr_nll f' = fr_nll f /\ keys (fr_pars f') = keys (fr_pars f) /\
    (forall n p, dget n (fr_pars f) = Some p -> exists p', dget n (fr_pars f') = Some p' /\ fp_value p' = fp_value p /\ fp_error p' = fp_error p) /\
    fit_pars f' = fit_pars f.
Proof.
  intros f K HN. rewrite fit_roundtrip_fresh by exact K. eexists; split; [reflexivity|]. cbn [fr_nll fr_pars].
  assert (G : forall n, dget n (map reload_entry (fr_pars f)) = option_map reloaded (dget n (fr_pars f))) by (intros; apply (dget_map reloaded)).
  split; [reflexivity|]. split; [apply (keys_map reloaded)|]. split.
  - intros n p Hn. rewrite G, Hn. eexists; split; [reflexivity|split; reflexivity].
  - apply fit_pars_ext; auto.
    + split; cbn [fr_pars]; [rewrite (keys_map reloaded (fr_pars f) : keys (map reload_entry (fr_pars f)) = _); apply K|].
      intros n p Hin. apply in_map_iff in Hin as ([n' p'] & E & Hin). inversion E; subst. cbn. apply (proj2 K), Hin.
    + intros n. cbn. rewrite G. destruct (dget n (fr_pars f)); reflexivity.
Qed.
Print Assumptions C52_roundtrip.

(** The result of a fit, given as the scaled parameters of the minimum: saved and loaded, it gives back exactly these
    scaled parameters and the likelihood value; a hypothesis given with it overrides the POIs it names and nothing else. *)
Theorem C52_fit_roundtrip : forall p m nll f, wf p m -> NoDup (pm_pois m ++ np_names m) ->
  (forall n nom var, In (n, nom, var) (pm_nps m) -> var <> 0) ->
  fit_new (Some p) nll (Some m) None = Ok f ->
  exists f', fit_load (mkFR [] None (Some m)) (fit_dump f) = Ok f' /\ fr_nll f' = nll /\ fit_pars f' = Ok p.
Proof.
  intros p m nll f W HN Hv Hf. destruct (fit_new_keyed _ _ _ _ _ W Hf) as (K & Hnll & Hm).
  destruct (C52_roundtrip f K) as (f' & H1 & H2 & _ & _ & H5).
  { intros m' E. rewrite Hm in E. injection E as <-. apply (NoDup_app_l _ _ HN). }
  rewrite Hm in H1. exists f'. split; [exact H1|]. split; [congruence|]. rewrite H5.
  rewrite (fit_new_form p m nll None W) in Hf. injection Hf as <-.
  set (L := _ ++ _ ++ _) in *.
  assert (NL : NoDup (map fst L)).
  { subst L. rewrite app_nil_r, map_app, !map_map. replace (map (fun x => fst (x, getv p x)) (pm_pois m)) with (pm_pois m) by (symmetry; apply map_id).
    replace (map _ (pm_nps m)) with (np_names m); [exact HN|]. apply map_ext. intros [[? ?] ?]; reflexivity. }
  assert (V : forall n, In n (pm_pois m ++ np_names m) -> exists fp v x,
     dget n (fold_left (fun d kv => dset (fst kv) (fitpar_new (fst kv) (Some (snd kv))) d) L []) = Some fp /\ fp_value fp = Some v /\ stored m n v true = Ok x /\ x = getv p n).
  { intros n Hn.
    assert (exists v, In (n, v) L /\ stored m n v true = Ok (getv p n)) as (v & Hv1 & Hv2).
    { unfold stored. subst L. destruct (index n (pm_pois m)) as [i|] eqn:Hi.
      - exists (getv p n). split; [|reflexivity]. apply in_or_app. left. apply in_map_iff. exists n. split; [reflexivity|]. apply index_In. eauto.
      - destruct (index n (np_names m)) as [i|] eqn:Hj.
        + destruct (nth_error_np m i n (index_nth _ _ _ Hj)) as (nom & var & Hnp). rewrite (nth_error_nth _ _ ("", 0, 0) Hnp).
          exists (unscaled_value nom var (getv p n)). split.
          * apply in_or_app. right. apply in_or_app. left. apply in_map_iff. exists (n, nom, var). split; [reflexivity|]. eapply nth_error_In, Hnp.
          * apply scaled_unscaled. eapply Hv, nth_error_In, Hnp.
        + apply index_None in Hi, Hj. apply in_app_or in Hn as [F|F]; contradiction. }
    exists (fitpar_new n (Some v)), v, (getv p n). split; [|split; [reflexivity|split; [exact Hv2|reflexivity]]].
    apply (fold_dset_in fst (fun kv : string * R => fitpar_new (fst kv) (Some (snd kv))) L [] (n, v) NL Hv1). }
  destruct (fit_pars_spec _ m K eq_refl HN) as (q & Hq & Wq & G).
  { intros n Hn. destruct (V n Hn) as (fp & v & x & A & B & C & _). exists fp, v, x. auto. }
  rewrite Hq. f_equal. apply (pars_ext q p m Wq W HN). intros n Hn. destruct (V n Hn) as (fp & v & x & A & B & C & D).
  rewrite (G n fp v x Hn A B C), (getv_Ok p m n W Hn). congruence.
Qed.
Print Assumptions C52_fit_roundtrip.

Example C52_nonvacuous : exists f, fit_new (Some ex_pars) (Some 12) (Some ex_pm) None = Ok f /\ fit_keyed f /\ wf ex_pars ex_pm /\
  NoDup (pm_pois ex_pm ++ np_names ex_pm) /\ (forall n nom var, In (n, nom, var) (pm_nps ex_pm) -> var <> 0) /\ length (fr_pars f) = 4%nat.
Proof.
  assert (W : wf ex_pars ex_pm) by (repeat split).
  destruct (fit_new (Some ex_pars) (Some 12) (Some ex_pm) None) as [f|] eqn:E; [|discriminate].
  exists f. split; [reflexivity|]. split; [apply (fit_new_keyed _ _ _ _ _ W E)|]. split; [exact W|]. split.
  - cbn. repeat constructor; cbn; intuition discriminate.
  - split; [|injection E as <-; reflexivity]. intros n nom var [H|[H|[]]]; inversion H; lra.
Qed.

(** With a hypothesis: the reloaded parameters have the values of the hypothesis for the POIs it names, and those of the fit
    for all others. *)
Theorem C52_fit_with_hypo_roundtrip : forall p m nll h f, wf p m -> NoDup (pm_pois m ++ np_names m) ->
  (forall n nom var, In (n, nom, var) (pm_nps m) -> var <> 0) ->
  NoDup (keys h) -> incl (keys h) (pm_pois m) ->
  fit_new (Some p) nll (Some m) (Some h) = Ok f ->
  exists f0 f' q, fit_new None None (Some m) (Some h) = Ok f0 /\ fit_load f0 (fit_dump f) = Ok f' /\ fr_nll f' = nll /\ fit_pars f' = Ok q /\
    (forall k v, In (k, v) h -> pars_get q k = Ok v) /\
    (forall n, In n (pm_pois m ++ np_names m) -> ~ In n (keys h) -> pars_get q n = pars_get p n).
Proof.
  intros p m nll h f W HN Hv Nh Hi Hf. destruct (fit_new_keyed _ _ _ _ _ W Hf) as (K & Hnll & Hm).
  set (d0 := fold_left (fun d kv => dset (fst kv) (fitpar_new (fst kv) (Some (snd kv))) d) h []).
  set (d' := fold_left (fun d np => dset (fst np) (reloaded (snd np)) d) (fr_pars f) d0).
  exists (mkFR d0 None (Some m)), (mkFR d' (fr_nll f) (Some m)).
  pose proof (fold_keyed fst (fun kv : string * R => fitpar_new (fst kv) (Some (snd kv))) h (fun _ _ => eq_refl) [] (NoDup_nil _) (fun _ _ F => match F with end)) as K0. cbn zeta in K0. fold d0 in K0.
  assert (K' : fit_keyed (mkFR d' (fr_nll f) (Some m))).
  { apply (fold_keyed fst (fun np : string * FitPar => reloaded (snd np)) (fr_pars f)); [|apply K0|apply K0]. intros [n q] Hin. cbn. apply (proj2 K), Hin. }
  assert (D : forall n, In n (keys (fr_pars f)) -> dget n d' = option_map reloaded (dget n (fr_pars f))).
  { intros n Hn. destruct (dget n (fr_pars f)) as [fp|] eqn:E; [|apply dget_None in E; contradiction].
    apply (fold_dset_in fst (fun np : string * FitPar => reloaded (snd np)) (fr_pars f) d0 (n, fp)); [apply K|apply dget_In, E]. }
  set (val := fun n => match dget n h with Some v => v | None => getv p n end).
  assert (F : forall n, In n (pm_pois m ++ np_names m) -> exists fp v, dget n (fr_pars f) = Some fp /\ fp_value fp = Some v /\ stored m n v true = Ok (val n)).
  { rewrite (fit_new_form p m nll (Some h) W) in Hf. injection Hf as <-. cbn [fr_pars]. intros n Hn. rewrite app_assoc, fold_left_app.
    set (L := _ ++ _). set (dL := fold_left (fun d kv => dset (fst kv) (fitpar_new (fst kv) (Some (snd kv))) d) L []).
    unfold val. destruct (dget n h) as [v|] eqn:Eh.
    - exists (fitpar_new n (Some v)), v. split; [|split; [reflexivity|]].
      + apply (fold_dset_in fst (fun kv : string * R => fitpar_new (fst kv) (Some (snd kv))) h dL (n, v) Nh (dget_In _ _ _ Eh)).
      + unfold stored. destruct (proj2 (index_In n (pm_pois m))) as [i ->]; [|reflexivity]. apply Hi. apply dget_In in Eh. apply (in_map fst) in Eh. exact Eh.
    - apply dget_None in Eh.
      assert (NL : NoDup (map fst L)).
      { subst L. rewrite map_app, !map_map. replace (map (fun x => fst (x, getv p x)) (pm_pois m)) with (pm_pois m) by (symmetry; apply map_id).
        replace (map _ (pm_nps m)) with (np_names m); [exact HN|]. apply map_ext. intros [[? ?] ?]; reflexivity. }
      assert (exists v, In (n, v) L /\ stored m n v true = Ok (getv p n)) as (v & Hv1 & Hv2).
      { unfold stored. subst L. destruct (index n (pm_pois m)) as [i|] eqn:Hi'.
        - exists (getv p n). split; [|reflexivity]. apply in_or_app. left. apply in_map_iff. exists n. split; [reflexivity|]. apply index_In. eauto.
        - destruct (index n (np_names m)) as [i|] eqn:Hj.
          + destruct (nth_error_np m i n (index_nth _ _ _ Hj)) as (nom & var & Hnp). rewrite (nth_error_nth _ _ ("", 0, 0) Hnp).
            exists (unscaled_value nom var (getv p n)). split.
            * apply in_or_app. right. apply in_map_iff. exists (n, nom, var). split; [reflexivity|]. eapply nth_error_In, Hnp.
            * apply scaled_unscaled. eapply Hv, nth_error_In, Hnp.
          + apply index_None in Hi', Hj. apply in_app_or in Hn as [F|F]; contradiction. }
      exists (fitpar_new n (Some v)), v. split; [|split; [reflexivity|exact Hv2]].
      rewrite (fold_dset_get fst (fun kv : string * R => fitpar_new (fst kv) (Some (snd kv))) h) by exact Eh.
      apply (fold_dset_in fst (fun kv : string * R => fitpar_new (fst kv) (Some (snd kv))) L [] (n, v) NL Hv1). }
  destruct (fit_pars_spec _ m K' eq_refl HN) as (q & Hq & Wq & G).
  { intros n Hn. destruct (F n Hn) as (fp & v & A & B & C). exists (reloaded fp), v, (val n). cbn [fr_pars]. rewrite D, A; [auto|].
    apply dget_In in A. apply (in_map fst) in A. exact A. }
  assert (G' : forall n, In n (pm_pois m ++ np_names m) -> pars_get q n = Ok (val n)).
  { intros n Hn. destruct (F n Hn) as (fp & v & A & B & C). apply (G n (reloaded fp) v (val n) Hn); cbn [fr_pars]; auto. rewrite D, A; [reflexivity|].
    apply dget_In in A. apply (in_map fst) in A. exact A. }
  exists q. split; [reflexivity|]. split; [rewrite fit_roundtrip by exact K; reflexivity|]. split; [exact Hnll|]. split; [exact Hq|]. split.
  - intros k v Hk. rewrite G'; [|apply in_or_app; left; apply Hi; apply (in_map fst) in Hk; exact Hk]. unfold val. now rewrite (In_dget _ _ _ Nh Hk).
  - intros n Hn Hk. rewrite G' by exact Hn. unfold val. rewrite (proj2 (dget_None n h) Hk). symmetry. apply (getv_Ok p m n W Hn).
Qed.
Print Assumptions C52_fit_with_hypo_roundtrip.
Example C52_with_hypo_nonvacuous : NoDup (keys [("nu", 7)]) /\ incl (keys [("nu", 7)]) (pm_pois ex_pm) /\
  exists f, fit_new (Some ex_pars) (Some 12) (Some ex_pm) (Some [("nu", 7)]) = Ok f.
Proof.
  split; [repeat constructor; cbn; tauto|]. split; [intros x [<-|[]]; cbn; tauto|]. eexists. reflexivity.
Qed.

(** False part: ranges.  A fit result never stores the ranges and initial values of its parameters (they are None); saved and
    loaded, every range has become [0, 0]. *)
Theorem C52_ranges_refuted : forall p m nll f n fp, wf p m -> fit_new (Some p) nll (Some m) None = Ok f -> dget n (fr_pars f) = Some fp ->
  poi_min (fp_poi fp) = None /\ poi_max (fp_poi fp) = None /\
  exists f' fp', fit_load (mkFR [] None (Some m)) (fit_dump f) = Ok f' /\ dget n (fr_pars f') = Some fp' /\
    poi_min (fp_poi fp') = Some 0 /\ poi_max (fp_poi fp') = Some 0 /\ poi_initial (fp_poi fp') = Some 0.
Proof.
  intros p m nll f n fp W Hf Hn. destruct (fit_new_keyed _ _ _ _ _ W Hf) as (K & _ & Hm).
  assert (E : exists v, fp = fitpar_new n (Some v)).
  { rewrite (fit_new_form p m nll None W) in Hf. injection Hf as <-. cbn [fr_pars] in Hn. revert Hn. set (L := _ ++ _).
    assert (H : forall L (d : dict FitPar), (forall k q, dget k d = Some q -> exists v, q = fitpar_new k (Some v)) ->
       forall k q, dget k (fold_left (fun d kv => dset (fst kv) (fitpar_new (fst kv) (Some (snd kv))) d) L d) = Some q -> exists v, q = fitpar_new k (Some v)).
    { clear. induction L as [|[k v] L IH]; intros d H; cbn; [exact H|]. apply IH. intros k' q. destruct (string_dec k' k) as [->|Hne].
      - rewrite dget_dset_eq. intros [= <-]. eauto.
      - rewrite dget_dset_neq by exact Hne. apply H. }
    apply H. intros k q F. discriminate F. }
  destruct E as [v ->]. split; [reflexivity|]. split; [reflexivity|].
  rewrite fit_roundtrip_fresh by exact K. eexists; eexists. split; [reflexivity|]. cbn [fr_pars].
  split; [rewrite (dget_map reloaded) , Hn; reflexivity|]. cbn. auto.
Qed.
Print Assumptions C52_ranges_refuted.

(** ** C53: the global best fit *)

(** What the code does: every point keeps its own free fit, whatever the option says.  t_mu is then twice the difference
    of the two likelihoods of the same point.  It is non-negative when the free fit of each point is not worse than its
    fixed fit.  Missing: using the best free fit of all the points. *)
Theorem C53_tmu_from_own_fits : forall points g m r h p, raster_new points g true m = Ok r -> In (h, p) (ra_points r) ->
  exists p0 a b, In (h, p0) points /\ fr_nll (plr_fixed p0) = Some a /\ fr_nll (plr_free p0) = Some b /\
    dget "tmu" (plr_ts p) = Some (VNum (2 * (a - b))) /\ plr_free p = plr_free p0 /\ plr_fixed p = plr_fixed p0 /\
    (b <= a -> 0 <= 2 * (a - b)).
Proof.
  intros points g m r h p H Hin. unfold raster_new in H. apply bind_Ok in H as (pts & H1 & H). apply bind_Ok in H as (pts' & H2 & H).
  apply bind_Ok in H as (pois & _ & H). injection H as <-. cbn [ra_points] in Hin.
  assert (pts = points) as ->.
  { destruct g; [|congruence]. unfold set_global_best_fit in H1. destruct points as [|x [|y l]]; try congruence.
    destruct (forallb _ _); congruence. }
  apply mapM_Forall2 in H2. clear H1.
  assert (exists hp, In hp points /\ (let! q := compute_tmu (snd hp) in Ok (fst hp, q)) = Ok (h, p)) as ([h0 p0] & Hi & E).
  { clear - H2 Hin. induction H2 as [|x y l l' A B IH]; [destruct Hin|]. destruct Hin as [->|Hin]; [exists x; split; [now left|exact A]|].
    destruct (IH Hin) as (hp & ? & ?). exists hp. split; [now right|assumption]. }
  apply bind_Ok in E as (q & Eq & E). injection E as <- <-. cbn [snd fst] in *. unfold compute_tmu in Eq.
  destruct (fr_nll (plr_fixed p0)) as [a|] eqn:Ea; [|discriminate]. destruct (fr_nll (plr_free p0)) as [b|] eqn:Eb; [|discriminate]. injection Eq as <-.
  exists p0, a, b. split; [exact Hi|]. split; [exact Ea|]. split; [exact Eb|]. cbn. split; [apply dget_dset_eq|]. split; [reflexivity|]. split; [reflexivity|]. intros. lra.
Qed.
Print Assumptions C53_tmu_from_own_fits.

(** If all free fits have the same likelihood, every point uses the lowest one, and no t_mu is negative when this is a
    lower bound of the fixed fits. *)
Theorem C53_common_free_fit : forall points g m r b h p, raster_new points g true m = Ok r ->
  (forall h p, In (h, p) points -> fr_nll (plr_free p) = Some b) ->
  (forall h p a, In (h, p) points -> fr_nll (plr_fixed p) = Some a -> b <= a) ->
  In (h, p) (ra_points r) -> fr_nll (plr_free p) = Some b /\ exists t, dget "tmu" (plr_ts p) = Some (VNum t) /\ 0 <= t.
Proof.
  intros points g m r b h p H Hb Ha Hin. destruct (C53_tmu_from_own_fits _ _ _ _ _ _ H Hin) as (p0 & a & b' & Hi & A & B & T & F & _ & P).
  pose proof (Hb _ _ Hi) as Hb0. rewrite B in Hb0. injection Hb0 as ->. split; [congruence|]. eexists. split; [exact T|]. apply P. eapply Ha; eauto.
Qed.
Print Assumptions C53_common_free_fit.

Definition c53_fit (x : R) : FitResult := mkFR [] (Some x) (Some ex_pm).
Definition c53_point (v a b : R) : Hypo * PLR := ([("mu", v)], mkPLR [("mu", v)] (c53_fit b) (c53_fit a) [] [] None (Some ex_pm) None).
Example C53_nonvacuous : exists r, raster_new [c53_point 0 7 5; c53_point 1 6 5] true true (Some ex_pm) = Ok r /\ length (ra_points r) = 2%nat.
Proof. eexists. split; reflexivity. Qed.

(** False part: two points, the second with a better free fit.  With the global best fit requested, the first point keeps its
    own free fit and has a negative t_mu, although both fixed fits are above the lowest free fit. *)
Theorem C53_global_best_fit_refuted : exists points r p, raster_new points true true (Some ex_pm) = Ok r /\
  (forall h q a, In (h, q) points -> fr_nll (plr_fixed q) = Some a -> 5 <= a) /\ In ([("mu", 0)], p) (ra_points r) /\
  fr_nll (plr_free p) = Some 10 /\ exists t, dget "tmu" (plr_ts p) = Some (VNum t) /\ t < 0.
Proof.
  exists [c53_point 0 7 10; c53_point 1 6 5]. eexists; eexists. split; [reflexivity|]. split.
  - intros h q a [E|[E|[]]]; inversion E; subst; cbn; intros [= <-]; lra.
  - split; [left; reflexivity|]. split; [reflexivity|]. eexists. split; [reflexivity|]. lra.
Qed.
Print Assumptions C53_global_best_fit_refuted.

(** ** C54: completeness *)

(** Without restriction, a raster is reported filled exactly when every point has a p-value or a test statistic of this name. *)
Theorem C54_is_filled : forall r key, is_filled r key false false = true <->
  forall h p, In (h, p) (ra_points r) -> (exists v, dget key (plr_pvs p) = Some v) \/ exists v, dget key (plr_ts p) = Some v.
Proof.
  intros r key. unfold is_filled. rewrite negb_true_iff. split.
  - intros H h p Hin. destruct (dget key (plr_pvs p)) as [v|] eqn:E; [left; eauto|]. destruct (dget key (plr_ts p)) as [v|] eqn:E'; [right; eauto|]. exfalso.
    rewrite <- not_true_iff_false in H. apply H. apply existsb_exists. exists (h, p). split; [exact Hin|]. cbn. unfold dmem. rewrite E, E'. reflexivity.
  - intros H. apply not_true_iff_false. intros F. apply existsb_exists in F as ([h p] & Hin & F). cbn in F. unfold dmem in F.
    destruct (H h p Hin) as [[v E]|[v E]]; rewrite E in F; cbn in F; [discriminate|]. rewrite andb_comm in F. discriminate.
Qed.
Print Assumptions C54_is_filled.
Example C54_nonvacuous : exists r, is_filled r "pv" false false = false /\ is_filled r "tmu" false false = true /\ ra_points r <> [].
Proof.
  exists (mkRaster [([("mu", 1)], with_ts (snd (c53_point 1 2 1)) [("tmu", VNum 2)])] [] None). split; [reflexivity|]. split; [reflexivity|]. discriminate.
Qed.

(** False part: when only p-values, or only test statistics, are asked for, the answer is always yes. *)
Theorem C54_restricted_refuted : forall r key a b, a = true \/ b = true -> is_filled r key a b = true.
Proof.
  intros r key a b H. unfold is_filled. apply negb_true_iff, not_true_iff_false. intros F. apply existsb_exists in F as ([h p] & _ & F).
  apply andb_true_iff in F as [F1 F2]. apply andb_true_iff in F1 as [_ F1]. apply andb_true_iff in F2 as [_ F2]. destruct H; subst; discriminate.
Qed.
Print Assumptions C54_restricted_refuted.

(** ** C72: Asimov values of a raster *)

(** Rasters with the same hypotheses in the same order: each point gets the t_mu of the Asimov point of its own hypothesis. *)
Theorem C72_asimov_same_order : forall r ra k r', raster_set_asimov r ra k = Ok r' -> map fst (ra_points r) = map fst (ra_points ra) ->
  map fst (ra_points r') = map fst (ra_points r) /\
  forall h p', In (h, p') (ra_points r') -> exists p pa t, In (h, p) (ra_points r) /\ In (h, pa) (ra_points ra) /\
    dget "tmu" (plr_ts pa) = Some t /\ dget k (plr_ts p') = Some t /\ plr_asimov p' = Some pa /\
    (forall k', k' <> k -> dget k' (plr_ts p') = dget k' (plr_ts p)) /\ plr_pvs p' = plr_pvs p /\ plr_free p' = plr_free p /\ plr_fixed p' = plr_fixed p.
Proof.
  intros r ra k r' H HF. unfold raster_set_asimov in H. destruct (_ =? _)%nat eqn:EL; [|discriminate].
  apply bind_Ok in H as (pts & H & E). injection E as <-. cbn [ra_points]. clear EL. revert HF pts H.
  generalize (ra_points ra). induction (ra_points r) as [|[h p] l IH]; intros [|[h' pa] l'] HF pts H; try discriminate.
  - injection H as <-. split; [reflexivity|]. intros ? ? [].
  - cbn in HF. injection HF as <- HF. cbn [zipM snd fst] in H. apply bind_Ok in H as (c & Hc & H). apply bind_Ok in H as (cs & Hcs & H). injection H as <-.
    apply bind_Ok in Hc as (q & Hq & E). injection E as <-. unfold plr_set_asimov in Hq. apply bind_Ok in Hq as (t & Ht & E). injection E as <-.
    destruct (IH l' HF cs Hcs) as [A B]. split; [cbn; congruence|]. intros h0 p' [E|Hin].
    + inversion E; subst. exists p, pa, t. split; [now left|]. split; [now left|]. unfold dgetE in Ht. destruct (dget "tmu" (plr_ts pa)); [|discriminate]. injection Ht as ->.
      split; [reflexivity|]. cbn. split; [apply dget_dset_eq|]. split; [reflexivity|]. split; [intros; apply dget_dset_neq; congruence|auto].
    + destruct (B h0 p' Hin) as (p1 & pa1 & t1 & X & Y & Z). exists p1, pa1, t1. split; [now right|]. split; [now right|]. exact Z.
Qed.
Print Assumptions C72_asimov_same_order.

(** a raster with a different number of points is refused *)
Theorem C72_asimov_wrong_size : forall r ra k, length (ra_points r) <> length (ra_points ra) -> raster_set_asimov r ra k = Err KeyError.
Proof. intros r ra k H. unfold raster_set_asimov. rewrite (proj2 (Nat.eqb_neq _ _) H). reflexivity. Qed.
Print Assumptions C72_asimov_wrong_size.

Definition c72_point (v t : R) : Hypo * PLR := ([("mu", v)], mkPLR [("mu", v)] (c53_fit 0) (c53_fit 0) [("tmu", VNum t)] [] None (Some ex_pm) None).
Example C72_nonvacuous : exists r', raster_set_asimov (mkRaster [c72_point 1 2; c72_point 2 3] [] None) (mkRaster [c72_point 1 4; c72_point 2 5] [] None) "tmu_A0" = Ok r'.
Proof. eexists. reflexivity. Qed.

(** False part: rasters with the same hypotheses in different orders are accepted, and the hypothesis mu = 1 gets the Asimov
    value of mu = 2. *)
Theorem C72_asimov_other_order_refuted : exists r ra r' p', Permutation (map fst (ra_points r)) (map fst (ra_points ra)) /\
  raster_set_asimov r ra "tmu_A0" = Ok r' /\ In ([("mu", 1)], p') (ra_points r') /\
  (forall pa, In ([("mu", 1)], pa) (ra_points ra) -> dget "tmu" (plr_ts pa) = Some (VNum 4)) /\ dget "tmu_A0" (plr_ts p') = Some (VNum 5).
Proof.
  exists (mkRaster [c72_point 1 2; c72_point 2 3] [] None), (mkRaster [c72_point 2 5; c72_point 1 4] [] None). eexists; eexists.
  split; [cbn; apply perm_swap|]. split; [reflexivity|]. split; [left; reflexivity|]. split; [|reflexivity].
  intros pa [E|[E|[]]]; inversion E; [lra|]. reflexivity.
Qed.
Print Assumptions C72_asimov_other_order_refuted.
