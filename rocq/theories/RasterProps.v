(** Property theorems about saving and loading rasters: C73. *)
From Coq Require Import Permutation.
From Verif Require Import Py PyFacts Base BaseFacts ChannelFacts Params ParamsFacts ParamsProps PoiMin PoiMinFacts FitData FitDataFacts FitDataProps.
Local Open Scope string_scope.
Local Open Scope list_scope.

(** all the values are numbers *)
Definition numeric (d : dict pyval) : Prop := forall k v, In (k, v) d -> exists x, v = VNum x.

Lemma vals_roundtrip d : numeric d -> vals_load (vals_dump d) = Ok d.
Proof.
  unfold vals_load, vals_dump. induction d as [|[k v] d IH]; intros H; cbn; [reflexivity|].
  destruct (H k v (or_introl eq_refl)) as [x ->]. cbn. rewrite IH; [reflexivity|]. intros k' v' Hin. apply (H k' v'). now right.
Qed.
Lemma hypo_roundtrip h : NoDup (keys h) -> hypo_load (hypo_fill h) = Ok h.
Proof.
  intros N. unfold hypo_load, hypo_fill. rewrite (fold_dset_map fst (fun kv : string * R => JFlt (snd kv)) h []) by exact N. cbn [app].
  assert (G : forall l d, NoDup (keys d ++ keys l) -> foldM (fun h kv => match jnum (snd kv) with Some x => Ok (dset (fst kv) x h) | None => Err TypeError end)
     (map (fun kv : string * R => (fst kv, JFlt (snd kv))) l) d = Ok (d ++ l)).
  { clear. induction l as [|[k v] l IH]; intros d N; cbn; [now rewrite app_nil_r|].
    rewrite dset_app_new by (intros F; apply (NoDup_app_disj _ _ k N F); now left).
    rewrite IH; [now rewrite <- app_assoc|]. unfold keys in *. rewrite map_app, <- app_assoc. exact N. }
  apply (G h []), N.
Qed.

(** The points a raster holds for a model [m]: the hypothesis names POIs of the model, each once, the fits have their entries
    under their own names, the fixed fit has the POIs of the hypothesis, all values are numbers, and t_mu is the one of
    the stored fits. *)
Record point_ok (m : PModel) (p : PLR) : Prop := {
  ok_hypo : NoDup (keys (plr_hypo p));
  ok_pois : incl (keys (plr_hypo p)) (pm_pois m);
  ok_free : fit_keyed (plr_free p);
  ok_fixed : fit_keyed (plr_fixed p);
  ok_models : fr_model (plr_free p) = Some m /\ fr_model (plr_fixed p) = Some m;
  ok_incl : incl (keys (plr_hypo p)) (keys (fr_pars (plr_fixed p)));
  ok_full : forall q, plr_full p = Some q -> wf q m;
  ok_ts : numeric (plr_ts p);
  ok_pvs : numeric (plr_pvs p);
  ok_tmu : exists a b, fr_nll (plr_fixed p) = Some a /\ fr_nll (plr_free p) = Some b /\ dget "tmu" (plr_ts p) = Some (VNum (2 * (a - b))) }.

(** same hypothesis, likelihoods, parameters, test statistics and p-values *)
Definition point_same (p p' : PLR) : Prop :=
  plr_hypo p' = plr_hypo p /\ plr_ts p' = plr_ts p /\ plr_pvs p' = plr_pvs p /\
  fr_nll (plr_free p') = fr_nll (plr_free p) /\ fr_nll (plr_fixed p') = fr_nll (plr_fixed p) /\
  fit_pars (plr_free p') = fit_pars (plr_free p) /\ fit_pars (plr_fixed p') = fit_pars (plr_fixed p).

Lemma opt_nums_map (d : dict R) : opt_nums (map (fun kv => (fst kv, JFlt (snd kv))) d) = Ok (map (fun kv => (fst kv, Some (snd kv))) d).
Proof. unfold opt_nums. induction d as [|[k v] d IH]; [reflexivity|]. cbn [map mapM]. rewrite IH. reflexivity. Qed.

(** the full hypothesis of a point after loading: the POIs, and no NP *)
Lemma full_roundtrip q m : wf q m -> NoDup (pm_pois m ++ np_names m) ->
  pars_init (PIDict (map (fun kv => (fst kv, Some (snd kv))) (pars_dict_plain m (pois q) (nps q) false false))) NINone (Some m)
  = Ok (mkPars (pois q) (repeat 0 (length (pm_nps m))) (Some m)).
Proof.
  intros W HN. set (d := pars_dict_plain m (pois q) (nps q) false false).
  assert (ND : NoDup (keys (map (fun kv : string * R => (fst kv, Some (snd kv))) d))).
  { rewrite (keys_map (fun x : R => Some x) d). subst d. unfold pars_dict_plain, dict_of.
    assert (G : forall l (e : dict R), NoDup (keys e) -> NoDup (keys (fold_left (fun d kv => dset (fst kv) (snd kv) d) l e))).
    { clear. induction l as [|a l IH]; intros e H; cbn; [exact H|]. apply IH, NoDup_keys_dset, H. }
    apply G, G. constructor. }
  destruct (C25_built_from_dict (map (fun kv : string * R => (fst kv, Some (snd kv))) d) m (NoDup_app_l _ _ HN) ND) as [A _].
  assert (V : forall n, In n (pm_pois m) -> exists x, dget n (map (fun kv : string * R => (fst kv, Some (snd kv))) d) = Some (Some x) /\ pars_get q n = Ok x).
  { intros n Hn. destruct (pars_dict_plain_get q m false n W HN) as (v & x & Hd & Hg & E & _); [apply in_or_app; now left|].
    exists x. rewrite (dget_map (fun x : R => Some x)). fold d in Hd. rewrite Hd, (E eq_refl). auto. }
  destruct A as (q' & Hq & Hn & G); [intros n Hin; destruct (V n Hin) as (x & ? & _); eauto|].
  rewrite Hq. f_equal. pose proof (pars_init_sizes _ _ _ _ Hq) as (M' & P' & N'). destruct q' as [ps ns mm]. cbn in *. subst mm ns. f_equal.
  apply list_ext_nth; [destruct W as (_ & ? & _); congruence|]. intros i Hi. rewrite P' in Hi. destruct (nth_error_length _ _ Hi) as [n Hn].
  pose proof (nth_error_In _ _ Hn) as Hin. destruct (V n Hin) as (x & Hx & Hg). pose proof (G n x Hin Hx) as Hg'.
  unfold pars_get in Hg, Hg'. cbn in Hg'. rewrite (proj1 W) in Hg. rewrite (nth_index _ _ _ (NoDup_app_l _ _ HN) Hn) in Hg, Hg'. congruence.
Qed.

Lemma dset_same {V} k (v : V) d : dget k d = Some v -> dset k v d = d.
Proof.
  induction d as [|[k' v'] d IH]; cbn; [discriminate|]. destruct (String.eqb_spec k k') as [->|]; [intros [= ->]; reflexivity|]. intros H. now rewrite IH.
Qed.

Lemma plr_roundtrip m p : NoDup (pm_pois m ++ np_names m) -> point_ok m p ->
  exists d p', plr_dump p = Ok d /\ plr_load (Some m) d = Ok p' /\ point_same p p' /\
    (forall q, plr_full p = Some q -> plr_full p' = Some (mkPars (pois q) (repeat 0 (length (pm_nps m))) (Some m))).
Proof.
  intros HN OK. destruct OK as [Nh Hp Kf Kx [Mf Mx] Hi Hfull Nts Npv (a & b & Ha & Hb & Ht)].
  set (d0 := fold_left (fun d kv => dset (fst kv) (fitpar_new (fst kv) (Some (snd kv))) d) (plr_hypo p) []).
  set (dx := fold_left (fun d np => dset (fst np) (reloaded (snd np)) d) (fr_pars (plr_fixed p)) d0).
  set (full' := match plr_full p with Some q => Some (mkPars (pois q) (repeat 0 (length (pm_nps m))) (Some m)) | None => None end).
  set (free' := mkFR (map reload_entry (fr_pars (plr_free p))) (fr_nll (plr_free p)) (Some m)).
  set (fixed' := mkFR dx (fr_nll (plr_fixed p)) (Some m)).
  assert (L : exists d, plr_dump p = Ok d /\ plr_load (Some m) d = Ok (mkPLR (plr_hypo p) free' fixed' (plr_ts p) (plr_pvs p) full' (Some m) None)).
  { assert (Hload : forall full jfull,
       match jfull with None => full = None | Some j => exists e, j = JObj e /\ (let! x := opt_nums e in let! q := pars_init (PIDict x) NINone (Some m) in Ok (Some q)) = Ok full end ->
       plr_load (Some m) (("hypo", JObj (hypo_fill (plr_hypo p))) :: (match jfull with Some j => [("full_hypo", j)] | None => [] end) ++
         [("free_fit", JObj (fit_dump (plr_free p))); ("hypo_fit", JObj (fit_dump (plr_fixed p))); ("test_statistics", JObj (vals_dump (plr_ts p))); ("pvs", JObj (vals_dump (plr_pvs p)))])
       = Ok (mkPLR (plr_hypo p) free' fixed' (plr_ts p) (plr_pvs p) full (Some m) None)).
    { intros full jfull Hj. unfold plr_load.
      set (D := _ :: _).
      assert (D1 : dget "hypo" D = Some (JObj (hypo_fill (plr_hypo p)))) by reflexivity.
      assert (D2 : dget "full_hypo" D = jfull) by (subst D; destruct jfull; reflexivity).
      assert (D3 : dget "free_fit" D = Some (JObj (fit_dump (plr_free p)))) by (subst D; destruct jfull; reflexivity).
      assert (D4 : dget "hypo_fit" D = Some (JObj (fit_dump (plr_fixed p)))) by (subst D; destruct jfull; reflexivity).
      assert (D5 : dget "test_statistics" D = Some (JObj (vals_dump (plr_ts p)))) by (subst D; destruct jfull; reflexivity).
      assert (D6 : dget "pvs" D = Some (JObj (vals_dump (plr_pvs p)))) by (subst D; destruct jfull; reflexivity).
      unfold dgetE. rewrite D1, D2, D3, D4, D5, D6. clearbody D. cbn [bind as_obj]. rewrite (hypo_roundtrip _ Nh). cbn [bind].
      match goal with |- bind ?x _ = _ => assert (x = Ok full) as -> end.
      { destruct jfull as [j|]; [|now rewrite Hj]. destruct Hj as (e & -> & He). cbn [as_obj bind]. exact He. }
      cbn [bind]. rewrite (fit_roundtrip_fresh _ (Some m) Kf). cbn [bind fit_new]. rewrite (fit_roundtrip _ _ Kx). cbn [bind fr_pars fr_model].
      rewrite (vals_roundtrip _ Nts). cbn [bind]. rewrite (vals_roundtrip _ Npv). cbn [bind]. unfold plr_update. cbn [plr_model plr_hypo plr_ts].
      match goal with |- bind (mapM ?F ?l) _ = _ => assert (exists z, mapM F l = Ok z) as [z ->] end.
      { clear - Hp. induction (keys (plr_hypo p)) as [|n l IH]; cbn; [eauto|]. destruct (proj2 (index_In n (pm_pois m))) as [i ->]; [apply Hp; now left|].
        destruct IH as [z ->]; [intros x Hx; apply Hp; now right|]. cbn. eauto. }
      cbn [bind]. unfold dmem. rewrite Ht. reflexivity. }
    unfold plr_dump. destruct (plr_full p) as [q|] eqn:Eq.
    - pose proof (Hfull q eq_refl) as Wq. unfold pars_dict. rewrite (proj1 Wq). cbn [bind].
      eexists. split; [reflexivity|]. apply (Hload _ (Some (JObj (map (fun kv => (fst kv, JFlt (snd kv))) (pars_dict_plain m (pois q) (nps q) false false))))).
      eexists. split; [reflexivity|]. rewrite opt_nums_map. cbn [bind]. rewrite (full_roundtrip q m Wq HN). reflexivity.
    - cbn [bind]. eexists. split; [reflexivity|]. apply (Hload None None). reflexivity. }
  destruct L as (d & Hd & HL). exists d. eexists. split; [exact Hd|]. split; [exact HL|]. split.
  - split; [reflexivity|]. split; [reflexivity|]. split; [reflexivity|]. split; [reflexivity|]. split; [reflexivity|]. cbn [plr_free plr_fixed].
    assert (NP : NoDup (pm_pois m)) by apply (NoDup_app_l _ _ HN).
    split; apply fit_pars_ext; auto; try (intros m' E; cbn in E; injection E as <-; exact NP); try (cbn; congruence).
    + split; cbn [fr_pars free']; [rewrite (keys_map reloaded (fr_pars (plr_free p)) : keys (map reload_entry (fr_pars (plr_free p))) = _); apply Kf|].
      intros n x Hin. apply in_map_iff in Hin as ([n' p'] & E & Hin). inversion E; subst. cbn. apply (proj2 Kf), Hin.
    + intros n. cbn [fr_pars free']. rewrite (dget_map reloaded (fr_pars (plr_free p)) n : dget n (map reload_entry _) = _). destruct (dget n (fr_pars (plr_free p))); reflexivity.
    + pose proof (fold_keyed fst (fun kv : string * R => fitpar_new (fst kv) (Some (snd kv))) (plr_hypo p) (fun _ _ => eq_refl) [] (NoDup_nil _) (fun _ _ F => match F with end)) as K0. cbn zeta in K0. fold d0 in K0.
      apply (fold_keyed fst (fun np : string * FitPar => reloaded (snd np)) (fr_pars (plr_fixed p))); [|apply K0|apply K0]. intros [n q] Hin. cbn. apply (proj2 Kx), Hin.
    + intros n. cbn [fr_pars fixed']. destruct (dget n (fr_pars (plr_fixed p))) as [fp|] eqn:E.
      * subst dx. pose proof (fold_dset_in fst (fun np : string * FitPar => reloaded (snd np)) (fr_pars (plr_fixed p)) d0 (n, fp) (proj1 Kx) (dget_In _ _ _ E)) as F. cbn [fst snd] in F. rewrite F. reflexivity.
      * apply dget_None in E. subst dx. rewrite (fold_dset_get fst (fun np : string * FitPar => reloaded (snd np)) (fr_pars (plr_fixed p)) d0 n) by exact E.
        subst d0. rewrite (fold_dset_get fst (fun kv : string * R => fitpar_new (fst kv) (Some (snd kv))) (plr_hypo p) [] n); [reflexivity|]. intros F. apply E, Hi, F.
  - intros q Eq. cbn. subst full'. now rewrite Eq.
Qed.

(** the invariant of a dictionary of hypotheses: no two keys are the same *)
Fixpoint hkeys_ok {V} (hash : list string -> Z) (d : hdict V) : Prop :=
  match d with [] => True | (h, _) :: d' => (forall h' v, In (h', v) d' -> same_key hash h h' = false) /\ hkeys_ok hash d' end.

Lemma hset_app {V} hash h (v : V) d : (forall h' w, In (h', w) d -> same_key hash h' h = false) -> hset hash h v d = d ++ [(h, v)].
Proof.
  induction d as [|[h' w] d IH]; intros H; cbn; [reflexivity|]. rewrite (H h' w (or_introl eq_refl)). rewrite IH; [reflexivity|]. intros; eapply H; right; eauto.
Qed.

(** with what becomes of the full hypotheses *)
Lemma raster_roundtrip_full : forall hash m r g fm, NoDup (pm_pois m ++ np_names m) ->
  hkeys_ok hash (ra_points r) -> (forall h p, In (h, p) (ra_points r) -> plr_hypo p = h /\ point_ok m p) ->
  raster_set_pois (ra_points r) (Some m) = Ok (ra_pois r) ->
  exists l r', raster_dump r = Ok l /\ raster_load hash [] g fm (Some m) l = Ok r' /\ ra_pois r' = ra_pois r /\
    Forall2 (fun hp hp' => fst hp' = fst hp /\ point_same (snd hp) (snd hp') /\ forall q, plr_full (snd hp) = Some q -> plr_full (snd hp') = Some (mkPars (pois q) (repeat 0 (length (pm_nps m))) (Some m))) (ra_points r) (ra_points r').
Proof.
  intros hash m r g fm HN HK HP Hpois.
  assert (A : forall pts acc, (forall h p, In (h, p) pts -> plr_hypo p = h /\ point_ok m p) -> hkeys_ok hash pts ->
     (forall h p h' p', In (h, p) acc -> In (h', p') pts -> same_key hash h h' = false) ->
     exists l pts', mapM (fun hp : Hypo * PLR => let! d := plr_dump (snd hp) in Ok (JObj d)) pts = Ok l /\
       foldM (fun d j => let! o := as_obj j in let! p := plr_load (Some m) o in Ok (hset hash (plr_hypo p) p d)) l acc = Ok (acc ++ pts') /\
       Forall2 (fun hp hp' => fst hp' = fst hp /\ point_same (snd hp) (snd hp') /\ forall q, plr_full (snd hp) = Some q -> plr_full (snd hp') = Some (mkPars (pois q) (repeat 0 (length (pm_nps m))) (Some m))) pts pts').
  { induction pts as [|[h p] pts IH]; intros acc H HK' HA; cbn [mapM].
    - exists [], []. cbn. rewrite app_nil_r. split; [reflexivity|]. split; [reflexivity|constructor].
    - destruct (H h p (or_introl eq_refl)) as [Eh OK]. destruct HK' as [HK1 HK2].
      destruct (plr_roundtrip m p HN OK) as (d & p' & Hd & Hl & Hs & Hfu).
      assert (Ep : plr_hypo p' = h) by (destruct Hs as (-> & _); exact Eh).
      destruct (IH (acc ++ [(h, p')])) as (l & pts' & Hm' & Hf & HF2); [intros; apply H; now right|exact HK2| |].
      { intros h1 p1 h2 p2 Hin1 Hin2. apply in_app_or in Hin1 as [Hin1|[E|[]]]; [eapply HA; [exact Hin1|right; exact Hin2]|]. inversion E; subst. eapply HK1; exact Hin2. }
      exists (JObj d :: l), ((h, p') :: pts'). cbn [snd]. rewrite Hd. cbn [bind]. rewrite Hm'. cbn [bind]. split; [reflexivity|]. split.
      + cbn [foldM as_obj bind]. rewrite Hl. cbn [bind]. rewrite Ep, hset_app by (intros h' w Hin; eapply HA; [exact Hin|now left]).
        rewrite Hf, <- app_assoc. reflexivity.
      + constructor; [split; [reflexivity|split; [exact Hs|exact Hfu]]|exact HF2]. }
  destruct (A (ra_points r) [] HP HK) as (l & pts' & Hd & Hf & HF); [intros ? ? ? ? []|].
  cbn [app] in Hf. exists l.
  assert (Efst : map fst pts' = map fst (ra_points r)).
  { clear - HF. induction HF as [|x y ? ? [E _] _ IH]; cbn; [reflexivity|]. congruence. }
  assert (T : forall h p, In (h, p) pts' -> exists a b, fr_nll (plr_fixed p) = Some a /\ fr_nll (plr_free p) = Some b /\ dget "tmu" (plr_ts p) = Some (VNum (2 * (a - b)))).
  { clear - HF HP. induction HF as [|[h p] [h' p'] l l' (E & S & _) HF IH]; [intros ? ? []|]. intros h0 p0 [E0|Hin].
    - inversion E0; subst. cbn in *. destruct (HP h p (or_introl eq_refl)) as [_ OK]. destruct (ok_tmu _ _ OK) as (a & b & ? & ? & ?).
      destruct S as (_ & -> & _ & -> & -> & _). eauto.
    - apply IH with (h := h0); auto. intros; apply HP; now right. }
  exists (mkRaster pts' (ra_pois r) (Some m)).
  split; [exact Hd|]. split; [|split; [reflexivity|exact HF]].
  unfold raster_load. rewrite Hf. cbn [bind].
  assert (raster_set_pois pts' (Some m) = Ok (ra_pois r)) as -> by (unfold raster_set_pois in *; rewrite Efst; exact Hpois). cbn [bind].
  match goal with |- bind ?x _ = _ => assert (x = Ok pts') as -> end.
  { destruct g; [|reflexivity]. unfold set_global_best_fit. destruct pts' as [|x [|y l']]; try reflexivity.
    rewrite (proj2 (forallb_forall _ _)); [reflexivity|]. intros [h p] Hin. destruct (T h p Hin) as (a & b & _ & E & _). cbn [snd]. rewrite E. reflexivity. }
  cbn [bind]. match goal with |- bind ?x _ = _ => assert (x = Ok pts') as -> end; [|reflexivity].
  destruct fm; [|reflexivity]. unfold raster_compute_tmu. clear - T. induction pts' as [|[h p] l IH]; [reflexivity|]. cbn [mapM snd fst].
  destruct (T h p (or_introl eq_refl)) as (a & b & Ha & Hb & Ht). unfold compute_tmu at 1. rewrite Ha, Hb. cbn [bind]. rewrite IH by (intros; eapply T; right; eauto). cbn [bind].
  rewrite (dset_same _ _ _ Ht). destruct p; reflexivity.
Qed.

(** C73: a raster with all its values, saved and loaded, has the same points in the same order, each with the same hypothesis,
    likelihoods, scaled parameters, test statistics and p-values, whether or not the best fit and t_mu are recomputed,
    and the same scan parameters. *)
Theorem C73_raster_roundtrip : forall hash m r g fm, NoDup (pm_pois m ++ np_names m) ->
  hkeys_ok hash (ra_points r) -> (forall h p, In (h, p) (ra_points r) -> plr_hypo p = h /\ point_ok m p) ->
  raster_set_pois (ra_points r) (Some m) = Ok (ra_pois r) ->
  exists l r', raster_dump r = Ok l /\ raster_load hash [] g fm (Some m) l = Ok r' /\ ra_pois r' = ra_pois r /\
    Forall2 (fun hp hp' => fst hp' = fst hp /\ point_same (snd hp) (snd hp')) (ra_points r) (ra_points r').
Proof.
  intros hash m r g fm HN HK HP Hpois. destruct (raster_roundtrip_full hash m r g fm HN HK HP Hpois) as (l & r' & A & B & D & HF). exists l, r'. split; [exact A|]. split; [exact B|]. split; [exact D|].
  clear - HF. induction HF as [|a b ? ? (E1 & E2 & _) _ IH]; constructor; auto.
Qed.
Print Assumptions C73_raster_roundtrip.

Definition c73_fit (p : Params) (x : R) : FitResult := match fit_new (Some p) (Some x) (Some ex_pm) None with Ok f => f | Err _ => mkFR [] None None end.
Definition c73_point (v : R) : Hypo * PLR :=
  ([("mu", v)], mkPLR [("mu", v)] (c73_fit ex_pars 5) (c73_fit ex_pars 6) [("tmu", VNum (2 * (6 - 5)))] [("pv", VNum (1 / 3))] (Some ex_pars) (Some ex_pm) None).
Definition c73_raster : Raster := mkRaster [c73_point 0; c73_point 1] ["mu"] (Some ex_pm).

Lemma c73_keyed x : fit_keyed (c73_fit ex_pars x).
Proof.
  assert (W : wf ex_pars ex_pm) by (repeat split). unfold c73_fit. destruct (fit_new (Some ex_pars) (Some x) (Some ex_pm) None) as [f|] eqn:E; [|discriminate].
  apply (fit_new_keyed _ _ _ _ _ W E).
Qed.
Example C73_nonvacuous : forall hash, NoDup (pm_pois ex_pm ++ np_names ex_pm) /\ hkeys_ok hash (ra_points c73_raster) /\
  (forall h p, In (h, p) (ra_points c73_raster) -> plr_hypo p = h /\ point_ok ex_pm p) /\ raster_set_pois (ra_points c73_raster) (Some ex_pm) = Ok (ra_pois c73_raster).
Proof.
  intros hash. split; [cbn; repeat constructor; cbn; intuition discriminate|]. split; [|split; [|reflexivity]].
  - cbn. split; [|split; [intros ? ? []|exact I]]. intros h' v [E|[]]. inversion E; subst. unfold same_key, hypo_eqb. cbn. rewrite (proj2 (Reqb_false _ _)) by lra. apply andb_false_r.
  - assert (G : forall v, plr_hypo (snd (c73_point v)) = fst (c73_point v) /\ point_ok ex_pm (snd (c73_point v))).
    { intros v. split; [reflexivity|]. constructor; try apply c73_keyed; cbn.
      - repeat constructor; cbn; tauto.
      - intros x [<-|[]]. now left.
      - split; reflexivity.
      - intros x [<-|[]]. now left.
      - intros q [= <-]. repeat split.
      - intros k x [E|[]]. inversion E. eauto.
      - intros k x [E|[]]. inversion E. eauto.
      - exists 6, 5. auto. }
    intros h p [E|[E|[]]]; inversion E; subst; apply G.
Qed.

(** False part: a p-value with an uncertainty is a Python tuple, and comes back from the file as a list: the raster then returns
    a list where it returned the number before. *)
Theorem C73_pv_with_error_refuted : forall v e, vals_load (vals_dump [("pv", VPair v e)]) = Ok [("pv", VList [v; e])].
Proof. reflexivity. Qed.
Print Assumptions C73_pv_with_error_refuted.
Theorem C73_value_type_changes_refuted : forall hash m h free fixed v e,
  NoDup (keys h) -> key_value hash (mkRaster [(h, mkPLR h free fixed [] [("pv", VPair v e)] None m None)] [] m) "pv" h = Ok (VNum v) /\
  key_value hash (mkRaster [(h, mkPLR h free fixed [] [("pv", VList [v; e])] None m None)] [] m) "pv" h = Ok (VList [v; e]).
Proof.
  intros hash m h free fixed v e N. unfold key_value. cbn [ra_points hget].
  assert (same_key hash h h = true) as ->. { unfold same_key. rewrite Z.eqb_refl. cbn. apply (hypo_eqb_spec h h N N). reflexivity. }
  split; reflexivity.
Qed.
Print Assumptions C73_value_type_changes_refuted.

(** False part: the full hypothesis (POIs and NPs) of a point loses its NPs: they are all at their nominal value after loading. *)
Theorem C73_full_hypothesis_refuted : forall m p q, NoDup (pm_pois m ++ np_names m) -> point_ok m p -> plr_full p = Some q ->
  exists d p', plr_dump p = Ok d /\ plr_load (Some m) d = Ok p' /\ plr_full p' = Some (mkPars (pois q) (repeat 0 (length (pm_nps m))) (Some m)).
Proof.
  intros m p q HN OK Hq. destruct (plr_roundtrip m p HN OK) as (d & p' & A & B & _ & C). exists d, p'. split; [exact A|]. split; [exact B|]. apply C, Hq.
Qed.
Print Assumptions C73_full_hypothesis_refuted.
Example C73_full_hypothesis_witness : plr_full (snd (c73_point 0)) = Some ex_pars /\ nps ex_pars <> repeat 0 2.
Proof. split; [reflexivity|]. cbn. intros H. injection H as H _. lra. Qed.

(** False part: a raster of a single point has no scan parameters at all, whatever its hypothesis *)
Theorem C73_single_point_refuted : forall h p m, raster_set_pois [(h, p)] m = Ok [].
Proof. reflexivity. Qed.
Print Assumptions C73_single_point_refuted.
