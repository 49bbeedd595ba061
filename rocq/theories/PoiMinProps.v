(** C31-C34, C55, C70: bounds and POI minimizers. *)
From Verif Require Import Py PyFacts Base Expressions Norms Sample Channels Params ParamsFacts Core CoreFacts CoreExample NpMin PoiMin PoiMinFacts.
Local Open Scope string_scope.
Local Open Scope list_scope.

(** ** C55: bounds *)

Definition accepts (b : ParBound) (v : R) : Prop := test_value b v = true.

(** a bound accepts exactly the values of the closed interval; an absent end does not constrain *)
Theorem C55_test_value : forall n lo hi v, accepts (mkPB n lo hi) v <-> (forall x, lo = Some x -> x <= v) /\ (forall y, hi = Some y -> v <= y).
Proof. intros. apply test_value_within. Qed.
Print Assumptions C55_test_value.

Lemma pb_and_same a b : pb_par a = pb_par b -> exists c, pb_and a b = Some c /\ pb_par c = pb_par a /\
  pb_min c = (match pb_min b with None => pb_min a | Some y => match pb_min a with None => Some y | Some x => Some (Rmax x y) end end) /\
  pb_max c = (match pb_max b with None => pb_max a | Some y => match pb_max a with None => Some y | Some x => Some (Rmin x y) end end).
Proof. intros E. unfold pb_and. rewrite E, String.eqb_refl. cbn. eexists. rewrite <- E. repeat split; reflexivity. Qed.

(** the intersection of bounds on the same parameter accepts exactly what both accept; there is none for different parameters *)
Theorem C55_intersection : forall a b, (pb_par a = pb_par b -> exists c, pb_and a b = Some c /\ pb_par c = pb_par a /\ forall v, accepts c v <-> accepts a v /\ accepts b v) /\
  (pb_par a <> pb_par b -> pb_and a b = None).
Proof.
  intros a b. split.
  - intros E. destruct (pb_and_same a b E) as (c & Hc & Hp & Hmin & Hmax). exists c. split; [exact Hc|]. split; [exact Hp|]. intros v. unfold accepts. rewrite !test_value_within. unfold within.
    rewrite Hmin, Hmax. clear. destruct (pb_min a) as [x|], (pb_min b) as [x'|], (pb_max a) as [y|], (pb_max b) as [y'|];
    (split; [intros [H1 H2]; repeat split; intros z Hz; try discriminate; injection Hz as <-;
             first [apply H1; reflexivity | apply H2; reflexivity | specialize (H1 _ eq_refl) | idtac]; first [apply H1; reflexivity | apply H2; reflexivity | idtac]
            |intros [[H1 H2] [H3 H4]]; split; intros z Hz; try discriminate; injection Hz as <-; auto using Rmax_lub, Rmin_glb]).
    all: try (specialize (H1 _ eq_refl)); try (specialize (H2 _ eq_refl)).
    all: try (pose proof (Rmax_l x x')); try (pose proof (Rmax_r x x')); try (pose proof (Rmin_l y y')); try (pose proof (Rmin_r y y')); lra.
  - intros E. unfold pb_and. destruct (String.eqb_spec (pb_par a) (pb_par b)); [contradiction|reflexivity].
Qed.
Print Assumptions C55_intersection.

Theorem C55_commutative : forall a b, pb_and a b = pb_and b a.
Proof.
  intros [pa la ha] [pb lb hb]. unfold pb_and. cbn. rewrite (String.eqb_sym pb pa). destruct (String.eqb_spec pa pb) as [->|]; cbn; [|reflexivity].
  f_equal. f_equal; destruct la, lb, ha, hb; try reflexivity; f_equal; first [apply Rmax_comm|apply Rmin_comm].
Qed.
Print Assumptions C55_commutative.
Definition pb_and_opt (a b : option ParBound) : option ParBound := match a, b with Some x, Some y => pb_and x y | _, _ => None end.
Theorem C55_associative : forall a b c, pb_and_opt (pb_and a b) (Some c) = pb_and_opt (Some a) (pb_and b c).
Proof.
  intros [pa la ha] [pb lb hb] [pc lc hc]. unfold pb_and_opt, pb_and. cbn.
  destruct (String.eqb_spec pa pb) as [E1|H1]; cbn; destruct (String.eqb_spec pb pc) as [E2|H2]; cbn; try reflexivity.
  - subst. rewrite !String.eqb_refl. cbn. f_equal. f_equal; destruct la, lb, lc, ha, hb, hc; try reflexivity; f_equal; first [apply Rmax_assoc|symmetry; apply Rmax_assoc|apply Rmin_assoc|symmetry; apply Rmin_assoc].
  - destruct (String.eqb_spec pa pc); [congruence|reflexivity].
  - destruct (String.eqb_spec pa pb); [congruence|reflexivity].
Qed.
Print Assumptions C55_associative.
Theorem C55_idempotent : forall a, pb_and a a = Some a.
Proof.
  intros [p l h]. unfold pb_and. cbn. rewrite String.eqb_refl. cbn. f_equal. f_equal; [destruct l|destruct h]; try reflexivity; f_equal; first [apply Rmax_left; lra|apply Rmin_left; lra].
Qed.
Print Assumptions C55_idempotent.
Theorem C55_unset_neutral : forall a, pb_and a (mkPB (pb_par a) None None) = Some a /\ pb_and (mkPB (pb_par a) None None) a = Some a /\ forall v, accepts (mkPB (pb_par a) None None) v.
Proof.
  intros [p l h]. split; [|split; [|reflexivity]]; unfold pb_and; cbn; rewrite String.eqb_refl; cbn; [reflexivity|]. destruct l, h; reflexivity.
Qed.
Print Assumptions C55_unset_neutral.
(** two-sided bounds: fixed exactly for equal ends, free exactly for a non-empty interior *)
Theorem C55_fixed_free : forall n x y, (is_fixed (mkPB n (Some x) (Some y)) = true <-> x = y) /\ (is_free (mkPB n (Some x) (Some y)) = Ok true <-> x < y) /\
  (is_free (mkPB n (Some x) (Some y)) = Ok false <-> y <= x).
Proof.
  intros. unfold is_fixed, is_free. cbn. rewrite Reqb_true. split; [tauto|].
  split; (split; [intros H; injection H as H; (apply Rltb_true in H || apply Rltb_false in H); lra|intros H; f_equal; (apply Rltb_true || apply Rltb_false); lra]).
Qed.
Print Assumptions C55_fixed_free.
(** Refuted: an unset bound is not "free": without bounds the parameter is reported as fixed, and asking whether it is
    free raises TypeError when any end is absent *)
Theorem C55_unset_is_fixed_refuted : (forall n, is_fixed (mkPB n None None) = true) /\ forall n lo hi, lo = None \/ hi = None -> is_free (mkPB n lo hi) = Err TypeError.
Proof. split; [reflexivity|]. intros n lo hi [-> | ->]; [reflexivity|]. unfold is_free. cbn. destruct lo; reflexivity. Qed.
Print Assumptions C55_unset_is_fixed_refuted.
Example C55_nonvacuous : exists c, pb_and (mkPB "mu" (Some 0) None) (mkPB "mu" (Some (-1)) (Some 3)) = Some c /\ c = mkPB "mu" (Some 0) (Some 3) /\ accepts c 2 /\ ~ accepts c 4.
Proof.
  eexists. split; [reflexivity|]. split; [cbn; do 3 f_equal; apply Rmax_left; lra|]. cbn. rewrite (Rmax_left 0 (-1)) by lra. split; [apply test_value_within; split; cbn; intros ? [= <-]; lra|].
  intros H. apply test_value_within in H as [_ H]. specialize (H 3 eq_refl). lra.
Qed.

(** ** C31: initialization of the POIs *)

Definition init_ok (I : Internal) (init : option Params) : Prop := match init with Some q => wf q (i_pm I) | None => True end.
(** every range given by the model or the caller is non-empty *)
Definition ranges_ok (m : Model) (bounds : option (list ParBound)) : Prop :=
  (forall k po x y, In (k, po) (m_pois m) -> poi_min po = Some x -> poi_max po = Some y -> x <= y) /\
  (forall l b x y, bounds = Some l -> In b l -> pb_min b = Some x -> pb_max b = Some y -> x <= y).

Lemma in_fold_dset {A V} (key : A -> string) (f : A -> V) l : forall d x, In x (fold_left (fun d a => dset (key a) (f a) d) l d) -> In x d \/ exists a, In a l /\ snd x = f a.
Proof.
  induction l as [|a l IH]; intros d x H; cbn in H; [auto|]. apply IH in H as [H|(a' & Ha & E)]; [|right; exists a'; cbn; auto].
  apply In_dset in H as [->|H]; [right; exists a; cbn; auto|auto].
Qed.
Lemma all_bounds_proper m bounds hypo fx bs : ranges_ok m bounds -> all_bounds m bounds hypo fx = Ok bs -> forall b, In b (values bs) -> proper b.
Proof.
  intros [H1 H2] H b Hb. apply in_map_iff in Hb as ([k b'] & E & Hb). cbn in E. subst b'. unfold all_bounds in H.
  set (d1 := match bounds with None => _ | Some _ => _ end) in H.
  assert (K : forall k b, In (k, b) d1 -> proper b).
  { clear -H1 H2. intros k b Hb. assert (M : In (k, b) (model_bounds m) -> proper b).
    { intros Hm. apply in_map_iff in Hm as ([k' po] & E & Hm). injection E as <- <-. intros x y. cbn. apply (H1 k' po x y Hm). }
    subst d1. destruct bounds as [l|]; [|apply M, Hb]. apply in_fold_dset in Hb as [Hb|(a & Ha & E)]; [apply M, Hb|]. cbn in E. subst b. intros x y. cbn. apply (H2 l a x y eq_refl Ha). }
  destruct fx; [|injection H as <-; apply (K k), Hb]. destruct hypo as [h|]; [|discriminate]. injection H as <-. apply in_fold_dset in Hb as [Hb|(a & Ha & E)]; [apply (K k), Hb|].
  cbn in E. subst b. intros x y. cbn. intros [= <-] [= <-]. lra.
Qed.

(** the initial values satisfy the bounds, whenever the ranges are not empty *)
Theorem C31_initial_values_in_bounds : forall m I init bounds hypo fx p bs, NoDup (keys (m_pois m)) -> init_ok I init -> ranges_ok m bounds ->
  set_pois_min m I init bounds hypo fx = Ok (p, bs) -> forall k b, In (k, b) bs -> exists v, pars_get p k = Ok v /\ within b v.
Proof.
  intros m I init bounds hypo fx p bs ND Hi R H k b Hb. destruct (set_pois_inv _ _ _ _ _ _ _ _ Hi H) as (p0 & p1 & W0 & _ & Hh & Hab & Hr).
  pose proof (all_bounds_keyed _ _ _ _ _ ND Hab) as K. pose proof (all_bounds_proper _ _ _ _ _ R Hab) as P.
  assert (W1 : wf p1 (i_pm I)).
  { destruct hypo as [h|]; [|congruence]. clear -Hh W0. revert p0 W0 Hh. induction h as [|[k v] h IH]; intros p0 W0 Hh; cbn [foldM] in Hh; [congruence|].
    apply bind_Ok in Hh as (q & H1 & Hh). pose proof (pars_set_spec p0 _ k v false W0) as S. cbn [fst snd] in H1. destruct (stored (i_pm I) k v false); [|rewrite S in H1; discriminate].
    destruct S as (q' & Hq & W' & _). rewrite Hq in H1. injection H1 as <-. apply (IH _ W' Hh). }
  destruct (repair_all (i_pm I) (values bs) p1 p W1) as (_ & A & _); [rewrite keyed_pars by exact K; apply K|exact Hr|].
  assert (Hin : In b (values bs)) by (apply (in_map snd) in Hb; exact Hb). destruct (A b Hin) as (v0 & v & _ & Hv & C). destruct K as [_ K]. rewrite (K k b Hb) in Hv. exists v. split; [exact Hv|].
  destruct C as [[C ->]|[C M]]; [exact C|]. unfold middle in M. specialize (P b Hin). unfold proper in P. destruct (pb_min b) as [x|] eqn:Ex; [|discriminate]. destruct (pb_max b) as [y|] eqn:Ey; [|discriminate].
  injection M as <-. specialize (P x y eq_refl eq_refl). split; intros z; rewrite ?Ex, ?Ey; intros [= <-]; lra.
Qed.
Print Assumptions C31_initial_values_in_bounds.

(** The requested value of a parameter: that of the hypothesis, else that of the given starting point, else that of the
    model.  It is kept whenever it satisfies the bound. *)
Theorem C31_valid_values_kept : forall m I init bounds h fx p bs k v b, NoDup (keys (m_pois m)) -> init_ok I init -> NoDup (keys h) ->
  set_pois_min m I init bounds (Some h) fx = Ok (p, bs) -> In (k, b) bs -> within b v ->
  (In (k, v) h \/ (~ In k (keys h) /\ match init with Some q => pars_get q k = Ok v | None => exists i, index k (pm_pois (i_pm I)) = Some i /\ nth_error (i_ref_pois I) i = Some v end)) ->
  pars_get p k = Ok v.
Proof.
  intros m I init bounds h fx p bs k v b ND Hi Nh H Hb Hw Hv. destruct (set_pois_inv _ _ _ _ _ _ _ _ Hi H) as (p0 & p1 & W0 & E0 & Hh & Hab & Hr).
  pose proof (all_bounds_keyed _ _ _ _ _ ND Hab) as K. destruct (set_each (i_pm I) h p0 p1 W0 Nh Hh) as (W1 & A1 & B1).
  destruct (repair_all (i_pm I) (values bs) p1 p W1) as (_ & A & _); [rewrite keyed_pars by exact K; apply K|exact Hr|].
  assert (Hin : In b (values bs)) by (apply (in_map snd) in Hb; exact Hb). destruct (A b Hin) as (v0 & v' & Hv0 & Hv' & C). destruct K as [_ K]. rewrite (K k b Hb) in *.
  assert (Ev : pars_get p1 k = Ok v).
  { destruct Hv as [Hv|(Hn & Hv)]; [apply A1, Hv|]. rewrite B1 by exact Hn. destruct init as [q|]; [congruence|]. destruct Hv as (i & Hi1 & Hi2).
    unfold pars_get. rewrite (proj1 W0), Hi1, E0. unfold lget. rewrite Hi2. reflexivity. }
  rewrite Ev in Hv0. injection Hv0 as <-. destruct C as [[_ ->]|[C _]]; [exact Hv'|contradiction].
Qed.
Print Assumptions C31_valid_values_kept.

(** the parameters of a fixed hypothesis have a zero-width range at the value of the hypothesis, which is their initial value *)
Theorem C31_fixed_hypothesis : forall m I init bounds h p bs k v, NoDup (keys (m_pois m)) -> init_ok I init -> NoDup (keys h) ->
  set_pois_min m I init bounds (Some h) true = Ok (p, bs) -> In (k, v) h -> dget k bs = Some (mkPB k (Some v) (Some v)) /\ pars_get p k = Ok v.
Proof.
  intros m I init bounds h p bs k v ND Hi Nh H Hk. destruct (set_pois_inv _ _ _ _ _ _ _ _ Hi H) as (p0 & p1 & W0 & E0 & Hh & Hab & Hr).
  assert (G : dget k bs = Some (mkPB k (Some v) (Some v))).
  { cbn in Hab. injection Hab as <-. apply (fold_dset_in fst (fun kv : string * R => mkPB (fst kv) (Some (snd kv)) (Some (snd kv))) h _ (k, v) Nh Hk). }
  split; [exact G|]. apply (C31_valid_values_kept m I init bounds h true p bs k v (mkPB k (Some v) (Some v)) ND Hi Nh H).
  - apply dget_In, G.
  - split; cbn; intros ? [= <-]; lra.
  - left. exact Hk.
Qed.
Print Assumptions C31_fixed_hypothesis.

(** every POI that is neither fixed nor given a bound keeps the range of the model, and a given bound replaces it *)
Theorem C31_model_range_kept : forall m I init bounds hypo fx p bs k po, NoDup (keys (m_pois m)) -> init_ok I init ->
  set_pois_min m I init bounds hypo fx = Ok (p, bs) -> In (k, po) (m_pois m) -> (fx = true -> forall h, hypo = Some h -> ~ In k (keys h)) ->
  (match bounds with None => True | Some l => ~ In k (map pb_par l) end -> dget k bs = Some (mkPB k (poi_min po) (poi_max po))) /\
  (forall l b, bounds = Some l -> NoDup (map pb_par l) -> In b l -> pb_par b = k -> dget k bs = Some b).
Proof.
  intros m I init bounds hypo fx p bs k po ND Hi H Hk Hf. destruct (set_pois_inv _ _ _ _ _ _ _ _ Hi H) as (p0 & p1 & W0 & E0 & Hh & Hab & Hr).
  unfold all_bounds in Hab. set (d1 := match bounds with None => _ | Some _ => _ end) in Hab.
  assert (E : dget k bs = dget k d1).
  { destruct fx; [|injection Hab as <-; reflexivity]. destruct hypo as [h|]; [|discriminate]. injection Hab as <-.
    apply (fold_dset_get fst (fun kv : string * R => mkPB (fst kv) (Some (snd kv)) (Some (snd kv))) h d1 k). apply Hf; reflexivity. }
  assert (M : dget k (model_bounds m) = Some (mkPB k (poi_min po) (poi_max po))).
  { apply In_dget; [apply keyed_model, ND|]. unfold model_bounds. apply in_map_iff. exists (k, po). auto. }
  rewrite E. subst d1. split.
  - intros Hb. destruct bounds as [l|]; [|exact M]. rewrite (fold_dset_get pb_par (fun b => mkPB (pb_par b) (pb_min b) (pb_max b)) l); [exact M|exact Hb].
  - intros l b -> Nl Hb <-. rewrite (fold_dset_in pb_par (fun b => mkPB (pb_par b) (pb_min b) (pb_max b)) l _ b Nl Hb). destruct b; reflexivity.
Qed.
Print Assumptions C31_model_range_kept.

Lemma pmodel_pois m pm : pmodel_of m = Ok pm -> pm_pois pm = keys (m_pois m) /\ np_names pm = keys (m_nps m).
Proof.
  unfold pmodel_of. intros H. apply bind_Ok in H as (l & Hl & H). injection H as <-. split; [reflexivity|]. unfold np_names. cbn [pm_nps].
  apply mapM_Forall2 in Hl. clear -Hl. unfold keys. induction Hl as [|[k n] b l l' H _ IH]; [reflexivity|]. cbn in *. rewrite IH. f_equal. destruct (np_nominal n); [|discriminate]. injection H as <-. reflexivity.
Qed.
Lemma index_none k l : index k l = None -> ~ In k l.
Proof.
  induction l as [|a l IH]; intros E; [intros []|]. cbn in E. destruct (String.eqb_spec k a); [discriminate|]. intros [->|H]; [congruence|]. destruct (index k l); [discriminate|]. apply IH; auto.
Qed.
Lemma stored_known pm k v : In k (pm_pois pm ++ np_names pm) -> stored pm k v false = Ok v.
Proof.
  intros H. unfold stored. destruct (index k (pm_pois pm)) eqn:E1; [reflexivity|]. destruct (index k (np_names pm)) eqn:E2.
  - destruct (nth n (pm_nps pm) ("", 0, 0)) as [[? ?] ?]. reflexivity.
  - apply index_none in E1, E2. apply in_app_or in H. tauto.
Qed.
(** With two-sided ranges and known parameter names, the initialization always succeeds *)
Theorem C31_initialization_succeeds : forall E m I init bounds (hypo : option (dict R)) fx, set_internal_vars E m = Ok I -> init_ok I init ->
  (fx = true -> hypo <> None) -> (forall h k v, hypo = Some h -> In (k, v) h -> In k (keys (m_pois m) ++ keys (m_nps m))) ->
  (forall k po, In (k, po) (m_pois m) -> poi_min po <> None /\ poi_max po <> None) ->
  (forall l b, bounds = Some l -> In b l -> In (pb_par b) (keys (m_pois m) ++ keys (m_nps m)) /\ pb_min b <> None /\ pb_max b <> None) ->
  exists p bs, set_pois_min m I init bounds hypo fx = Ok (p, bs).
Proof.
  intros E m I init bounds hypo fx HI Hi Hfx Hh Hm Hb. apply siv_built in HI. pose proof (bt_pm _ _ _ HI) as Hpm. destruct (pmodel_pois _ _ Hpm) as [P1 P2]. pose proof (bt_ref _ _ _ HI) as Hr.
  rewrite <- P1, <- P2 in Hh, Hb. unfold set_pois_min. set (pm := i_pm I) in *.
  assert (S0 : exists p0, (match init with None => pars_init (PIList (i_ref_pois I)) NINone (Some pm) | Some p => pars_clone p end) = Ok p0 /\ wf p0 pm).
  { destruct init as [q|]; [exists q; split; [apply (pars_clone_wf q pm), Hi|exact Hi]|]. cbn [pars_init bind]. apply Forall2_length in Hr.
    exists (mkPars (i_ref_pois I) (repeat 0 (length (pm_nps pm))) (Some pm)). unfold pars_init. cbn [bind]. rewrite P1. unfold keys. rewrite map_length, Hr, Nat.eqb_refl. cbn [bind].
    rewrite repeat_length, Nat.eqb_refl. cbn [bind]. split; [reflexivity|]. split; [reflexivity|]. cbn. rewrite P1. unfold keys. rewrite map_length, repeat_length. auto. }
  assert (SS : forall p k v, wf p pm -> In k (pm_pois pm ++ np_names pm) -> exists q, pars_set p k v false = Ok q /\ wf q pm).
  { intros p k v W Hk. pose proof (pars_set_spec p pm k v false W) as S. rewrite stored_known in S by exact Hk. destruct S as (q & Hq & W' & _). eauto. }
  destruct S0 as (p0 & -> & W0). cbn [bind].
  assert (S1 : exists p1, (match hypo with None => Ok p0 | Some h => foldM (fun p kv => pars_set p (fst kv) (snd kv) false) h p0 end) = Ok p1 /\ wf p1 pm).
  { destruct hypo as [h|]; [|eauto]. specialize (Hh h). clear -Hh SS W0. revert p0 W0. assert (Hh' : forall k v, In (k, v) h -> In k (pm_pois pm ++ np_names pm)) by (intros; eapply Hh; eauto). clear Hh.
    induction h as [|[k v] h IH]; intros p0 W0; [cbn; eauto|]. cbn [foldM fst snd]. destruct (SS p0 k v W0) as (q & -> & W); [apply (Hh' k v); left; reflexivity|]. cbn [bind]. apply IH; [|exact W].
    intros k' v' H. apply (Hh' k' v'). right. exact H. }
  destruct S1 as (p1 & E1 & W1).
  assert (S2 : exists bs, all_bounds m bounds hypo fx = Ok bs /\ forall b, In b (values bs) -> In (pb_par b) (pm_pois pm ++ np_names pm) /\ pb_min b <> None /\ pb_max b <> None).
  { unfold all_bounds. set (d1 := match bounds with None => _ | Some _ => _ end).
    assert (K : forall k b, In (k, b) d1 -> In (pb_par b) (pm_pois pm ++ np_names pm) /\ pb_min b <> None /\ pb_max b <> None).
    { assert (M : forall k b, In (k, b) (model_bounds m) -> In (pb_par b) (pm_pois pm ++ np_names pm) /\ pb_min b <> None /\ pb_max b <> None).
      { intros k b H. apply in_map_iff in H as ([k' po] & Ek & H). injection Ek as <- <-. cbn. split; [|apply (Hm _ _ H)]. apply in_or_app. left. rewrite P1. apply (in_map fst) in H. exact H. }
      intros k b H. subst d1. destruct bounds as [l|]; [|apply (M k), H]. apply (in_fold_dset pb_par (fun b => mkPB (pb_par b) (pb_min b) (pb_max b))) in H as [H|(a & Ha & Ea)]; [apply (M k), H|].
      cbn in Ea. subst b. cbn. apply (Hb l a eq_refl Ha). }
    assert (K' : forall b, In b (values d1) -> In (pb_par b) (pm_pois pm ++ np_names pm) /\ pb_min b <> None /\ pb_max b <> None).
    { intros b H. apply in_map_iff in H as ([k b'] & Eb & H). cbn in Eb. subst. apply (K k), H. }
    destruct fx; [|eauto]. destruct hypo as [h|]; [|destruct (Hfx eq_refl eq_refl)]. eexists. split; [reflexivity|]. intros b H. apply in_map_iff in H as ([k b'] & Eb & H). cbn in Eb. subst b'.
    apply (in_fold_dset fst (fun kv : string * R => mkPB (fst kv) (Some (snd kv)) (Some (snd kv)))) in H as [H|([k' v'] & Ha & Ea)]; [apply (K k), H|]. cbn in Ea. subst b. cbn.
    split; [apply (Hh h k' v' eq_refl Ha)|]. split; discriminate. }
  destruct S2 as (bs & E2 & Hbs).
  assert (S3 : exists p2, foldM repair (values bs) p1 = Ok p2).
  { revert Hbs. generalize (values bs). intros l Hl. clear -SS W1 Hl. revert p1 W1. induction l as [|b l IH]; intros p1 W1; [cbn; eauto|]. destruct (Hl b (or_introl eq_refl)) as (A & B & C).
    cbn [foldM]. destruct (pars_get_total p1 pm (pb_par b) W1 A) as (v & Hv). unfold repair at 1. rewrite Hv. cbn [bind]. destruct (test_value b v); cbn [bind]; [apply IH; [intros; apply Hl; right; assumption|exact W1]|].
    unfold middle. destruct (pb_min b); [|contradiction]. destruct (pb_max b); [|contradiction]. cbn [bind]. destruct (SS p1 (pb_par b) ((r + r0) / 2) W1 A) as (q & -> & Wq). cbn [bind].
    apply IH; [intros; apply Hl; right; assumption|exact Wq]. }
  destruct S3 as (p2 & E3). exists p2, bs. rewrite E1. cbn [bind]. rewrite E2. cbn [bind]. rewrite E3. reflexivity.
Qed.
Print Assumptions C31_initialization_succeeds.

(** A model with the POI mu in the given range, and one with two POIs *)
Definition tmod (lo hi : option R) : Model :=
  mkModel "t" None [("mu", mkPOI (Some "mu") lo hi (Some 1) None None)]
    [("a", mkNP (Some "a") (Some 0) 1 None None None None)] []
    [("C", mkChannel "C" (KMulti ["b1"]) [("S", mkSample "S" (ExprNorm "mu") (Some 1) (Some [10]) [("a", JFlt (1/10))])])] [] false true true false 0.
Definition tmod2 : Model :=
  mkModel "t" None [("mu", mkPOI (Some "mu") (Some 0) (Some 10) (Some 1) None None); ("nu", mkPOI (Some "nu") (Some 0) (Some 10) (Some 1) None None)]
    [("a", mkNP (Some "a") (Some 0) 1 None None None None)] []
    [("C", mkChannel "C" (KMulti ["b1"]) [("S", mkSample "S" (ExprNorm "mu") (Some 1) (Some [10]) [("a", JFlt (1/10))]); ("B", mkSample "B" (ExprNorm "nu") (Some 1) (Some [5]) [("a", JFlt 0)])])] [] false true true false 0.
Lemma tmod_built lo hi : exists I, set_internal_vars ex_env (tmod lo hi) = Ok I /\ i_pm I = mkPM ["mu"] [("a", 0, 1)] /\ i_ref_pois I = [1].
Proof. unfold tmod. eexists. split; [ev; reflexivity|]. repeat split; reflexivity. Qed.
Lemma tmod2_built : exists I, set_internal_vars ex_env tmod2 = Ok I /\ i_pm I = mkPM ["mu"; "nu"] [("a", 0, 1)] /\ i_ref_pois I = [1; 1].
Proof. unfold tmod2. eexists. split; [ev; reflexivity|]. repeat split; reflexivity. Qed.
Definition tp (x : R) : Params := mkPars [x] [0] (Some (mkPM ["mu"] [("a", 0, 1)])).

Example C31_nonvacuous : exists I p bs, set_internal_vars ex_env tmod2 = Ok I /\ init_ok I None /\ ranges_ok tmod2 (Some [mkPB "nu" (Some 2) (Some 4)]) /\ NoDup (keys (m_pois tmod2)) /\
  set_pois_min tmod2 I None (Some [mkPB "nu" (Some 2) (Some 4)]) (Some [("mu", 5)]) true = Ok (p, bs) /\
  bs = [("mu", mkPB "mu" (Some 5) (Some 5)); ("nu", mkPB "nu" (Some 2) (Some 4))] /\ pois p = [5; (2 + 4) / 2].
Proof.
  destruct tmod2_built as (I & H & Hp & Hr). exists I. eexists _, _. split; [exact H|]. split; [exact Logic.I|]. split; [split|split; [|split]].
  - cbn. intros k po x y [[= <- <-]|[[= <- <-]|[]]] [= <-] [= <-]; lra.
  - intros l b x y [= <-] [<-|[]] [= <-] [= <-]; lra.
  - cbn. repeat constructor; cbn; intuition discriminate.
  - unfold set_pois_min. rewrite Hp, Hr. ev. reflexivity.
  - split; reflexivity.
Qed.

(** Refuted: an initial value outside a one-sided range raises TypeError instead of being moved into the range *)
Theorem C31_one_sided_range_refuted : exists I, set_internal_vars ex_env (tmod (Some 2) None) = Ok I /\ set_pois_min (tmod (Some 2) None) I None None None false = Err TypeError.
Proof.
  destruct (tmod_built (Some 2) None) as (I & H & Hp & Hr). exists I. split; [exact H|]. unfold set_pois_min. rewrite Hp, Hr. ev. reflexivity.
Qed.
Print Assumptions C31_one_sided_range_refuted.
(** Refuted: with an inverted range the initial value does not satisfy the bound *)
Theorem C31_empty_range_refuted : exists I p bs b, set_internal_vars ex_env (tmod (Some 4) (Some 2)) = Ok I /\ set_pois_min (tmod (Some 4) (Some 2)) I None None None false = Ok (p, bs) /\
  dget "mu" bs = Some b /\ forall v, pars_get p "mu" = Ok v -> ~ within b v.
Proof.
  destruct (tmod_built (Some 4) (Some 2)) as (I & H & Hp & Hr). exists I. eexists _, _, _. split; [exact H|]. split; [unfold set_pois_min; rewrite Hp, Hr; ev; reflexivity|].
  split; [reflexivity|]. intros v Hv [W _]. cbn in Hv. injection Hv as <-. specialize (W _ eq_refl). lra.
Qed.
Print Assumptions C31_empty_range_refuted.

(** a fit environment where the NLL at the POI value x is (x - 3)^2, whatever the NPs *)
Definition tfit (o : optimizer) : FitEnv := mkFit (fun _ _ p => Ok (None, p, Fin ((nth 0 (pois p) 0 - 3) * (nth 0 (pois p) 0 - 3)))) (fun _ => false) o.
Definition tmini (method : string) : Mini := mini_init method 1 None 0 None false 0.

(** Refuted: setting a POI constant at 5 does not move it: the fit is done at the initial value 1, whatever the likelihood;
    and before the POIs are set it raises TypeError *)
Theorem C31_set_constant_refuted : (exists I ib, set_internal_vars ex_env (tmod (Some 0) (Some 10)) = Ok I /\ set_pois_min (tmod (Some 0) (Some 10)) I None None None false = Ok ib /\
    forall F method d p v, method <> "" -> f_prof F 1 None (tp 1) = Ok (d, p, v) ->
    exists s s', set_constant (with_pois (tmini method) ib) [("mu", 5)] = Ok s /\ minimize (tmod (Some 0) (Some 10)) I F s None = Ok (RNll v, s') /\ mi_min_pars s' = Some p) /\
  (forall method, set_constant (tmini method) [("mu", 5)] = Err TypeError).
Proof.
  split; [|reflexivity]. destruct (tmod_built (Some 0) (Some 10)) as (I & H & Hp & Hr). exists I. eexists. split; [exact H|]. split; [unfold set_pois_min; rewrite Hp, Hr; ev; reflexivity|].
  intros F method d p v Hm Hf. eexists _, _. split; [reflexivity|]. destruct (String.eqb_spec method ""); [contradiction|]. split.
  - unfold minimize. cbn [with_pois mi_init mi_bounds fst snd tmini mini_init bind]. cbn. rdec. cbn. destruct (String.eqb_spec method ""); [contradiction|]. cbn. unfold tp in Hf. rewrite Hf. cbn. reflexivity.
  - reflexivity.
Qed.
Print Assumptions C31_set_constant_refuted.

Lemma mapM_err {A B} (f : A -> res B) e l : (forall a e', In a l -> f a = Err e' -> e' = e) -> (exists a, In a l /\ f a = Err e) -> mapM f l = Err e.
Proof.
  induction l as [|x l IH]; intros H1 (a & Ha & He); [destruct Ha|]. cbn [mapM]. destruct (f x) as [y|e'] eqn:Ex.
  - cbn [bind]. destruct Ha as [->|Ha]; [congruence|]. rewrite IH; [reflexivity| |eauto]. intros b e' Hb. apply H1. right. exact Hb.
  - cbn. f_equal. apply (H1 x e'); [left; reflexivity|exact Ex].
Qed.
(** Refuted: any parameter without one of its bounds makes the minimization fail with TypeError, and a parameter without any bound is
    not listed among the free ones *)
Theorem C31_unbounded_poi_refuted : (forall m I F s init bs k b, mi_init s = Some init -> mi_bounds s = Some bs -> wf init (i_pm I) -> In (k, b) bs -> (pb_min b = None \/ pb_max b = None) ->
    minimize m I F s None = Err TypeError) /\
  (forall m s init bs k b, mi_init s = Some init -> mi_bounds s = Some bs -> dget k bs = Some b -> pb_min b = None -> pb_max b = None -> exists l, free_pois m s = Some l /\ ~ In k l).
Proof.
  split.
  - intros m I F s init bs k b Hi Hb W Hk Hn. unfold minimize. rewrite Hi, Hb. cbn [bind]. rewrite Hi, Hb. rewrite (pars_clone_wf init _ W). cbn [bind]. unfold free_bounds.
    rewrite (mapM_err _ TypeError); [reflexivity| |].
    + intros [i c] e' _. cbn. unfold is_free. destruct (pb_min c), (pb_max c); cbn; congruence.
    + apply (in_map snd) in Hk. change (In b (values bs)) in Hk. apply In_nth_error in Hk as (i & Hk). exists (i, b). split.
      * unfold enumerate. apply (nth_error_In _ i). revert Hk. generalize (values bs). intros l Hk.
        assert (L : (i < length l)%nat) by (apply nth_error_Some; congruence).
        rewrite (nth_error_nth' _ (0%nat, b)) by (rewrite combine_length, seq_length; lia). f_equal. rewrite combine_nth by apply seq_length. rewrite seq_nth by exact L. f_equal. apply nth_error_nth, Hk.
      * cbn. unfold is_free. destruct Hn as [-> | ->]; [reflexivity|]. destruct (pb_min b); reflexivity.
  - intros m s init bs k b Hi Hb Hk H1 H2. unfold free_pois. rewrite Hi, Hb. eexists. split; [reflexivity|]. intros Hin. apply filter_In in Hin as (_ & Hin). rewrite Hk in Hin.
    unfold is_fixed in Hin. rewrite H1, H2 in Hin. discriminate.
Qed.
Print Assumptions C31_unbounded_poi_refuted.
Example C31_unbounded_nonvacuous : exists I p bs b, set_internal_vars ex_env (tmod None None) = Ok I /\ set_pois_min (tmod None None) I None None None false = Ok (p, bs) /\ wf p (i_pm I) /\
  dget "mu" bs = Some b /\ pb_min b = None /\ pb_max b = None.
Proof.
  destruct (tmod_built None None) as (I & H & Hp & Hr). exists I. eexists _, _, _. split; [exact H|]. split; [unfold set_pois_min; rewrite Hp, Hr; ev; reflexivity|]. rewrite Hp. repeat split; reflexivity.
Qed.

(** ** C32: the profile likelihood ratio *)

(** For finite likelihood values, t_mu is the doubled difference when positive and zero otherwise; the two values are
    those of the fit with the hypothesis fixed (by a copy of the minimizer) and of the free fit *)
Theorem C32_tmu_value : forall m I F s0 hypo init t s', poi_tmu m I F s0 hypo init = Ok (t, s') ->
  exists h f ib hib r1 hm r2 s2, mi_hypo_nll s' = Some h /\ mi_free_nll s' = Some f /\
    (forall x y, h = Fin x -> f = Fin y -> t = Fin (Rmax 0 (2 * (x - y)))) /\
    set_pois_min m I init (option_map values (mi_bounds s0)) (Some hypo) false = Ok ib /\
    set_pois_min m I init (Some (values (snd ib))) (Some hypo) true = Ok hib /\
    minimize m I F (with_pois (mini_clone s0) hib) None = Ok (r1, hm) /\ (forall v, r1 = RNll v -> h = v) /\
    minimize m I F (with_tmu (with_pois s0 ib) (mi_min_nll hm) (mi_free_nll s0) (mi_tmu_debug s0)) None = Ok (r2, s2) /\ (forall v, r2 = RNll v -> f = v).
Proof.
  intros m I F s0 hypo init t s' H. unfold poi_tmu in H. apply bind_Ok in H as (ib & Hib & H). apply bind_Ok in H as (hib & Hhib & H). apply bind_Ok in H as ((r1, hm) & H1 & H).
  apply bind_Ok in H as ((r2, s2) & H2 & H). destruct (mi_min_nll hm) as [h|] eqn:Eh; [|discriminate]. destruct (mi_min_nll s2) as [f|] eqn:Ef; [|discriminate]. injection H as <- <-.
  assert (RN : forall s v s', minimize m I F s None = Ok (RNll v, s') -> mi_min_nll s' = Some v).
  { clear. intros s v s' H. unfold minimize in H. apply bind_Ok in H as (s1 & _ & H). destruct (mi_init s1) as [init|]; [|discriminate]. destruct (mi_bounds s1) as [bs|]; [|discriminate].
    apply bind_Ok in H as (cur & _ & H). apply bind_Ok in H as (fr & _ & H). apply bind_Ok in H as (x0 & _ & H). destruct (_ && _)%bool.
    - apply bind_Ok in H as ([[d p] v'] & _ & H). injection H as <- <-. reflexivity.
    - apply bind_Ok in H as (r & _ & H). apply bind_Ok in H as (s3 & _ & H). destruct (o_success r); [|discriminate]. injection H as <- <-. reflexivity. }
  exists h, f, ib, hib, r1, hm, r2, s2. cbn [with_tmu mi_hypo_nll mi_free_nll]. split; [reflexivity|]. split; [reflexivity|]. split.
  - intros x y -> ->. cbn [esub2 eadd emulr]. unfold esub2. cbn. destruct (Rltb (2 * (x + - y)) 0) eqn:L; [apply Rltb_true in L|apply Rltb_false in L].
    + rewrite Rmax_left by lra. reflexivity.
    + rewrite Rmax_right by lra. reflexivity.
  - split; [exact Hib|]. split; [exact Hhib|]. split; [exact H1|]. split; [intros v ->; apply RN in H1; congruence|]. rewrite Eh in *. split; [exact H2|]. intros v ->. apply RN in H2. congruence.
Qed.
Print Assumptions C32_tmu_value.

(** it is never negative *)
Theorem C32_never_negative : forall m I F s0 hypo init t s', opti_tmu m I F s0 hypo init = Ok (t, s') -> t <> MInf /\ forall x, t = Fin x -> 0 <= x.
Proof.
  assert (P : forall m I F s0 hypo init t s', poi_tmu m I F s0 hypo init = Ok (t, s') -> t <> MInf /\ forall x, t = Fin x -> 0 <= x).
  { intros m I F s0 hypo init t s' H. unfold poi_tmu in H. apply bind_Ok in H as (ib & _ & H). apply bind_Ok in H as (hib & _ & H). apply bind_Ok in H as ((r1, hm) & _ & H).
    apply bind_Ok in H as ((r2, s2) & _ & H). destruct (mi_min_nll hm) as [h|]; [|discriminate]. destruct (mi_min_nll s2) as [f|]; [|discriminate]. injection H as <- <-.
    destruct (esub2 h f) as [x| | |]; cbn; try (split; [discriminate|intros y [= <-]; lra]); try (split; [discriminate|intros y; discriminate]).
    destruct (Rltb x 0) eqn:L; [apply Rltb_true in L|apply Rltb_false in L]; (split; [discriminate|]); intros y [= <-]; lra. }
  intros m I F s0 hypo init t s' H. unfold opti_tmu in H. apply bind_Ok in H as ((t1, s1) & H1 & H). destruct (_ && _)%bool; [|injection H as <- <-; apply (P _ _ _ _ _ _ _ _ H1)].
  destruct (_ && _)%bool; [discriminate|]. destruct (mi_alt s1); [|injection H as <- <-; apply (P _ _ _ _ _ _ _ _ H1)].
  apply bind_Ok in H as ((t2, s2) & H2 & H). destruct (_ && _)%bool; [discriminate|]. injection H as <- <-. apply (P _ _ _ _ _ _ _ _ H2).
Qed.
Print Assumptions C32_never_negative.

(** an optimizer that evaluates the given points and returns the first one *)
Definition topt (success : bool) (pts : list R) : optimizer := fun _ obj _ _ _ =>
  match pts with
  | [] => Err ValueError
  | x :: _ => let! l := mapM (fun y => obj [y]) pts in match l with v :: _ => Ok (mkOpt (map (fun y => [y]) pts) success [x] v) | [] => Err ValueError end
  end.
Example C32_nonvacuous : exists I s', set_internal_vars ex_env (tmod (Some 0) (Some 10)) = Ok I /\
  opti_tmu (tmod (Some 0) (Some 10)) I (tfit (topt true [3])) (tmini "scalar") [("mu", 1)] None = Ok (Fin (2 * ((1 - 3) * (1 - 3) + - ((3 - 3) * (3 - 3)))), s') /\
  mi_hypo_nll s' = Some (Fin ((1 - 3) * (1 - 3))) /\ mi_free_nll s' = Some (Fin ((3 - 3) * (3 - 3))).
Proof.
  destruct (tmod_built (Some 0) (Some 10)) as (I & H & Hp & Hr). exists I. eexists. split; [exact H|]. split; [|split].
  - unfold opti_tmu, poi_tmu, set_pois_min. rewrite Hp, Hr. ev. reflexivity.
  - reflexivity.
  - reflexivity.
Qed.

(** Refuted: a failed minimization does not give None: the pair returned by the minimizer is not None, and t_mu is
    computed from the last likelihood evaluated, here at 9 while the hypothesis is at 1 *)
Theorem C32_failed_fit_refuted : exists I s1 s2 s3 t, set_internal_vars ex_env (tmod (Some 0) (Some 10)) = Ok I /\
  minimize (tmod (Some 0) (Some 10)) I (tfit (topt false [4; 9])) (tmini "scalar") None = Ok (RPair, s1) /\
  opti_tmu (tmod (Some 0) (Some 10)) I (tfit (topt false [4; 9])) (tmini "scalar") [("mu", 1)] None = Ok (Fin 0, s2) /\
  opti_tmu (tmod (Some 0) (Some 10)) I (tfit (topt true [3])) (tmini "scalar") [("mu", 1)] None = Ok (Fin t, s3) /\ 0 < t.
Proof.
  destruct (tmod_built (Some 0) (Some 10)) as (I & H & Hp & Hr). exists I. eexists _, _, _, _. split; [exact H|]. split; [|split; [|split]].
  - unfold minimize, set_pois_min. rewrite Hp, Hr. ev. reflexivity.
  - unfold opti_tmu, poi_tmu, set_pois_min. rewrite Hp, Hr. ev. reflexivity.
  - unfold opti_tmu, poi_tmu, set_pois_min. rewrite Hp, Hr. ev. reflexivity.
  - lra.
Qed.
Print Assumptions C32_failed_fit_refuted.
(** Refuted: when both likelihoods are infinite, t_mu is not a number *)
Theorem C32_infinite_refuted : exists I s', set_internal_vars ex_env (tmod (Some 0) (Some 10)) = Ok I /\
  opti_tmu (tmod (Some 0) (Some 10)) I (mkFit (fun _ _ p => Ok (None, p, PInf)) (fun _ => false) (topt true [3])) (tmini "scalar") [("mu", 1)] None = Ok (NaN, s').
Proof.
  destruct (tmod_built (Some 0) (Some 10)) as (I & H & Hp & Hr). exists I. eexists. split; [exact H|].
  unfold opti_tmu, poi_tmu, set_pois_min. rewrite Hp, Hr. ev. reflexivity.
Qed.
Print Assumptions C32_infinite_refuted.

(** ** C34: copies *)

Theorem C34_clone_keeps_configuration : forall s, mi_method (mini_clone s) = mi_method s /\ mi_niter (mini_clone s) = mi_niter s /\ mi_floor (mini_clone s) = mi_floor s /\
  mi_rebound (mini_clone s) = mi_rebound s /\ mi_alt (mini_clone s) = mi_alt s.
Proof. intros s. repeat split. Qed.
Print Assumptions C34_clone_keeps_configuration.
(** Refuted: the copy always has verbosity 0 and never uses the closed-form gradient *)
Theorem C34_derivatives_and_verbosity_refuted : forall s, mi_numjac (mini_clone s) = true /\ mi_verbosity (mini_clone s) = 0%Z.
Proof. intros s. split; reflexivity. Qed.
Print Assumptions C34_derivatives_and_verbosity_refuted.
Example C34_nonvacuous : exists s, mi_numjac s = false /\ mi_verbosity s = 2%Z /\ mi_method s = "L-BFGS-B".
Proof. exists (mini_init "L-BFGS-B" 3 (Some 1) 2 (Some "scalar") false 2). repeat split. Qed.

