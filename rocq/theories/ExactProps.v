(** Exact behaviour of the code for C27, C35, C53, C69, C71, C79, C88. *)
From Coquelicot Require Import Coquelicot.
From Verif Require Import Py PyFacts Base BaseFacts BaseProps Expressions Norms Sample SampleFacts Channels ChannelFacts Params ParamsFacts ParamsProps NormalSf TestStat TestStatProps Core CoreFacts CoreExample CoreMore ModelIO ModelIOFacts ModelIOProps DataProps NllFacts NllGrad NllProps NpMin NpMinSpec NpMinFacts NpMinProps PoiMin PoiMinFacts FitData FitDataFacts FitDataProps Samplers SamplersProps ModelTools.
Local Open Scope string_scope.
Local Open Scope list_scope.
Local Open Scope R_scope.

(** * C27: numbers of declared auxiliary observables and of constrained NPs that differ *)
Lemma place_aux_more : forall ps nominal aux, length nominal = length ps ->
  if (n_constrained ps <=? length aux)%nat
  then exists r, place_aux ps nominal aux = Ok r /\ length r = length ps /\ constrained_values ps r = firstn (n_constrained ps) aux /\
       forall i p, nth_error ps i = Some p -> np_is_free p = true -> nth_error r i = nth_error nominal i
  else place_aux ps nominal aux = Err IndexError.
Proof.
  unfold n_constrained, constrained_values. induction ps as [|p ps IH]; intros [|x nominal] aux Hn; try discriminate.
  - cbn. exists []. repeat split; intros [|i] q Hq; discriminate.
  - injection Hn as Hn. cbn [filter place_aux]. destruct (np_is_free p) eqn:Ef; cbn [negb].
    + specialize (IH nominal aux Hn). destruct (_ <=? _)%nat; [|now rewrite IH]. destruct IH as (r & H1 & H2 & H3 & H4). exists (x :: r). rewrite H1. cbn. rewrite Ef. cbn. repeat split; auto.
      intros [|i] q Hq Hf; cbn in *; [reflexivity|eapply H4; eauto].
    + destruct aux as [|a aux]; [reflexivity|]. specialize (IH nominal aux Hn). cbn [length]. change (S ?a <=? S ?b)%nat with (a <=? b)%nat. destruct (_ <=? _)%nat; [|now rewrite IH].
      destruct IH as (r & H1 & H2 & H3 & H4). exists (a :: r). rewrite H1. cbn. rewrite Ef. cbn. repeat split; auto; [congruence|]. intros [|i] q Hq Hf; cbn in *; [congruence|eapply H4; eauto].
Qed.
(** C27: a vector of one value per declared auxiliary observable (and not of the size of the NPs): its first values go to the
    constrained NPs in order, the free NPs get their nominal value, and values in excess are ignored; if there are fewer
    values than constrained NPs, IndexError *)
Theorem C27_aux_obs_sizes : forall E m I aux, set_internal_vars E m = Ok I -> aux <> [] -> length aux = length (m_aux m) -> length aux <> length (m_nps m) ->
  ((n_constrained (values (m_nps m)) <= length aux)%nat ->
     exists r, set_aux_obs m I aux = Ok r /\ length r = length (m_nps m) /\ constrained_values (values (m_nps m)) r = firstn (n_constrained (values (m_nps m))) aux /\
     forall i p, nth_error (values (m_nps m)) i = Some p -> np_is_free p = true -> nth_error r i = np_nominal p) /\
  ((length aux < n_constrained (values (m_nps m)))%nat -> set_aux_obs m I aux = Err IndexError).
Proof.
  intros E m I aux H N L L2. apply siv_built in H as B. destruct (pm_nps_nominal _ _ (bt_pm _ _ _ B)) as [Hn Hl].
  set (nominal := map (fun p : string * R * R => snd (fst p)) (pm_nps (i_pm I))) in *.
  assert (Hn' : map Some nominal = map np_nominal (values (m_nps m))) by (rewrite <- Hn; unfold nominal; rewrite map_map; reflexivity).
  assert (Hl' : length nominal = length (values (m_nps m))) by (unfold nominal, values; now rewrite !map_length).
  pose proof (place_aux_more (values (m_nps m)) nominal aux Hl') as P.
  assert (Z : set_aux_obs m I aux = place_aux (values (m_nps m)) nominal aux).
  { unfold set_aux_obs. fold nominal. destruct aux as [|a aux]; [congruence|]. change (length (a :: aux) =? 0)%nat with false; cbv iota. rewrite (proj2 (Nat.eqb_neq _ _) L2), (proj2 (Nat.eqb_eq _ _) L). reflexivity. }
  rewrite Z. split; intros Hc.
  - rewrite (proj2 (Nat.leb_le _ _) Hc) in P. destruct P as (r & H1 & H2 & H3 & H4). exists r. split; [exact H1|]. split; [rewrite H2; unfold values; apply map_length|]. split; [exact H3|].
    intros i p Hi Hf. rewrite (H4 i p Hi Hf). assert (Q : nth_error (map Some nominal) i = Some (np_nominal p)) by (rewrite Hn', nth_error_map, Hi; reflexivity).
    rewrite nth_error_map in Q. destruct (nth_error nominal i); [|discriminate]. cbn in Q. congruence.
  - rewrite (proj2 (Nat.leb_gt _ _) Hc) in P. exact P.
Qed.
Print Assumptions C27_aux_obs_sizes.
Example C27_sizes_nonvacuous : exists I, set_internal_vars ex_env ex_model = Ok I /\ length [3] = length (m_aux ex_model) /\ length [3] <> length (m_nps ex_model) /\ (n_constrained (values (m_nps ex_model)) <= length [3])%nat.
Proof. destruct ex_built_full as (I & H & _). exists I. split; [exact H|]. cbn. split; [reflexivity|]. split; lia. Qed.

(** * C35: the value at t_mu = 0, and q~ as built by the calculator, for every input *)
Theorem C35_calculator_values : forall hypo tmu best A0,
  qmu_value (make_qmu hypo tmu best A0) = (if Rlt_dec best hypo then tmu else - tmu) /\
  qmt_value (make_qmt hypo tmu best A0) = (if Rlt_dec best 0 then tmu else if Rlt_dec best hypo then tmu else - tmu).
Proof.
  intros hypo tmu best A0. unfold qmu_value, qmt_value, make_qmu, make_qmt, qmu_init, qmt_init. cbn. unfold Rltb. split.
  - destruct (Rlt_dec best hypo); reflexivity.
  - destruct (Rlt_dec best 0); [reflexivity|]. destruct (Rlt_dec best hypo); reflexivity.
Qed.
Print Assumptions C35_calculator_values.

(** * C53: the global best-fit option never changes anything *)
Theorem C53_global_option_has_no_effect : forall points u m,
  (forall r, raster_new points true u m = Ok r -> raster_new points false u m = Ok r) /\
  ((forall h p, In (h, p) points -> exists x, fr_nll (plr_free p) = Some x) -> raster_new points true u m = raster_new points false u m) /\
  ((2 <= length points)%nat -> (exists h p, In (h, p) points /\ fr_nll (plr_free p) = None) -> raster_new points true u m = Err TypeError).
Proof.
  intros points u m. unfold raster_new, set_global_best_fit. split; [|split].
  - intros r H. destruct points as [|a [|b l]]; [exact H|exact H|]. destruct (forallb _ _); [exact H|discriminate].
  - intros G. destruct points as [|a [|b l]]; [reflexivity|reflexivity|]. set (pts := a :: b :: l) in *. assert (X : forallb (fun hp : Hypo * PLR => match fr_nll (plr_free (snd hp)) with Some _ => true | None => false end) pts = true).
    { apply forallb_forall. intros [h p] Hin. cbn. destruct (G h p Hin) as (x & ->). reflexivity. }
    rewrite X. reflexivity.
  - intros L (h & p & Hin & Hp). destruct points as [|a [|b l]]; cbn in L; try lia. set (pts := a :: b :: l) in *. assert (X : forallb (fun hp : Hypo * PLR => match fr_nll (plr_free (snd hp)) with Some _ => true | None => false end) pts = false).
    { destruct (forallb _ pts) eqn:F; [|reflexivity]. rewrite forallb_forall in F. specialize (F _ Hin). cbn in F. rewrite Hp in F. discriminate. }
    rewrite X. reflexivity.
Qed.
Print Assumptions C53_global_option_has_no_effect.
Example C53_no_effect_nonvacuous : exists r, raster_new [c53_point 0 7 5; c53_point 1 6 5] true true (Some ex_pm) = Ok r /\ raster_new [c53_point 0 7 5; c53_point 1 6 5] false true (Some ex_pm) = Ok r.
Proof. destruct C53_nonvacuous as (r & H & _). exists r. split; [exact H|]. apply (proj1 (C53_global_option_has_no_effect _ _ _) r H). Qed.

(** * C69: a Parameters object is what is needed: profiling it succeeds whenever the system can be written and solved, and its result starts from it *)
Theorem C69_profile_parameters : forall sv m I data h,
  (forall r, profile sv m I data h = Ok r -> exists p, h = HPars p) /\
  (forall p M q d, h = HPars p -> pq_einsum m I data (pois p) (nps p) = Ok (M, q) -> sv (length (pm_nps (i_pm I))) M q = Ok d -> length (pois p) = length (pm_pois (i_pm I)) ->
     exists dl mp, profile sv m I data h = Ok (dl, mp) /\ pois mp = pois p).
Proof.
  intros sv m I data h. split.
  - intros r H. destruct h as [p|]; [eauto|discriminate].
  - intros p M q d -> Hpq Hs Hl. unfold profile. rewrite Hpq. cbn [bind].
    assert (X : exists dd, (if Rltb (Rabs (det (length (pm_nps (i_pm I))) M)) ((1 / 1000) ^ length (pm_nps (i_pm I))) then Ok (fun _ => 0) else sv (length (pm_nps (i_pm I))) M q) = Ok dd) by (destruct (Rltb _ _); eauto).
    destruct X as (dd & ->). cbn [bind].
    assert (Q : forall f : nat -> R, exists r, pars_init (PIList (pois p)) (NIArr (map f (seq 0 (length (pm_nps (i_pm I)))))) (Some (i_pm I)) = Ok r /\ pois r = pois p).
    { intros f. unfold pars_init. cbn [bind]. rewrite (proj2 (Nat.eqb_eq _ _) Hl). cbn [bind].
      destruct (map f (seq 0 (length (pm_nps (i_pm I))))) as [|x l] eqn:Em.
      - cbn [bind]. rewrite repeat_length, Nat.eqb_refl. cbn [bind]. eauto.
      - cbn [bind]. rewrite <- Em, map_length, seq_length, Nat.eqb_refl. cbn [bind]. eauto. }
    destruct (Q dd) as (r1 & -> & _). cbn [bind]. destruct (Q (fun i => nth i (nps p) 0 - dd i)) as (r2 & -> & Hr). cbn [bind]. eauto.
Qed.
Print Assumptions C69_profile_parameters.
Example C69_nonvacuous : exists I dl mp, set_internal_vars ex_env (gmod false true 1 (Some 1)) = Ok I /\ profile gsolve (gmod false true 1 (Some 1)) I gdata (HPars (ghypo 0)) = Ok (dl, mp) /\ pois mp = pois (ghypo 0).
Proof. destruct C71_bounds_test_the_shifts_refuted as (I & dl & mp & H & Hp & _). exists I, dl, mp. split; [exact H|]. split; [exact Hp|]. apply siv_built in H as B. destruct (pm_nps_nominal _ _ (bt_pm _ _ _ B)) as [_ L]. refine (proj1 (C30_profile_keeps_pois _ _ _ _ _ _ _ _ Hp)). rewrite L. reflexivity. Qed.

(** * C71: the selection, exactly *)
Theorem C71_selection : forall bounds pv tmu fd hd, (forall b, In b bounds -> exists x y, pars_get fd (pb_par b) = Ok x /\ pars_get hd (pb_par b) = Ok y) ->
  (opti_compute bounds pv tmu fd hd = Ok None <-> (exists x, tmu = Fin x /\ x < 0) \/ tmu = MInf \/ exists b, In b bounds /\ (~ passes b fd \/ ~ passes b hd)) /\
  (forall r, opti_compute bounds pv tmu fd hd = Ok (Some r) <-> pv tmu = Ok r /\ ~ (exists x, tmu = Fin x /\ x < 0) /\ tmu <> MInf /\ forall b, In b bounds -> passes b fd /\ passes b hd).
Proof.
  intros bounds pv tmu fd hd HG.
  assert (A : eltb tmu 0 = true <-> (exists x, tmu = Fin x /\ x < 0) \/ tmu = MInf).
  { destruct tmu; cbn; split; intros X; try discriminate; try (destruct X as [(? & ? & ?)|]; discriminate); auto.
    - apply Rltb_true in X. eauto.
    - apply Rltb_true. destruct X as [(y & E & Hy)|X]; [now injection E as ->|discriminate]. }
  assert (T : exists ok, test_bounds bounds fd hd = Ok ok /\ (ok = true <-> forall b, In b bounds -> passes b fd /\ passes b hd)).
  { clear A. induction bounds as [|c l IH]; [exists true; split; [reflexivity|split; [intros _ b []|reflexivity]]|]. cbn [test_bounds].
    destruct (HG c (or_introl eq_refl)) as (x & y & Hx & Hy). destruct IH as (ok & Hok & Hiff); [intros; apply HG; now right|]. unfold pb_test. rewrite Hx, Hy. cbn [bind].
    assert (Px : test_value c x = true <-> passes c fd) by (unfold passes; rewrite Hx; apply test_value_within).
    assert (Py : test_value c y = true <-> passes c hd) by (unfold passes; rewrite Hy; apply test_value_within).
    destruct (test_value c x) eqn:E1; cbn [negb].
    2: { exists false. split; [reflexivity|]. split; [discriminate|]. intros W. exfalso. destruct (W c (or_introl eq_refl)) as [W1 _]. apply Px in W1. congruence. }
    destruct (test_value c y) eqn:E2; cbn [negb].
    2: { exists false. split; [reflexivity|]. split; [discriminate|]. intros W. exfalso. destruct (W c (or_introl eq_refl)) as [_ W1]. apply Py in W1. congruence. }
    exists ok. split; [exact Hok|]. rewrite Hiff. split; intros W b; [intros [<-|Hb]; [split; [apply Px|apply Py]; reflexivity|now apply W]|intros Hb; apply W; now right]. }
  destruct T as (ok & Hok & Hiff). unfold opti_compute. rewrite Hok. cbn [bind]. destruct (eltb tmu 0) eqn:El.
  - pose proof (proj1 A eq_refl) as Al. split; [|intros r]; split; intros X; try reflexivity; try discriminate.
    + destruct Al; tauto.
    + exfalso. destruct X as (_ & X1 & X2 & _). destruct Al; tauto.
  - assert (NA : ~ ((exists x, tmu = Fin x /\ x < 0) \/ tmu = MInf)) by (intros X; apply A in X; congruence). destruct ok.
    + assert (W : forall b, In b bounds -> passes b fd /\ passes b hd) by (apply Hiff; reflexivity). split; [|intros r]; split; intros X.
      * exfalso. destruct (pv tmu); cbn in X; discriminate.
      * exfalso. destruct X as [X|[X|(b & Hb & X)]]; [tauto|tauto|]. specialize (W b Hb). tauto.
      * destruct (pv tmu) as [v|]; cbn in X; [|discriminate]. injection X as ->. repeat split; try tauto; apply W; assumption.
      * destruct X as (-> & _). reflexivity.
    + assert (W : ~ forall b, In b bounds -> passes b fd /\ passes b hd) by (intros X; apply Hiff in X; discriminate). split; [|intros r]; split; intros X; try reflexivity; try discriminate; [|exfalso; tauto].
      right; right. assert (P : forall b p, {passes b p} + {~ passes b p}).
      { intros b q. unfold passes. destruct (pars_get q (pb_par b)) as [v|[]]; auto. destruct (test_value b v) eqn:Et; [left|right]; [now apply test_value_within|]. intros Z. apply test_value_within in Z. congruence. }
      destruct (Exists_dec (fun b => ~ passes b fd \/ ~ passes b hd) bounds) as [D|D].
      * intros b. destruct (P b fd), (P b hd); tauto.
      * apply Exists_exists in D as (b & Hb & D). eauto.
      * exfalso. apply W. intros b Hb. destruct (P b fd) as [a|a], (P b hd) as [c|c]; auto; exfalso; apply D; apply Exists_exists; exists b; tauto.
Qed.
Print Assumptions C71_selection.
Example C71_selection_nonvacuous : exists I dl mp, set_internal_vars ex_env (gmod false true 1 (Some 1)) = Ok I /\ profile gsolve (gmod false true 1 (Some 1)) I gdata (HPars (ghypo 0)) = Ok (dl, mp) /\
  forall b, In b [mkPB "a" (Some 0) (Some 2)] -> exists x y, pars_get mp (pb_par b) = Ok x /\ pars_get mp (pb_par b) = Ok y.
Proof. destruct C71_bounds_test_the_shifts_refuted as (I & dl & mp & H & Hp & Hg & _). exists I, dl, mp. split; [exact H|]. split; [exact Hp|]. intros b [<-|[]]. cbn [pb_par]. eauto. Qed.

(** * C79: the only thing that prevents a merged model from being reloaded is its description *)
Definition with_descr (m : Model) (d : option string) : Model := mkModel (m_name m) d (m_pois m) (m_nps m) (m_aux m) (m_channels m) (m_exprs m) (m_asym m) (m_linear m) (m_simple_sym m) (m_lognormal m) (m_cutoff m).
Lemma dset_twice {V} k (x y : V) d : dset k x (dset k y d) = dset k x d.
Proof. induction d as [|[k' z] d IH]; cbn; [now rewrite String.eqb_refl|]. destruct (k =? k') eqn:E; cbn; rewrite ?E; [reflexivity|now rewrite IH]. Qed.
Lemma siv_descr E m d : set_internal_vars E (with_descr m d) = set_internal_vars E m.
Proof. reflexivity. Qed.
Theorem C79_reload_with_description : forall E mi m I v sdict m0 s,
  finish E mi = Ok (m, I) -> savable E m -> m_exprs m0 = [] ->
  m_asym m0 = m_asym m -> m_linear m0 = m_linear m -> m_simple_sym m0 = m_simple_sym m -> m_lognormal m0 = m_lognormal m -> m_cutoff m0 = m_cutoff m ->
  exists d md, merged_fill E m v sdict = Ok d /\ dget "model" d = Some (JObj md) /\ dget "description" md = Some (JInt v) /\
  model_load E m0 (dset "model" (JObj (dset "description" (JStr s) md)) d) = Ok (with_descr m (Some s), I).
Proof.
  intros E mi m I v sdict m0 s HF S He O1 O2 O3 O4 O5.
  assert (S' : savable E (with_descr m (Some s))) by (destruct S; constructor; assumption).
  assert (HF' : finish E (with_descr mi (Some s)) = Ok (with_descr m (Some s), I)).
  { unfold finish in *. rewrite siv_descr. apply bind_Ok in HF as (it & Hit & HF). rewrite Hit. cbn [bind]. inversion HF; subst. reflexivity. }
  destruct (C17_reloaded_object_is_identical E _ _ _ m0 sdict HF' S' He O1 O2 O3 O4 O5) as (sd & H1 & H2).
  unfold model_fill in H1. cbn [with_descr m_channels m_name m_descr m_pois m_nps m_exprs m_aux] in H1. apply bind_Ok in H1 as (chs & Hch & H1). injection H1 as <-.
  unfold merged_fill, model_fill. cbn [m_channels m_name m_descr m_pois m_nps m_exprs m_aux]. rewrite Hch. cbn [bind app]. rewrite dget_dset_eq. do 2 eexists. split; [reflexivity|]. split; [apply dget_dset_eq|].
  split; [reflexivity|]. rewrite <- H2. f_equal. rewrite !dset_twice. reflexivity.
Qed.
Print Assumptions C79_reload_with_description.
Example C79_reload_nonvacuous : exists I d md, finish ex_env ex_model = Ok (with_channels ex_model ex_channels', I) /\ merged_fill ex_env (with_channels ex_model ex_channels') 0 [] = Ok d /\ dget "model" d = Some (JObj md) /\
  model_load ex_env (new_model true true) (dset "model" (JObj (dset "description" (JStr "text") md)) d) = Ok (with_descr (with_channels ex_model ex_channels') (Some "text"), I).
Proof.
  destruct ex_savable as (_ & I & HF & S). destruct (C79_reload_with_description ex_env ex_model _ I 0 [] (new_model true true) "text" HF S) as (d & md & H1 & H2 & _ & H3); try reflexivity. exists I, d, md. auto.
Qed.

(** * C88: exactly when the constraints can be "set", and then nothing changes *)
Theorem C88_set_constraint_exact : forall E m0 m I par val, finish E m0 = Ok (m, I) ->
  (m_nps m <> [] -> set_constraint E m par val = Err AttributeError) /\ (m_nps m = [] -> set_constraint E m par val = Ok (m, I)).
Proof.
  intros E m0 m I par val H. unfold set_constraint. split; intros Hn; [destruct (m_nps m); [contradiction|reflexivity]|]. rewrite Hn.
  unfold finish in *. apply bind_Ok in H as (it & Hit & H). inversion H; subst m it; clear H. rewrite (siv_idem _ _ _ Hit). cbn [bind]. reflexivity.
Qed.
Print Assumptions C88_set_constraint_exact.
Example C88_exact_nonvacuous : exists m I, finish ex_env ex_model = Ok (m, I) /\ m_nps m <> [].
Proof. destruct ex_savable as (_ & I & HF & S). do 2 eexists. split; [exact HF|]. discriminate. Qed.

(** * C29: with or without log-normal terms, the profiled NPs are the stationary point of the quadratic approximation *)
Theorem C29_profile_is_stationary : forall sv m I data hypo dl mp M q, solves sv -> length (nps hypo) = length (pm_nps (i_pm I)) -> sym_on (i_nbins_g I) (i_poi_hess I) ->
  profile sv m I data (HPars hypo) = Ok (dl, mp) -> pq_einsum m I data (pois hypo) (nps hypo) = Ok (M, q) ->
  (1 / 1000) ^ length (pm_nps (i_pm I)) <= Rabs (det (length (pm_nps (i_pm I))) M) ->
  forall d : nat -> R, is_derive (fun t => quadratic (length (pm_nps (i_pm I))) q M (fun p => nth p (nps hypo) 0) (fun p => nth p (nps mp) 0 + t * d p)) 0 0.
Proof.
  intros sv m I data hypo dl mp M q Hsv Hlen Hs H Hpq Hdet d.
  destruct (profile_inv _ _ _ _ _ _ _ Hlen H) as (M' & q' & z & Hpq' & [(X & _)|(_ & Hd)] & _ & _ & _ & _ & _ & _ & Hm); rewrite Hpq in Hpq'; injection Hpq' as <- <-; [lra|].
  pose proof (pq_sym _ _ _ _ _ _ _ Hpq Hs) as Sy. set (P := length (pm_nps (i_pm I))) in *.
  assert (Hst : forall a, (a < P)%nat -> rsum P (fun c => M a c * z c) = q a).
  { intros a Ha. rewrite <- (Hsv _ _ _ _ Hd a Ha). apply rsum_ext. intros c Hc. rewrite (upper_sym M Sy). reflexivity. }
  assert (Eq : forall t, quadratic P q M (fun p => nth p (nps hypo) 0) (fun p => nth p (nps mp) 0 + t * d p) =
    quadratic P q M (fun p => nth p (nps hypo) 0) (fun a => nth a (nps hypo) 0 - z a) + 1 / 2 * qform P M d d * (t * t)).
  { intros t. pose proof (quad_diff P q M (fun p => nth p (nps hypo) 0) z Sy Hst (fun p => nth p (nps mp) 0 + t * d p)) as D.
    assert (F : qform P M (fun a => nth a (nps mp) 0 + t * d a - nth a (nps hypo) 0 + z a) (fun a => nth a (nps mp) 0 + t * d a - nth a (nps hypo) 0 + z a) = qform P M d d * (t * t)).
    { unfold qform. rewrite <- rsum_scal_r. apply rsum_ext. intros a Ha. rewrite <- rsum_scal_r. apply rsum_ext. intros c Hc. destruct (Hm a Ha) as (-> & _). destruct (Hm c Hc) as (-> & _). ring. }
    cbn beta in D. rewrite F in D. lra. }
  eapply is_derive_ext; [intros t; symmetry; apply Eq|]. auto_derive; [exact Logic.I|]. ring.
Qed.
Print Assumptions C29_profile_is_stationary.
Example C29_stationary_nonvacuous : exists I dl mp M q, set_internal_vars ex_env (gmod false true 1 (Some 1)) = Ok I /\ solves gsolve /\ profile gsolve (gmod false true 1 (Some 1)) I gdata (HPars (ghypo 0)) = Ok (dl, mp) /\
  pq_einsum (gmod false true 1 (Some 1)) I gdata [1] [0] = Ok (M, q) /\ (1 / 1000) ^ length (pm_nps (i_pm I)) <= Rabs (det (length (pm_nps (i_pm I))) M) /\ nps mp = [1].
Proof. destruct C29_nonvacuous as (I & dl & mp & M & q & ref & H1 & H2 & H3 & H4 & H5 & H6 & H7 & _). exists I, dl, mp, M, q. auto 10. Qed.
