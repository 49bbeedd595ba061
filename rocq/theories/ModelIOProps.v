(** Properties of saving, loading and copying models and datasets (core.py). *)
From Coq Require Import Permutation.
From Verif Require Import Py PyFacts Base BaseFacts Expressions ExprProps Norms Sample SampleFacts Channels ChannelFacts Params Core CoreFacts CoreExample ModelIO ModelIOFacts.
Local Open Scope string_scope.
Local Open Scope list_scope.

(** * C17 *)
(** the model that markup can express: [savable] (ModelIOFacts) lists the conditions.  Everything is read back, except
    for the options, which are those of the object that reads. *)
Theorem C17_model_save_load_roundtrip : forall E m m0 d, savable E m -> m_exprs m0 = [] ->
  exists sd, model_fill E m d = Ok sd /\
  exists m', model_read E m0 sd = Ok m' /\
    m_name m' = m_name m /\ m_descr m' = m_descr m /\ m_pois m' = m_pois m /\ m_nps m' = m_nps m /\ m_aux m' = m_aux m /\
    m_channels m' = m_channels m /\ m_exprs m' = m_exprs m /\
    m_asym m' = m_asym m0 /\ m_linear m' = m_linear m0 /\ m_simple_sym m' = m_simple_sym m0 /\ m_lognormal m' = m_lognormal m0 /\ m_cutoff m' = m_cutoff m0.
Proof.
  intros E m m0 d S He. destruct (model_roundtrip E m m0 d S He) as (sd & H1 & H2). exists sd. split; [exact H1|]. eexists. split; [exact H2|]. cbn. tauto.
Qed.
Print Assumptions C17_model_save_load_roundtrip.

(** a complete object (its internal variables have been computed), saved and loaded into an object with the same
    options: the same object, with the same internal variables, hence the same predictions and likelihood *)
Theorem C17_reloaded_object_is_identical : forall E mi m I m0 d,
  finish E mi = Ok (m, I) -> savable E m -> m_exprs m0 = [] ->
  m_asym m0 = m_asym m -> m_linear m0 = m_linear m -> m_simple_sym m0 = m_simple_sym m -> m_lognormal m0 = m_lognormal m -> m_cutoff m0 = m_cutoff m ->
  exists sd, model_fill E m d = Ok sd /\ model_load E m0 sd = Ok (m, I).
Proof.
  intros E mi m I m0 d HF S He O1 O2 O3 O4 O5. destruct (model_roundtrip E m m0 d S He) as (sd & H1 & H2). exists sd. split; [exact H1|].
  unfold model_load. rewrite H2, O1, O2, O3, O4, O5. cbn [bind].
  unfold finish in HF. apply bind_Ok in HF as (it & Hit & HF). inversion HF; subst m it; clear HF.
  pose proof (siv_idem _ _ _ Hit) as Hi. unfold finish. cbn [with_channels m_name m_descr m_pois m_nps m_aux m_channels m_exprs m_asym m_linear m_simple_sym m_lognormal m_cutoff].
  unfold with_channels in Hi. rewrite Hi. reflexivity.
Qed.
Print Assumptions C17_reloaded_object_is_identical.

(** C17: everything declared in the file is loaded, in the order of the file and under its own name; a name declared twice is an
    error (the names of each kind are distinct in whatever is loaded) *)
Definition loads {V} (load : dict jv -> res V) (nm : V -> option string) (v : jv) (e : string * V) : Prop :=
  exists d, v = JObj d /\ load d = Ok (snd e) /\ nm (snd e) = Some (fst e).
Lemma load_named_declared {V} (load : dict jv -> res V) (nm : V -> res string) (nm' : V -> option string) :
  (forall x n, nm x = Ok n -> nm' x = Some n) -> forall l acc r, foldM (fun acc v => load_named load nm v acc) l acc = Ok r ->
  (exists added, r = acc ++ added /\ Forall2 (loads load nm') l added) /\ (NoDup (keys acc) -> NoDup (keys r)).
Proof.
  intros Hnm l. induction l as [|v l IH]; intros acc r H; cbn [foldM] in H.
  - inversion H; subst. split; [exists []; rewrite app_nil_r; auto|auto].
  - apply bind_Ok in H as (a1 & H1 & H). unfold load_named in H1. destruct v as [| | | | | |d]; try discriminate.
    apply bind_Ok in H1 as (x & Hx & H1). apply bind_Ok in H1 as (n & Hn & H1). destruct (dmem n acc) eqn:Em; [discriminate|]. inversion H1; subst a1; clear H1.
    assert (Hnot : ~ In n (keys acc)) by (intros X; apply dmem_spec in X; congruence).
    destruct (IH _ _ H) as ((added & E & F) & Nd). split.
    + exists ((n, x) :: added). rewrite dset_app_new in E by exact Hnot. rewrite <- app_assoc in E. split; [exact E|]. constructor; [|exact F]. exists d. auto.
    + intros Hd. apply Nd. now apply NoDup_keys_dset.
Qed.
Lemma load_nps_all : forall l st r, foldM (fun st v => load_np v st) l st = Ok r ->
  (exists added, fst r = fst st ++ added /\ Forall2 (loads (np_load None) np_name) l added) /\ (NoDup (keys (fst st)) -> NoDup (keys (fst r))) /\
  (NoDup (keys (snd st)) -> NoDup (keys (snd r))) /\ (exists more, snd r = snd st ++ more) /\ (forall n p a, In (n, p) (fst r) -> np_aux_obs p = Some a -> In (n, p) (fst st) \/ In a (keys (snd r))).
Proof.
  induction l as [|v l IH]; intros st r H; cbn [foldM] in H.
  - inversion H; subst. split; [exists []; rewrite app_nil_r; auto|]. split; [auto|]. split; [auto|]. split; [exists []; now rewrite app_nil_r|auto].
  - apply bind_Ok in H as (a1 & H1 & H). unfold load_np in H1. destruct v as [| | | | | |d]; try discriminate.
    apply bind_Ok in H1 as (x & Hx & H1). apply bind_Ok in H1 as (n & Hn & H1). destruct (dmem n (fst st)) eqn:Em; [discriminate|]. inversion H1; subst a1; clear H1.
    assert (Hnot : ~ In n (keys (fst st))) by (intros X; apply dmem_spec in X; congruence).
    set (aux1 := match np_aux_obs x with Some a => if dmem a (snd st) then snd st else dset a (mkAux (Some a) None None (np_unit x) None) (snd st) | None => snd st end) in *.
    assert (A1 : (NoDup (keys (snd st)) -> NoDup (keys aux1)) /\ (exists more, aux1 = snd st ++ more) /\ (forall a, np_aux_obs x = Some a -> In a (keys aux1))).
    { unfold aux1. destruct (np_aux_obs x) as [a|]; [|split; [auto|split; [exists []; now rewrite app_nil_r|discriminate]]].
      destruct (dmem a (snd st)) eqn:Ea; [split; [auto|split; [exists []; now rewrite app_nil_r|intros a0 [= <-]; now apply dmem_spec]]|].
      assert (Hna : ~ In a (keys (snd st))) by (intros X; apply dmem_spec in X; congruence).
      split; [intros; now apply NoDup_keys_dset|]. rewrite dset_app_new by exact Hna. split; [eexists; reflexivity|]. intros a0 [= <-]. unfold keys. rewrite map_app. apply in_or_app. right. now left. }
    destruct A1 as (A1 & (more1 & A2) & A3). destruct (IH _ _ H) as ((added & E & F) & Nd & Na & (more & M) & Aux). cbn [fst snd] in *. split; [|split; [|split; [|split]]].
    + exists ((n, x) :: added). rewrite dset_app_new in E by exact Hnot. rewrite <- app_assoc in E. split; [exact E|]. constructor; [|exact F]. exists d. split; [reflexivity|]. split; [exact Hx|].
      cbn [fst snd]. unfold name_of in Hn. destruct (np_name x); [now inversion Hn|discriminate].
    + intros Hd. apply Nd. now apply NoDup_keys_dset.
    + auto.
    + exists (more1 ++ more). now rewrite M, A2, app_assoc.
    + intros n0 p a Hi Ha. destruct (Aux n0 p a Hi Ha) as [Q|Q]; [|now right]. rewrite dset_app_new in Q by exact Hnot. apply in_app_or in Q as [Q|[Q|[]]]; [now left|].
      inversion Q; subst n0 p. right. rewrite M. unfold keys. rewrite map_app. apply in_or_app. left. now apply A3.
Qed.
Theorem C17_everything_declared_is_loaded : forall E m0 sdict m, model_read E m0 sdict = Ok m -> NoDup (keys (m_exprs m0)) ->
  exists md pois chs, dget "model" sdict = Some (JObj md) /\ dget "POIs" md = Some (JList pois) /\ dget "channels" md = Some (JList chs) /\
  Forall2 (loads (poi_load None) poi_name) pois (m_pois m) /\ NoDup (keys (m_pois m)) /\
  Forall2 (loads (channel_load (e_float E) (e_inv E)) (fun c => Some (ch_name c))) chs (m_channels m) /\ NoDup (keys (m_channels m)) /\
  (forall l, dget "NPs" md = Some (JList l) -> Forall2 (loads (np_load None) np_name) l (m_nps m)) /\ (dget "NPs" md = None -> m_nps m = []) /\ NoDup (keys (m_nps m)) /\
  (forall l, dget "expressions" md = Some (JList l) -> exists ex, m_exprs m = m_exprs m0 ++ ex /\ Forall2 (loads expr_instantiate (fun e => Some (expr_name e))) l ex) /\ NoDup (keys (m_exprs m)) /\
  (forall l, dget "aux_obs" md = Some (JList l) -> exists ax more, m_aux m = ax ++ more /\ Forall2 (loads (aux_load None) aux_name) l ax) /\ NoDup (keys (m_aux m)) /\
  (forall n p a, In (n, p) (m_nps m) -> np_aux_obs p = Some a -> In a (keys (m_aux m))).
Proof.
  intros E m0 sdict m H Hd0. unfold model_read in H. apply bind_Ok in H as (mv & Hm & H). destruct mv as [| | | | | |md]; try discriminate.
  apply bind_Ok in H as (poil & Hpl & H). apply bind_Ok in H as (chl & Hcl & H). apply bind_Ok in H as (nm & _ & H). apply bind_Ok in H as (ds & _ & H).
  apply bind_Ok in H as (ps & Hp & H). apply bind_Ok in H as (auxl & Hal & H). apply bind_Ok in H as (aux & Ha & H). apply bind_Ok in H as (npl & Hnl & H). apply bind_Ok in H as (na & Hn & H).
  apply bind_Ok in H as (exl & Hel & H). apply bind_Ok in H as (ex & He & H). apply bind_Ok in H as (chs & Hc & H). inversion H; subst m; clear H.
  cbn [m_pois m_nps m_aux m_channels m_exprs].
  assert (J : forall k l, bind (dgetE k md) jlist = Ok l -> dget k md = Some (JList l)).
  { intros k l Hk. unfold dgetE in Hk. destruct (dget k md) as [[]|]; try discriminate. now inversion Hk. }
  assert (S : forall k l, section k md = Ok l -> (forall l', dget k md = Some (JList l') -> l' = l) /\ (dget k md = None -> l = [])).
  { intros k l Hk. unfold section in Hk. destruct (dget k md) as [[]|]; split; intros; try discriminate; inversion Hk; subst; congruence. }
  exists md, poil, chl. split; [unfold dgetE in Hm; destruct (dget "model" sdict); now inversion Hm|]. split; [now apply J|]. split; [now apply J|].
  assert (Nm : forall (o : option string) n, name_of o = Ok n -> o = Some n) by (intros [x|] n Hx; now inversion Hx).
  destruct (load_named_declared _ _ poi_name (fun x n => Nm (poi_name x) n) _ _ _ Hp) as ((ap & -> & Fp) & Np). specialize (Np (NoDup_nil _)). cbn [app] in *.
  destruct (load_named_declared _ _ aux_name (fun x n => Nm (aux_name x) n) _ _ _ Ha) as ((ax & -> & Fa) & Na). specialize (Na (NoDup_nil _)). cbn [app] in *.
  destruct (load_named_declared expr_instantiate (fun e => Ok (expr_name e)) (fun e => Some (expr_name e)) ltac:(intros x n [= <-]; reflexivity) _ _ _ He) as ((ae & -> & Fe) & Ne). specialize (Ne Hd0).
  destruct (load_named_declared _ (fun c => Ok (ch_name c)) (fun c => Some (ch_name c)) ltac:(intros x n [= <-]; reflexivity) _ _ _ Hc) as ((ac & -> & Fc) & Nc). specialize (Nc (NoDup_nil _)). cbn [app] in *.
  destruct (load_nps_all _ _ _ Hn) as ((an & En & Fn) & Nn & Nx & (more & Em) & Ax). cbn [fst snd app] in *. specialize (Nn (NoDup_nil _)). specialize (Nx Na).
  do 2 (split; [assumption|]). split. 
  { eapply Forall2_impl_in; [|exact Fc]. cbn. intros v e _ (d & -> & Hl & Hk). exists d. split; [reflexivity|]. split; [|exact Hk]. unfold load_channel in Hl. apply bind_Ok in Hl as (c & Hl & Hl2). rewrite Hl.
    match type of Hl2 with context [if ?b then _ else _] => destruct b end; [exact Hl2|discriminate]. }
  split; [assumption|]. split; [intros l Hl; apply S in Hnl; rewrite (proj1 Hnl l Hl), En; exact Fn|].
  split; [intros Hl; apply S in Hnl; rewrite (proj2 Hnl Hl) in Fn; inversion Fn; congruence|]. split; [assumption|].
  split; [intros l Hl; apply S in Hel; rewrite (proj1 Hel l Hl); eauto|]. split; [assumption|].
  split; [intros l Hl; apply S in Hal; rewrite (proj1 Hal l Hl); eauto|]. split; [assumption|].
  intros n p a Hi Hx. destruct (Ax n p a Hi Hx) as [[]|Q]. exact Q.
Qed.
Print Assumptions C17_everything_declared_is_loaded.


Lemma ex_savable : savable ex_env ex_model /\ exists I, finish ex_env ex_model = Ok (with_channels ex_model ex_channels', I) /\ savable ex_env (with_channels ex_model ex_channels').
Proof.
  assert (A : forall chs, (forall k c, In (k, c) chs -> ch_name c = k /\ is_gaussian c = false /\ NoDup (keys (ch_samples c)) /\
      forall k' s, In (k', s) (ch_samples c) -> s_name s = k' /\ (forall n, s_norm s = ExprNorm n -> e_float ex_env n = None) /\ forall y, s_yields s = Some y -> length y = nbins c) ->
    keys chs = ["SR"; "CR"] -> savable ex_env (with_channels ex_model chs)).
  { intros chs Hc Hk. constructor; cbn.
    - split; [repeat constructor; cbn; intuition|]. intros k p [[= <- <-]|[]]. cbn. repeat split; discriminate.
    - split; [repeat constructor; cbn; intuition congruence|]. intros k p [[= <- <-]|[[= <- <-]|[]]]; cbn; repeat split; try congruence; intros a [= <-]; auto.
    - split; [repeat constructor; cbn; intuition|]. intros k p [[= <- <-]|[]]. reflexivity.
    - split; [constructor|]. intros k e [].
    - split; [fold (keys chs); rewrite Hk; repeat constructor; cbn; intuition congruence|exact Hc]. }
  assert (B : savable ex_env (with_channels ex_model ex_channels)).
  { apply A; [|reflexivity]. intros k c [[= <- <-]|[[= <- <-]|[]]]; cbn; (split; [reflexivity|]; split; [reflexivity|]; split; [repeat constructor; cbn; intuition congruence|]);
    intros k' s; [intros [[= <- <-]|[[= <- <-]|[]]]|intros [[= <- <-]|[]]]; cbn; split; try reflexivity; split; try (intros n [= <-]; reflexivity); try (intros y [= <-]; reflexivity); intros n [=]. }
  split; [exact B|]. destruct ex_built_full as (I & HI & Hc & _). exists I. unfold finish. rewrite HI. cbn [bind]. rewrite Hc. split; [reflexivity|].
  apply A; [|reflexivity]. intros k c [[= <- <-]|[[= <- <-]|[]]]; cbn; (split; [reflexivity|]; split; [reflexivity|]; split; [repeat constructor; cbn; intuition congruence|]);
    intros k' s; [intros [[= <- <-]|[[= <- <-]|[]]]|intros [[= <- <-]|[]]]; cbn; split; try reflexivity; split; try (intros n [= <-]; reflexivity); try (intros y [= <-]; reflexivity); intros n [=].
Qed.
Example C17_nonvacuous : exists I sd, model_fill ex_env (with_channels ex_model ex_channels') [] = Ok sd /\
  model_load ex_env (new_model true true) sd = Ok (with_channels ex_model ex_channels', I).
Proof.
  destruct ex_savable as (_ & I & HF & S). destruct (C17_reloaded_object_is_identical ex_env ex_model _ I (new_model true true) [] HF S) as (sd & H1 & H2); try reflexivity. eauto.
Qed.

(** the options are not part of the saved contents: models that differ by them only are saved in the same way, and both
    are read back with the default cutoff *)
Theorem C17_options_not_saved_refuted : forall E m asym linear cutoff d,
  model_fill E (mkModel (m_name m) (m_descr m) (m_pois m) (m_nps m) (m_aux m) (m_channels m) (m_exprs m) asym linear (m_simple_sym m) (m_lognormal m) cutoff) d = model_fill E m d /\
  forall a l sd m', model_fill E m d = Ok sd -> model_read E (new_model a l) sd = Ok m' -> m_cutoff m' = 0 /\ m_asym m' = a /\ m_linear m' = l.
Proof.
  intros E m asym linear cutoff d. split; [reflexivity|]. intros a l sd m' _ H. unfold model_read in H. apply bind_Ok in H as (mv & _ & H). destruct mv; try discriminate.
  repeat (let H1 := fresh in apply bind_Ok in H as (? & H1 & H)). inversion H. cbn. auto.
Qed.
Print Assumptions C17_options_not_saved_refuted.

(** a Gaussian channel is read back as a Poisson one, so the model is not the same *)
Theorem C17_gaussian_channels_lost_refuted : forall E nm bins h cov sm d,
  samples_ok (e_float E) sm -> e_inv E (length bins) h = Ok cov -> (forall k s, In (k, s) sm -> s_yields s = None) ->
  let m := mkModel "m" None [] [] [] [(nm, mkChannel nm (KGauss bins (Some h)) sm)] [] true true true false 0 in
  exists sd, model_fill E m d = Ok sd /\ exists m', model_read E (new_model true true) sd = Ok m' /\ m_channels m' = [(nm, mkChannel nm (KMulti bins) sm)].
Proof.
  intros E nm bins h cov sm d Hs Hi Hy m. unfold model_fill, m. cbn [m_channels values map snd mapM m_name m_descr m_pois m_nps m_exprs m_aux].
  destruct (gaussian_reload (e_float E) (e_inv E) nm bins h cov sm Hs Hi) as (dd & Hd & Hl). rewrite Hd. cbn [bind]. eexists; split; [reflexivity|].
  unfold model_read, dgetE at 1. rewrite dget_dset_eq. cbn [bind]. cbn [dget dgetE String.eqb Ascii.eqb Bool.eqb jlist bind load_field as_str as_ostr section foldM app map new_model m_exprs].
  cbn. unfold load_channel. rewrite Hl. cbn [bind ch_samples].
  rewrite (proj2 (forallb_forall _ _)).
  - eexists. split; reflexivity.
  - intros s Hin. apply in_map_iff in Hin as ([k s'] & E1 & Hin). cbn in E1; subst s'. now rewrite (Hy k s Hin).
Qed.
Print Assumptions C17_gaussian_channels_lost_refuted.

(** * C68: loading into an object that was used before *)
Theorem C68_load_ignores_previous_contents : forall E m0 m1 sd, m_exprs m0 = m_exprs m1 ->
  m_asym m0 = m_asym m1 -> m_linear m0 = m_linear m1 -> m_simple_sym m0 = m_simple_sym m1 -> m_lognormal m0 = m_lognormal m1 -> m_cutoff m0 = m_cutoff m1 ->
  model_load E m0 sd = model_load E m1 sd.
Proof. intros E m0 m1 sd H1 H2 H3 H4 H5 H6. unfold model_load, model_read. rewrite H1, H2, H3, H4, H5, H6. reflexivity. Qed.
Print Assumptions C68_load_ignores_previous_contents.
Example C68_nonvacuous : exists m0 m1, m_exprs m0 = m_exprs m1 /\ m_pois m0 <> m_pois m1 /\ m_channels m0 <> m_channels m1 /\ m_cutoff m0 = m_cutoff m1.
Proof. exists ex_model, (new_model true true). repeat split; discriminate. Qed.

Lemma load_named_dup {V} (load : dict jv -> res V) (nm : V -> res string) (fill : V -> dict jv) : forall (d acc : dict V),
  (forall k v, In (k, v) d -> load (fill v) = Ok v /\ nm v = Ok k) -> (exists k, In k (keys acc) /\ In k (keys d)) ->
  foldM (fun acc v => load_named load nm v acc) (map (fun v => JObj (fill v)) (values d)) acc = Err ValueError.
Proof.
  induction d as [|[k v] d IH]; intros acc H (k0 & Ha & Hd); [destruct Hd|]. cbn [values map foldM].
  destruct (H k v (or_introl eq_refl)) as [Hl Hn]. cbn [snd] in *. cbn [load_named]. rewrite Hl. cbn [bind]. rewrite Hn. cbn [bind].
  destruct (dmem k acc) eqn:Em; cbn [bind]; [reflexivity|].
  apply IH; [intros; apply H; now right|]. exists k0. destruct Hd as [Hd|Hd]; [cbn in Hd; subst; apply dmem_spec in Ha; congruence|].
  split; [|exact Hd]. apply dmem_spec. apply dmem_spec in Ha. unfold dmem in *. destruct (String.eqb_spec k0 k) as [->|Hne]; [now rewrite dget_dset_eq|now rewrite dget_dset_neq].
Qed.
(** expressions of the previous contents are kept: a name in both contents is an error, so that loading the same model
    twice into an object fails as soon as it has an expression *)
Theorem C68_expressions_not_reset_refuted : forall E m m0 d sd, savable E m -> model_fill E m d = Ok sd ->
  ((exists k, In k (keys (m_exprs m0)) /\ In k (keys (m_exprs m))) -> model_read E m0 sd = Err ValueError) /\
  (NoDup (keys (m_exprs m0) ++ keys (m_exprs m)) -> exists m', model_read E m0 sd = Ok m' /\ m_exprs m' = m_exprs m0 ++ m_exprs m).
Proof.
  intros E m m0 d sd S Hf.
  assert (Hsv : forall k e, In (k, e) (m_exprs m) -> expr_instantiate (expr_fill e []) = Ok e /\ (fun e => Ok (expr_name e)) e = Ok k).
  { intros k e Hin. destruct (proj2 (sv_exprs _ _ S) k e Hin) as [A B]. split; [apply C07_expression_save_load_roundtrip; exact B|now rewrite A]. }
  set (mp := mkModel "" None [] [] [] [] [] (m_asym m0) (m_linear m0) (m_simple_sym m0) (m_lognormal m0) (m_cutoff m0)).
  destruct (model_roundtrip E m mp d S eq_refl) as (sd' & Hf' & Hr). rewrite Hf in Hf'. inversion Hf'; subst sd'; clear Hf'.
  unfold model_read in Hr |- *. apply bind_Ok in Hr as (mv & Hmv & Hr). rewrite Hmv. cbn [bind]. destruct mv as [| | | | | |md]; try discriminate.
  assert (G3 : section "expressions" md = Ok (map (fun p => JObj (expr_fill p [])) (values (m_exprs m)))).
  { unfold model_fill in Hf. apply bind_Ok in Hf as (chs & _ & Hf). inversion Hf; subst sd. unfold dgetE in Hmv. rewrite dget_dset_eq in Hmv. inversion Hmv. unfold section. destruct (m_descr m); reflexivity. }
  apply bind_Ok in Hr as (poil & H1 & Hr). rewrite H1. cbn [bind]. apply bind_Ok in Hr as (chl & H2 & Hr). rewrite H2. cbn [bind].
  apply bind_Ok in Hr as (nm & H3 & Hr). rewrite H3. cbn [bind]. apply bind_Ok in Hr as (de & H4 & Hr). rewrite H4. cbn [bind].
  apply bind_Ok in Hr as (ps & H5 & Hr). rewrite H5. cbn [bind]. apply bind_Ok in Hr as (al & H6 & Hr). rewrite H6. cbn [bind].
  apply bind_Ok in Hr as (au & H7 & Hr). rewrite H7. cbn [bind]. apply bind_Ok in Hr as (nl & H8 & Hr). rewrite H8. cbn [bind].
  apply bind_Ok in Hr as (na & H9 & Hr). rewrite H9. cbn [bind]. apply bind_Ok in Hr as (el & H10 & Hr). rewrite H10. cbn [bind].
  rewrite G3 in H10. inversion H10; subst el. apply bind_Ok in Hr as (ex & H11 & Hr).
  apply bind_Ok in Hr as (ch & H12 & Hr). rewrite H12.
  split.
  - intros Hk. rewrite (load_named_dup expr_instantiate (fun e => Ok (expr_name e)) (fun p => expr_fill p []) (m_exprs m) (m_exprs m0) Hsv Hk). reflexivity.
  - intros HN. rewrite (load_named_all expr_instantiate (fun e => Ok (expr_name e)) (fun p => expr_fill p []) (m_exprs m) (m_exprs m0) Hsv HN). cbn [bind]. eexists; split; reflexivity.
Qed.
Print Assumptions C68_expressions_not_reset_refuted.

(** * C67: copies of models *)
(** dictionary keys are the object names *)
Record keyed (m : Model) : Prop := mkKeyed {
  ky_pois : NoDup (keys (m_pois m)) /\ forall k p, In (k, p) (m_pois m) -> poi_name p = Some k;
  ky_nps : NoDup (keys (m_nps m)) /\ forall k p, In (k, p) (m_nps m) -> np_name p = Some k /\ forall a, np_aux_obs p = Some a -> In a (keys (m_aux m));
  ky_aux : NoDup (keys (m_aux m)) /\ forall k a, In (k, a) (m_aux m) -> aux_name a = Some k;
  ky_exprs : NoDup (keys (m_exprs m)) /\ forall k e, In (k, e) (m_exprs m) -> expr_name e = k;
  ky_chs : NoDup (keys (m_channels m)) /\ forall k c, In (k, c) (m_channels m) -> ch_name c = k /\ NoDup (keys (ch_samples c)) /\ forall k' s, In (k', s) (ch_samples c) -> s_name s = k' }.

Lemma rekey_id {V} (nm : V -> res string) : forall (d acc : dict V), NoDup (keys acc ++ keys d) -> (forall k v, In (k, v) d -> nm v = Ok k) ->
  foldM (fun acc v => let! n := nm v in Ok (dset n v acc)) (values d) acc = Ok (acc ++ d).
Proof.
  induction d as [|[k v] d IH]; intros acc HN H; cbn [values map foldM]; [now rewrite app_nil_r|]. cbn [snd]. rewrite (H k v (or_introl eq_refl)). cbn [bind].
  cbn [keys map fst] in HN. pose proof (NoDup_mid _ _ _ HN) as Hk. rewrite dset_app_new by exact Hk. unfold values in IH. rewrite IH.
  - rewrite <- app_assoc. reflexivity.
  - unfold keys in *. rewrite map_app, <- app_assoc. exact HN.
  - intros; apply H; now right.
Qed.
Lemma rekey_nps (aux : dict Aux) : forall (d acc : dict NP), NoDup (keys acc ++ keys d) ->
  (forall k p, In (k, p) d -> np_name p = Some k /\ forall a, np_aux_obs p = Some a -> In a (keys aux)) ->
  foldM (fun acc p => match np_aux_obs p with
                      | Some a => if dmem a aux then let! n := name_of (np_name p) in Ok (dset n p acc) else Err ValueError
                      | None => let! n := name_of (np_name p) in Ok (dset n p acc)
                      end) (values d) acc = Ok (acc ++ d).
Proof.
  induction d as [|[k p] d IH]; intros acc HN H; cbn [values map foldM]; [now rewrite app_nil_r|]. cbn [snd]. destruct (H k p (or_introl eq_refl)) as [Hn Ha].
  cbn [keys map fst] in HN. pose proof (NoDup_mid _ _ _ HN) as Hk.
  assert (A : match np_aux_obs p with
              | Some a => if dmem a aux then let! n := name_of (np_name p) in Ok (dset n p acc) else Err ValueError
              | None => let! n := name_of (np_name p) in Ok (dset n p acc) end = Ok (acc ++ [(k, p)])).
  { destruct (np_aux_obs p) as [a|]; [rewrite (proj2 (dmem_spec a aux) (Ha a eq_refl))|]; rewrite Hn; cbn [name_of bind]; now rewrite dset_app_new by exact Hk. }
  rewrite A. cbn [bind]. unfold values in IH. rewrite IH.
  - rewrite <- app_assoc. reflexivity.
  - unfold keys in *. rewrite map_app, <- app_assoc. exact HN.
  - intros; apply H; now right.
Qed.
Lemma clone_channels : forall (d acc : dict Channel), NoDup (keys acc ++ keys d) ->
  (forall k c, In (k, c) d -> channel_clone c = Ok c /\ ch_name c = k) ->
  foldM (fun acc c => let! c' := channel_clone c in Ok (dset (ch_name c') c' acc)) (values d) acc = Ok (acc ++ d).
Proof.
  induction d as [|[k c] d IH]; intros acc HN H; cbn [values map foldM]; [now rewrite app_nil_r|]. cbn [snd]. destruct (H k c (or_introl eq_refl)) as [Hc Hn]. rewrite Hc. cbn [bind]. rewrite Hn.
  cbn [keys map fst] in HN. pose proof (NoDup_mid _ _ _ HN) as Hk. rewrite dset_app_new by exact Hk. unfold values in IH. rewrite IH.
  - rewrite <- app_assoc. reflexivity.
  - unfold keys in *. rewrite map_app, <- app_assoc. exact HN.
  - intros; apply H; now right.
Qed.

Lemma clone_channel_id c : is_gaussian c = false -> NoDup (keys (ch_samples c)) -> (forall k s, In (k, s) (ch_samples c) -> s_name s = k) -> channel_clone c = Ok c.
Proof.
  intros Hg HN Hs. unfold channel_clone, is_gaussian in *. destruct c as [nm kd sm]. cbn [ch_kind ch_samples ch_name] in *.
  pose proof (fold_samples_clone sm [] Hs HN) as A. cbn [app] in A. rewrite A. destruct kd; try discriminate; reflexivity.
Qed.

Definition with_cutoff (m : Model) (x : R) : Model :=
  mkModel (m_name m) (m_descr m) (m_pois m) (m_nps m) (m_aux m) (m_channels m) (m_exprs m) (m_asym m) (m_linear m) (m_simple_sym m) (m_lognormal m) x.

(** the copy of a complete model without Gaussian channels and without cutoff is the same model, with the same internal
    variables: it makes the same predictions *)
Theorem C67_clone_is_identical : forall E mi m I, finish E mi = Ok (m, I) -> keyed m ->
  (forall k c, In (k, c) (m_channels m) -> is_gaussian c = false) ->
  model_clone E m None = Ok (with_cutoff m 0, I).
Proof.
  intros E mi m I HF K Hg. unfold model_clone.
  rewrite (clone_channels (m_channels m) []).
  2: exact (proj1 (ky_chs _ K)).
  2: { intros k c Hin. destruct (proj2 (ky_chs _ K) k c Hin) as (A & B & C). split; [apply clone_channel_id; auto; apply (Hg k c Hin)|exact A]. }
  cbn [bind app]. unfold model_init, rekey. cbn [m_pois m_nps m_aux m_channels m_exprs m_name m_descr m_asym m_linear m_simple_sym m_lognormal].
  pose proof (rekey_id (fun p => name_of (poi_name p)) (m_pois m) [] (proj1 (ky_pois _ K)) (fun k p Hin => f_equal name_of (proj2 (ky_pois _ K) k p Hin))) as R1.
  pose proof (rekey_nps (m_aux m) (m_nps m) [] (proj1 (ky_nps _ K)) (proj2 (ky_nps _ K))) as R2.
  pose proof (rekey_id (fun p => name_of (aux_name p)) (m_aux m) [] (proj1 (ky_aux _ K)) (fun k p Hin => f_equal name_of (proj2 (ky_aux _ K) k p Hin))) as R3.
  pose proof (rekey_id (fun c => Ok (ch_name c)) (m_channels m) [] (proj1 (ky_chs _ K)) (fun k p Hin => f_equal Ok (proj1 (proj2 (ky_chs _ K) k p Hin)))) as R4.
  pose proof (rekey_id (fun e => Ok (expr_name e)) (m_exprs m) [] (proj1 (ky_exprs _ K)) (fun k p Hin => f_equal Ok (proj2 (ky_exprs _ K) k p Hin))) as R5.
  cbn [app] in R1, R2, R3, R4, R5. cbn [bind] in *. rewrite R1. cbn [bind]. rewrite R2. cbn [bind]. rewrite R3. cbn [bind]. rewrite R4. cbn [bind]. rewrite R5. cbn [bind].
  unfold finish in HF. apply bind_Ok in HF as (it & Hit & HF). inversion HF; subst m it; clear HF. pose proof (siv_idem _ _ _ Hit) as Hi.
  cbn [with_channels m_name m_descr m_pois m_nps m_aux m_channels m_exprs m_asym m_linear m_simple_sym m_lognormal m_cutoff].
  assert (Hz : set_internal_vars E (with_cutoff (with_channels mi (i_channels I)) 0) = Ok I) by exact Hi.
  unfold with_cutoff, with_channels in Hz. cbn [m_name m_descr m_pois m_nps m_aux m_channels m_exprs m_asym m_linear m_simple_sym m_lognormal m_cutoff] in Hz.
  unfold finish. rewrite Hz. cbn [bind fst with_channels m_name m_descr m_pois m_nps m_aux m_channels m_exprs m_asym m_linear m_simple_sym m_lognormal m_cutoff].
  unfold with_channels. cbn [m_name m_descr m_pois m_nps m_aux m_channels m_exprs m_asym m_linear m_simple_sym m_lognormal m_cutoff]. rewrite Hz. reflexivity.
Qed.
Print Assumptions C67_clone_is_identical.
Example C67_nonvacuous : exists I, model_clone ex_env (with_channels ex_model ex_channels') None = Ok (with_channels ex_model ex_channels', I).
Proof.
  destruct ex_savable as (_ & I & HF & S). exists I. rewrite (C67_clone_is_identical ex_env ex_model _ I HF); [reflexivity| |].
  - constructor.
    + split; [apply (sv_pois _ _ S)|]. intros k p Hin. apply (proj2 (sv_pois _ _ S) k p Hin).
    + split; [apply (sv_nps _ _ S)|]. intros k p Hin. split; apply (proj2 (sv_nps _ _ S) k p Hin).
    + split; [apply (sv_aux _ _ S)|]. intros k p Hin. apply (proj2 (sv_aux _ _ S) k p Hin).
    + split; [apply (sv_exprs _ _ S)|]. intros k p Hin. apply (proj2 (sv_exprs _ _ S) k p Hin).
    + split; [apply (sv_chs _ _ S)|]. intros k p Hin. destruct (proj2 (sv_chs _ _ S) k p Hin) as (A & _ & B & C). split; [exact A|]. split; [exact B|]. intros k' s Hs. apply (C k' s Hs).
  - intros k c Hin. apply (proj2 (sv_chs _ _ S) k c Hin).
Qed.

(** the cutoff is lost, and models with a Gaussian channel (that has a sample) cannot be copied *)
Theorem C67_clone_loses_cutoff_refuted : forall E m name m' I, model_clone E m name = Ok (m', I) -> m_cutoff m' = 0.
Proof.
  intros E m name m' I H. unfold model_clone in H. apply bind_Ok in H as (chs & _ & H). apply bind_Ok in H as ([m1 I1] & H1 & H). cbn [fst] in H.
  unfold model_init in H1. repeat (let Hx := fresh in apply bind_Ok in H1 as (? & Hx & H1)).
  inversion H1; subst m1. unfold finish in H. apply bind_Ok in H as (it & _ & H). inversion H. reflexivity.
Qed.
Print Assumptions C67_clone_loses_cutoff_refuted.
Theorem C67_gaussian_clone_refuted : forall E m name k c k' s, In (k, c) (m_channels m) -> is_gaussian c = true -> In (k', s) (ch_samples c) ->
  exists e, model_clone E m name = Err e.
Proof.
  intros E m name k c k' s Hin Hg Hs. unfold model_clone.
  assert (A : forall l acc, In c l -> exists e, foldM (fun acc c => let! c' := channel_clone c in Ok (dset (ch_name c') c' acc)) l acc = Err e).
  { induction l as [|c0 l IH]; intros acc Hl; [destruct Hl|]. cbn [foldM]. destruct (channel_clone c0) as [c1|e] eqn:Ec; cbn [bind]; [|eauto].
    destruct Hl as [->|Hl]; [|apply IH, Hl]. exfalso. unfold channel_clone, is_gaussian in *. destruct (ch_kind c); try discriminate. destruct (ch_samples c); [destruct Hs|discriminate]. }
  destruct (A (values (m_channels m)) []) as (e & He); [change c with (snd (k, c)); now apply in_map|]. rewrite He. cbn [bind]. eauto.
Qed.
Print Assumptions C67_gaussian_clone_refuted.
