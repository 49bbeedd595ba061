(** Lemmas on the model of Model.load_dict, Model.fill_dict and Data. *)
From Verif Require Import Py PyFacts Base BaseFacts Expressions ExprProps Norms Sample SampleFacts Channels ChannelFacts Params Core CoreFacts ModelIO.
Local Open Scope string_scope.
Local Open Scope list_scope.

(** * computing the internal variables twice *)
Lemma np_impacts_idem (im : string * R * R -> res (option (dict jv))) :
  forall (l : list (string * R * R)) d d',
  let step := fun imps p => if dmem (fst (fst p)) imps then Ok imps
      else let! i := im p in match i with None => Ok imps | Some x => Ok (dset (fst (fst p)) (JObj x) imps) end in
  foldM step l d = Ok d' ->
  (forall k, In k (keys d) -> In k (keys d')) /\ forall p, In p l -> In (fst (fst p)) (keys d') \/ im p = Ok None.
Proof.
  induction l as [|p l IH]; intros d d' step H; cbn [foldM] in H.
  - inversion H; subst. split; [auto|intros p []].
  - apply bind_Ok in H as (d1 & H1 & H). destruct (IH d1 d' H) as [A B]. unfold step in H1 at 1. destruct (dmem (fst (fst p)) d) eqn:Em.
    + inversion H1; subst d1. split; [exact A|]. intros q [<-|Hq]; [left; apply A, dmem_spec, Em|apply B, Hq].
    + apply bind_Ok in H1 as (i & Hi & H1). destruct i as [x|]; inversion H1; subst d1.
      * assert (K : In (fst (fst p)) (keys (dset (fst (fst p)) (JObj x) d))).
        { apply dmem_spec. unfold dmem. now rewrite dget_dset_eq. }
        split.
        -- intros k Hk. apply A. apply dmem_spec. apply dmem_spec in Hk. unfold dmem in *. destruct (String.eqb_spec k (fst (fst p))) as [->|Hn]; [now rewrite dget_dset_eq|now rewrite dget_dset_neq].
        -- intros q [<-|Hq]; [left; apply A, K|apply B, Hq].
      * split; [exact A|]. intros q [<-|Hq]; [now right|apply B, Hq].
Qed.
Lemma np_impacts_stable (im : string * R * R -> res (option (dict jv))) l d :
  (forall p, In p l -> In (fst (fst p)) (keys d) \/ im p = Ok None) ->
  foldM (fun imps p => if dmem (fst (fst p)) imps then Ok imps
      else let! i := im p in match i with None => Ok imps | Some x => Ok (dset (fst (fst p)) (JObj x) imps) end) l d = Ok d.
Proof.
  induction l as [|p l IH]; intros H; cbn [foldM]; [reflexivity|].
  destruct (dmem (fst (fst p)) d) eqn:Em; cbn [bind].
  - apply IH. intros q Hq; apply H; now right.
  - destruct (H p (or_introl eq_refl)) as [Hk| ->]; [apply dmem_spec in Hk; congruence|]. cbn [bind]. apply IH. intros q Hq; apply H; now right.
Qed.

Lemma set_np_data_idem fuel fmt nps rls rv var s s' : set_np_data fuel fmt nps rls rv var s = Ok s' -> set_np_data fuel fmt nps rls rv var s' = Ok s'.
Proof.
  unfold set_np_data. intros H. apply bind_Ok in H as (y & Hy & H). apply bind_Ok in H as (im & Him & H). inversion H; subst s'; clear H.
  cbn [s_name s_norm s_nominal_norm s_yields s_impacts].
  destruct (np_impacts_idem (fun p => implicit_impact fuel fmt (s_norm s) (fst (fst p)) (snd (fst p)) (snd p) rls rv var) nps _ _ Him) as [_ B].
  rewrite (np_impacts_stable (fun p => implicit_impact fuel fmt (s_norm s) (fst (fst p)) (snd (fst p)) (snd p) rls rv var) nps im B).
  set (nom := fold_left _ _ _) in *.
  destruct (s_nominal_norm s) as [x|] eqn:En.
  - destruct (s_yields s); inversion Hy; subst y; reflexivity.
  - destruct (s_norm s) as [[v|]|n] eqn:Es.
    + cbn in Hy |- *. destruct (s_yields s); inversion Hy; subst y; reflexivity.
    + destruct (s_yields s); inversion Hy; subst y; reflexivity.
    + destruct (s_yields s) as [yy|]; cbn [norm_value] in Hy |- *; destruct (if n =? "" then Ok 1 else dgetE n nom); inversion Hy; subst y; reflexivity.
Qed.

Lemma update_channel_idem E pm rls rv c c' : update_channel E pm rls rv c = Ok c' -> update_channel E pm rls rv c' = Ok c'.
Proof.
  unfold update_channel. intros H. apply bind_Ok in H as (sm & Hsm & H). inversion H; subst c'; clear H. cbn [ch_samples ch_name ch_kind].
  assert (A : mapM (fun ks : string * Sample => let! s := set_np_data (e_fuel E) (e_fmt E) (pm_nps pm) rls rv 1 (snd ks) in Ok (fst ks, s)) sm = Ok sm).
  { apply mapM_Forall2 in Hsm. apply Forall2_mapM. induction Hsm as [|a b l r H1 H2 IH]; constructor; [|exact IH].
    apply bind_Ok in H1 as (s & Hs & H1). inversion H1; subst b. cbn [fst snd]. rewrite (set_np_data_idem _ _ _ _ _ _ _ _ Hs). reflexivity. }
  rewrite A. reflexivity.
Qed.

Lemma hess_blocks_kind (l r : dict Channel) : Forall2 (fun kc kc' => ch_kind (snd kc') = ch_kind (snd kc)) l r -> forall n h, hess_blocks r n h = hess_blocks l n h.
Proof.
  induction 1 as [|[k c] [k' c'] l r H1 H2 IH]; intros n h; cbn [hess_blocks]; [reflexivity|]. cbn [snd] in H1. rewrite H1.
  destruct (ch_kind c); auto. destruct hess; auto.
Qed.
Lemma pf_id_kind (l r : dict Channel) : Forall2 (fun kc kc' => ch_kind (snd kc') = ch_kind (snd kc)) (poisson_first l) r -> poisson_first r = r.
Proof.
  intros H. unfold poisson_first in H. apply Forall2_app_inv_l in H as (r1 & r2 & H1 & H2 & ->). unfold poisson_first. rewrite !filter_app.
  assert (A : forall x, In x r1 -> is_gaussian (snd x) = false).
  { assert (A0 : forall x, In x (filter (fun c : string * Channel => negb (is_gaussian (snd c))) l) -> is_gaussian (snd x) = false)
      by (intros x Hx; apply filter_In in Hx as [_ Hx]; destruct (is_gaussian (snd x)); [discriminate|reflexivity]).
    clear H2. induction H1 as [|a b x y K1 K2 IH]; intros z Hz; [destruct Hz|]. destruct Hz as [<-|Hz].
    - rewrite (gauss_kind _ _ K1). apply A0. now left.
    - apply IH; [intros w Hw; apply A0; now right|exact Hz]. }
  assert (B : forall x, In x r2 -> is_gaussian (snd x) = true).
  { assert (A0 : forall x, In x (filter (fun c : string * Channel => is_gaussian (snd c)) l) -> is_gaussian (snd x) = true)
      by (intros x Hx; now apply filter_In in Hx as [_ Hx]).
    clear H1. induction H2 as [|a b x y K1 K2 IH]; intros z Hz; [destruct Hz|]. destruct Hz as [<-|Hz].
    - rewrite (gauss_kind _ _ K1). apply A0. now left.
    - apply IH; [intros w Hw; apply A0; now right|exact Hz]. }
  rewrite (filter_all (fun c => negb (is_gaussian (snd c))) r1), (filter_none (fun c => negb (is_gaussian (snd c))) r2),
    (filter_none (fun c => is_gaussian (snd c)) r1), (filter_all (fun c => is_gaussian (snd c)) r2); auto.
  - now rewrite app_nil_r.
  - intros x Hx. now rewrite (B x Hx).
  - intros x Hx. now rewrite (A x Hx).
Qed.

(** computing the internal variables of an object a second time changes nothing *)
Lemma siv_idem E m I : set_internal_vars E m = Ok I -> set_internal_vars E (with_channels m (i_channels I)) = Ok I.
Proof.
  intros H. pose proof (siv_built _ _ _ H) as Bt. pose proof (built_channels _ _ _ Bt) as HF.
  assert (HK : Forall2 (fun kc kc' => ch_kind (snd kc') = ch_kind (snd kc)) (poisson_first (m_channels m)) (i_channels I))
    by (eapply Forall2_impl_in; [|exact HF]; tauto).
  assert (Hpf : poisson_first (i_channels I) = i_channels I) by (eapply pf_id_kind; exact HK).
  unfold set_internal_vars in *. change (pmodel_of (with_channels m (i_channels I))) with (pmodel_of m).
  change (m_pois (with_channels m (i_channels I))) with (m_pois m). change (m_nps (with_channels m (i_channels I))) with (m_nps m).
  change (m_channels (with_channels m (i_channels I))) with (i_channels I).
  change (model_real_vals (with_channels m (i_channels I))) with (model_real_vals m). change (model_reals (with_channels m (i_channels I))) with (model_reals m).
  change (coef_step E (with_channels m (i_channels I))) with (coef_step E m).
  apply bind_Ok in H as (pm & Hpm & H). rewrite Hpm. cbn [bind]. apply bind_Ok in H as (refp & Href & H). rewrite Href. cbn [bind].
  apply bind_Ok in H as (cd & Hcd & H). rewrite Hcd. cbn [bind].
  destruct (list_eqb (keys (poisson_first (m_channels m))) (keys (m_channels m))) eqn:EK; cbn [negb] in H; [|discriminate].
  rewrite Hpf. rewrite (proj2 (list_eqb_eq _ _) eq_refl). cbn [negb].
  apply bind_Ok in H as (hess & Hh & H). rewrite (hess_blocks_kind _ _ HK), Hh. cbn [bind].
  apply bind_Ok in H as (chs' & Hc & H). apply bind_Ok in H as (u & Hu & H). apply bind_Ok in H as (st & Hst & H). injection H as HI.
  assert (Ec : i_channels I = chs') by (rewrite <- HI; reflexivity).
  assert (Hc' : match i_channels I with [] => Ok [] | _ :: _ => let! rv := model_real_vals m pm refp in
                  mapM (fun kc : string * Channel => let! c := update_channel E pm (model_reals m) rv (snd kc) in Ok (fst kc, c)) (i_channels I) end = Ok chs').
  { rewrite Ec. destruct (m_channels m) as [|kc0 chs0] eqn:EC; [inversion Hc; reflexivity|].
    apply bind_Ok in Hc as (rv & Hrv & Hc). destruct chs' as [|kc1 chs1]; [reflexivity|]. rewrite Hrv. cbn [bind].
    apply mapM_Forall2 in Hc. apply Forall2_mapM. remember (kc1 :: chs1) as r. clear - Hc.
    induction Hc as [|a b l r H1 H2 IH]; constructor; [|exact IH].
    apply bind_Ok in H1 as (c & Hc & H1). inversion H1; subst b. cbn [fst snd]. rewrite (update_channel_idem _ _ _ _ _ _ Hc). reflexivity. }
  rewrite Hc'. cbn [bind].
  assert (Hu' : match i_channels I with [] => Ok tt | _ :: _ => if (max_samples chs' =? 0)%nat then Err ValueError else Ok tt end = Ok tt).
  { rewrite Ec. destruct (m_channels m) as [|kc0 chs0] eqn:EC; [inversion Hc; reflexivity|]. destruct chs'; [reflexivity|].
    destruct (max_samples _ =? 0)%nat; [discriminate|reflexivity]. }
  rewrite Hu'. cbn [bind]. rewrite Hst. cbn [bind].
  rewrite (total_bins_kind (filter (fun c => negb (is_gaussian (snd c))) (poisson_first (m_channels m))) (filter (fun c => negb (is_gaussian (snd c))) (i_channels I))).
  2: { apply (Forall2_filter (fun kc kc' : string * Channel => ch_kind (snd kc') = ch_kind (snd kc))); [|exact HK]. intros a b Hab. now rewrite (gauss_kind _ _ Hab). }
  rewrite (total_bins_kind (filter (fun c => is_gaussian (snd c)) (poisson_first (m_channels m))) (filter (fun c => is_gaussian (snd c)) (i_channels I))).
  2: { apply (Forall2_filter (fun kc kc' : string * Channel => ch_kind (snd kc') = ch_kind (snd kc))); [|exact HK]. intros a b Hab. now rewrite (gauss_kind _ _ Hab). }
  rewrite HI. reflexivity.
Qed.

(** * save and load *)
Lemma NoDup_mid {A} (a : list A) x b : NoDup (a ++ x :: b) -> ~ In x a.
Proof. intros H Hin. apply NoDup_remove_2 in H. apply H. apply in_or_app. now left. Qed.
Lemma load_named_all {V} (load : dict jv -> res V) (nm : V -> res string) (fill : V -> dict jv) : forall (d acc : dict V),
  (forall k v, In (k, v) d -> load (fill v) = Ok v /\ nm v = Ok k) -> NoDup (keys acc ++ keys d) ->
  foldM (fun acc v => load_named load nm v acc) (map (fun v => JObj (fill v)) (values d)) acc = Ok (acc ++ d).
Proof.
  induction d as [|[k v] d IH]; intros acc H HN; cbn [values map foldM]; [now rewrite app_nil_r|].
  destruct (H k v (or_introl eq_refl)) as [Hl Hn]. cbn [snd] in *. cbn [load_named]. rewrite Hl. cbn [bind]. rewrite Hn. cbn [bind].
  cbn [keys map fst] in HN. pose proof (NoDup_mid _ _ _ HN) as Hk. fold (keys acc) in Hk.
  assert (Em : dmem k acc = false) by (destruct (dmem k acc) eqn:E; [apply dmem_spec in E; contradiction|reflexivity]). rewrite Em. cbn [bind].
  rewrite dset_app_new by exact Hk. unfold values in IH. rewrite IH.
  - rewrite <- app_assoc. reflexivity.
  - intros k' v' Hin. apply H. now right.
  - unfold keys in *. rewrite map_app, <- app_assoc. exact HN.
Qed.
Lemma load_np_all (aux : dict Aux) : forall (d acc : dict NP),
  (forall k p, In (k, p) d -> np_load None (np_fill p []) = Ok p /\ np_name p = Some k /\ forall a, np_aux_obs p = Some a -> In a (keys aux)) ->
  NoDup (keys acc ++ keys d) ->
  foldM (fun st v => load_np v st) (map (fun p => JObj (np_fill p [])) (values d)) (acc, aux) = Ok (acc ++ d, aux).
Proof.
  induction d as [|[k p] d IH]; intros acc H HN; cbn [values map foldM]; [now rewrite app_nil_r|].
  destruct (H k p (or_introl eq_refl)) as (Hl & Hn & Ha). cbn [snd fst] in *. cbn [load_np]. rewrite Hl. cbn [bind]. rewrite Hn. cbn [name_of bind fst snd].
  cbn [keys map fst] in HN. pose proof (NoDup_mid _ _ _ HN) as Hk. fold (keys acc) in Hk.
  assert (Em : dmem k acc = false) by (destruct (dmem k acc) eqn:E; [apply dmem_spec in E; contradiction|reflexivity]). rewrite Em.
  assert (Ea : match np_aux_obs p with Some a => if dmem a aux then aux else dset a (mkAux (Some a) None None (np_unit p) None) aux | None => aux end = aux).
  { destruct (np_aux_obs p) as [a|]; [|reflexivity]. rewrite (proj2 (dmem_spec a aux) (Ha a eq_refl)). reflexivity. }
  rewrite Ea. cbn [bind]. rewrite dset_app_new by exact Hk. unfold values in IH. rewrite IH.
  - rewrite <- app_assoc. reflexivity.
  - intros k' v' Hin. apply H. now right.
  - unfold keys in *. rewrite map_app, <- app_assoc. exact HN.
Qed.

(** models whose contents markup can hold *)
Record savable (E : Env) (m : Model) : Prop := mkSav {
  sv_pois : NoDup (keys (m_pois m)) /\ forall k p, In (k, p) (m_pois m) -> poi_name p = Some k /\ poi_min p <> None /\ poi_max p <> None /\ poi_initial p <> None;
  sv_nps : NoDup (keys (m_nps m)) /\ forall k p, In (k, p) (m_nps m) -> np_name p = Some k /\ (np_aux_obs p <> None -> np_constraint p <> None) /\
     forall a, np_aux_obs p = Some a -> In a (keys (m_aux m));
  sv_aux : NoDup (keys (m_aux m)) /\ forall k a, In (k, a) (m_aux m) -> aux_name a = Some k;
  sv_exprs : NoDup (keys (m_exprs m)) /\ forall k e, In (k, e) (m_exprs m) -> expr_name e = k /\ forall n f, e <> EFormula n f;
  sv_chs : NoDup (keys (m_channels m)) /\ forall k c, In (k, c) (m_channels m) -> ch_name c = k /\ is_gaussian c = false /\
     NoDup (keys (ch_samples c)) /\ forall k' s, In (k', s) (ch_samples c) -> s_name s = k' /\ (forall n, s_norm s = ExprNorm n -> e_float E n = None) /\
       forall y, s_yields s = Some y -> length y = nbins c }.

Lemma savable_samples E m k c : savable E m -> In (k, c) (m_channels m) -> samples_ok (e_float E) (ch_samples c).
Proof.
  intros S Hin. destruct (proj2 (sv_chs _ _ S) k c Hin) as (_ & _ & HN & Hs). split; [exact HN|]. intros k' s Hks. destruct (Hs k' s Hks) as (A & B & _).
  split; [exact A|]. unfold norm_reloadable. destruct (s_norm s); auto.
Qed.

Lemma channel_fill_total inv c : is_gaussian c = false -> exists d, channel_fill inv c = Ok d.
Proof. unfold is_gaussian, channel_fill. destruct (ch_kind c); try discriminate; eauto. Qed.

Lemma load_channel_fill E m k c : savable E m -> In (k, c) (m_channels m) -> exists d, channel_fill (e_inv E) c = Ok d /\ load_channel E d = Ok c.
Proof.
  intros S Hin. destruct (proj2 (sv_chs _ _ S) k c Hin) as (_ & Hg & HN & Hs). destruct (channel_fill_total (e_inv E) c Hg) as (d & Hd). exists d. split; [exact Hd|].
  unfold load_channel. rewrite (channel_roundtrip (e_float E) (e_inv E) c d Hg (savable_samples E m k c S Hin) Hd). cbn [bind].
  rewrite (proj2 (forallb_forall _ _)); [reflexivity|]. intros s Hin'. apply in_map_iff in Hin' as ([k' s'] & E1 & Hks). cbn in E1; subst s'.
  destruct (Hs k' s Hks) as (_ & _ & Hy). destruct (s_yields s) as [y|]; [|reflexivity]. apply Nat.eqb_eq, Hy; reflexivity.
Qed.

Definition fill_ch (E : Env) (c : Channel) : dict jv := match channel_fill (e_inv E) c with Ok d => d | Err _ => [] end.
Lemma mapM_fill_ch E l : (forall c, In c l -> exists d, channel_fill (e_inv E) c = Ok d) ->
  mapM (fun c => let! d := channel_fill (e_inv E) c in Ok (JObj d)) l = Ok (map (fun c => JObj (fill_ch E c)) l).
Proof.
  induction l as [|c l IH]; intros H; cbn [mapM map]; [reflexivity|]. unfold fill_ch at 1. destruct (H c (or_introl eq_refl)) as (d & ->). cbn [bind].
  rewrite IH by (intros; apply H; now right). reflexivity.
Qed.

(** the contents written, and read back into an object without expressions *)
Lemma model_roundtrip E m m0 d : savable E m -> m_exprs m0 = [] -> exists sd, model_fill E m d = Ok sd /\
  model_read E m0 sd = Ok (mkModel (m_name m) (m_descr m) (m_pois m) (m_nps m) (m_aux m) (m_channels m) (m_exprs m) (m_asym m0) (m_linear m0) (m_simple_sym m0) (m_lognormal m0) (m_cutoff m0)).
Proof.
  intros S Hex. unfold model_fill.
  rewrite mapM_fill_ch.
  2: { intros c Hc. apply in_map_iff in Hc as ([k c'] & E1 & Hin). cbn in E1; subst c'. destruct (load_channel_fill E m k c S Hin) as (dd & Hd & _). eauto. }
  cbn [bind]. eexists; split; [reflexivity|]. unfold model_read, dgetE at 1. rewrite dget_dset_eq. cbn [bind].
  set (L1 := JList (map _ (values (m_pois m)))). set (L2 := JList (map _ (values (m_nps m)))). set (L3 := JList (map _ (values (m_exprs m)))).
  set (L4 := JList (map _ (values (m_aux m)))). set (L5 := JList (map _ (values (m_channels m)))).
  set (md := ("name", JStr (m_name m)) :: _).
  assert (G1 : dget "POIs" md = Some L1) by (subst md; destruct (m_descr m); reflexivity).
  assert (G2 : dget "NPs" md = Some L2) by (subst md; destruct (m_descr m); reflexivity).
  assert (G3 : dget "expressions" md = Some L3) by (subst md; destruct (m_descr m); reflexivity).
  assert (G4 : dget "aux_obs" md = Some L4) by (subst md; destruct (m_descr m); reflexivity).
  assert (G5 : dget "channels" md = Some L5) by (subst md; destruct (m_descr m); reflexivity).
  assert (G6 : bind (load_field "name" md (JStr "") [TStr]) as_str = Ok (m_name m)) by reflexivity.
  assert (G7 : bind (load_field "description" md JNull [TStr]) as_ostr = Ok (m_descr m)) by (subst md; destruct (m_descr m); reflexivity).
  unfold dgetE, section. rewrite G1, G2, G3, G4, G5, G6, G7. cbn [bind jlist L1 L2 L3 L4 L5]. clearbody md.
  assert (R1 : foldM (fun acc v => load_named (poi_load None) (fun p => name_of (poi_name p)) v acc) (map (fun p => JObj (poi_fill p [])) (values (m_pois m))) [] = Ok ([] ++ m_pois m)).
  { apply (load_named_all (poi_load None) (fun p => name_of (poi_name p)) (fun p => poi_fill p [])); [|apply (sv_pois _ _ S)].
    intros k p Hin. destruct (proj2 (sv_pois _ _ S) k p Hin) as (A & B & C & D). split; [apply poi_roundtrip; assumption|now rewrite A]. }
  rewrite R1. cbn [bind app].
  assert (R2 : foldM (fun acc v => load_named (aux_load None) (fun p => name_of (aux_name p)) v acc) (map (fun p => JObj (aux_fill p [])) (values (m_aux m))) [] = Ok ([] ++ m_aux m)).
  { apply (load_named_all (aux_load None) (fun p => name_of (aux_name p)) (fun p => aux_fill p [])); [|apply (sv_aux _ _ S)].
    intros k p Hin. split; [apply aux_roundtrip|now rewrite (proj2 (sv_aux _ _ S) k p Hin)]. }
  rewrite R2. cbn [bind app].
  assert (R3 : foldM (fun st v => load_np v st) (map (fun p => JObj (np_fill p [])) (values (m_nps m))) ([], m_aux m) = Ok ([] ++ m_nps m, m_aux m)).
  { apply load_np_all; [|apply (sv_nps _ _ S)]. intros k p Hin. destruct (proj2 (sv_nps _ _ S) k p Hin) as (A & B & C). split; [apply np_roundtrip; exact B|auto]. }
  rewrite R3. cbn [bind app fst snd]. rewrite Hex.
  assert (R4 : foldM (fun acc v => load_named expr_instantiate (fun e => Ok (expr_name e)) v acc) (map (fun p => JObj (expr_fill p [])) (values (m_exprs m))) [] = Ok ([] ++ m_exprs m)).
  { apply (load_named_all expr_instantiate (fun e => Ok (expr_name e)) (fun p => expr_fill p [])); [|apply (sv_exprs _ _ S)].
    intros k e Hin. destruct (proj2 (sv_exprs _ _ S) k e Hin) as [A B]. split; [apply C07_expression_save_load_roundtrip; exact B|now rewrite A]. }
  rewrite R4. cbn [bind app].
  assert (R5 : foldM (fun acc v => load_named (load_channel E) (fun c => Ok (ch_name c)) v acc) (map (fun c => JObj (fill_ch E c)) (values (m_channels m))) [] = Ok ([] ++ m_channels m)).
  { apply (load_named_all (load_channel E) (fun c => Ok (ch_name c)) (fill_ch E)); [|apply (sv_chs _ _ S)].
    intros k c Hin. destruct (proj2 (sv_chs _ _ S) k c Hin) as (A & _). split; [|now rewrite A].
    destruct (load_channel_fill E m k c S Hin) as (dd & Hd & Hl). unfold fill_ch. rewrite Hd. exact Hl. }
  rewrite R5. reflexivity.
Qed.
