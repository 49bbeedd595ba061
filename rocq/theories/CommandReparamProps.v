(** C104: the command that changes the parameters of a model file. *)
From Verif Require Import Py PyFacts Base BaseFacts Expressions ExprProps ExprSpec ExprFacts ExprReplace Norms Sample SampleFacts Channels ChannelFacts Params Core CoreFacts CoreSpec CoreCoefs CoreYields CoreExample ModelIO ModelIOFacts ModelIOProps
  ModelTools ModelToolsFacts ReparamFacts ReparamProps ReparamAddProps NPPruneFacts NPPruneProps UtilTools UtilFacts FileIO FileIOProps ToolsMoreProps Commands CommandFacts CommandProps CommandMergeProps CommandChannelProps.
Local Open Scope string_scope.
Local Open Scope list_scope.
Local Open Scope R_scope.

(** ** the expressions after the removal of POIs *)
Lemma removed_exprs fuel rmatch m specs vals m' : NoDup (keys (m_pois m)) -> NoDup (keys (m_exprs m)) -> remove_pois fuel rmatch m specs vals = Ok m' ->
  forall k e', In (k, e') (m_exprs m') -> exists e, In (k, e) (m_exprs m) /\ shr e e'.
Proof.
  intros HN HNe H k e' Hin. unfold remove_pois in H. apply bind_Ok in H as (sel & Hsel & H). apply bind_Ok in H as ([[m1 names] evals] & Hl & H).
  apply remove_loop in Hl as (A & B & C & D & U & S & Sat); [|exact HN].
  unfold remove_expressions in H. apply bind_Ok in H as (sel2 & _ & H). apply remove_expr_loop in H as (A2 & B2 & C2 & D2).
  apply B2 in Hin. apply In_dget in Hin; [|rewrite B; exact HNe]. specialize (S k). rewrite Hin in S. destruct (dget k (m_exprs m)) as [e|] eqn:Ee; [|contradiction].
  exists e. split; [now apply dget_In|exact S].
Qed.
Lemma removed_savable E fuel rmatch m specs vals m' : savable E m -> remove_pois fuel rmatch m specs vals = Ok m' -> savable E m'.
Proof.
  intros S H. destruct (remove_pois_spec fuel rmatch m specs vals m') as (sel & _ & Em & Hp & Np & Ne & Ke & _); auto; try apply S.
  { intros k e He. apply (proj2 (sv_exprs _ _ S) k e He). }
  pose proof (removed_exprs fuel rmatch m specs vals m' (proj1 (sv_pois _ _ S)) (proj1 (sv_exprs _ _ S)) H) as HX.
  assert (E1 : m_nps m' = m_nps m) by (rewrite Em; reflexivity). assert (E2 : m_aux m' = m_aux m) by (rewrite Em; reflexivity). assert (E3 : m_channels m' = m_channels m) by (rewrite Em; reflexivity).
  constructor; rewrite ?E1, ?E2, ?E3; try apply S.
  - split; [exact Np|]. intros k p Hin. apply Hp in Hin as (Hin & _). exact (proj2 (sv_pois _ _ S) k p Hin).
  - split; [exact Ne|]. intros k e' Hin. split; [exact (Ke k e' Hin)|]. intros n f ->. destruct (HX _ _ Hin) as (e & He & [<-|(a & b & c & d & x & _ & X & _)]); [|discriminate].
    exact (proj2 (proj2 (sv_exprs _ _ S) k _ He) n f eq_refl).
Qed.
(** ** default replacement values *)
Definition default_value (m : Model) (n : string) (v : sval) : Prop := exists p, dget n (m_pois m) = Some p /\ v = match poi_initial p with Some x => SNum x | None => SStr "" end.
Lemma default_repl_spec m : forall l d d', default_repl m l d = Ok d' -> (forall n v, In (n, v) d -> default_value m n v) ->
  (forall n v, In (n, v) d' -> default_value m n v) /\ (forall n, In n l -> In n (keys (m_pois m))).
Proof.
  unfold default_repl. induction l as [|a l IH]; intros d d' H Hd; cbn [foldM] in H; [inversion H; subst; split; [exact Hd|intros n []]|].
  apply bind_Ok in H as (d1 & H1 & H). destruct (dmem a d) eqn:Ea.
  - inversion H1; subst d1. destruct (IH d d' H Hd) as (A & B). split; [exact A|]. intros n [<-|Hn]; [|now apply B].
    apply dmem_spec in Ea. unfold keys in Ea. apply in_map_iff in Ea as ([k v] & <- & Hin). destruct (Hd k v Hin) as (p & Hp & _). cbn [fst]. apply dget_In in Hp. unfold keys. apply in_map_iff. exists (k, p). auto.
  - apply bind_Ok in H1 as (p & Hp & H1). inversion H1; subst d1. unfold dgetE in Hp. destruct (dget a (m_pois m)) as [q|] eqn:Eq; [|discriminate]. inversion Hp; subst q.
    destruct (IH _ d' H) as (A & B).
    + intros n v Hin. apply dset_In in Hin as [X|Hin]; [inversion X; subst; exists p; split; [exact Eq|reflexivity]|now apply Hd].
    + split; [exact A|]. intros n [<-|Hn]; [|now apply B]. apply dget_In in Eq. unfold keys. apply in_map_iff. exists (a, p). auto.
Qed.
Lemma usable_In d n v : dget n (usable d) = Some v -> In (n, SNum v) d.
Proof.
  intros H. apply dget_In in H. unfold usable in H. apply in_flat_map in H as ([k s] & Hin & H). cbn [snd fst] in H. destruct s as [x|s]; [|destruct H]. destruct H as [H|[]]. inversion H; subst. exact Hin.
Qed.

(** ** C104 *)
(** With --remove alone: the output file, the only one written, holds the model without the POIs named (no others), which predicts in every bin what the input
    model predicts with these POIs at their initial values, whatever the others. *)
Definition remove_only (model out : string) (names : list string) : RepOpts := mkRO model out None None None None (Some (join "," names)) None.
Theorem C104_removed : forall E C w pf rmatch model out names f ops m I, faithful C -> names <> [] -> (forall n, In n names -> free_of "," n /\ free_of " " n) ->
  model_create E C f model = Ok (m, I) -> writable_model m -> names_ok m ->
  rep_run E C w pf rmatch (remove_only model out names) f = Ok (Some (ops, None)) ->
  incl names (keys (m_pois m)) /\ (forall q, q <> out -> run_ops ops f q = f q) /\
  forall m' I', model_create E C (run_ops ops f) out = Ok (m', I') ->
    (forall n p, In (n, p) (m_pois m') <-> In (n, p) (m_pois m) /\ ~ In n names) /\ m_nps m' = m_nps m /\ i_nbins I' = i_nbins I /\
    (tables_ok E m (m_channels m) -> forall ps ps' ns t t' b, length ps = length (m_pois m) -> length ps' = length (m_pois m') ->
     (forall n, In n (keys (m_pois m')) -> value_of (keys (m_pois m')) ps' n = value_of (keys (m_pois m)) ps n) ->
     (forall n p v, In n names -> dget n (m_pois m) = Some p -> poi_initial p = Some v -> value_of (keys (m_pois m)) ps n = v) ->
     tot_bin_exp m I ps ns None = Ok t -> tot_bin_exp m' I' ps' ns None = Ok t' -> (b < i_nbins I)%nat -> t' b = t b).
Proof.
  intros E C w pf rmatch model out names f ops m I HC Hne Hfree Hm W HN H.
  destruct (create_mergeable E C f model m I Hm W) as (Ob & S & O).
  unfold rep_run in H. change (ro_model (remove_only model out names)) with model in H. rewrite Hm in H. cbn [bind fst] in H.
  assert (HP : rep_plan E C pf (remove_only model out names) m f = Ok (Some (mkRP [] [] [] [] names [] []))).
  { unfold rep_plan. cbn. rewrite split_join; [|exact Hne|intros s Hs; now apply Hfree]. rewrite (map_ext_in no_space (fun x => x)); [now rewrite map_id|]. intros s Hs. apply no_space_free. now apply Hfree. }
  rewrite HP in H. cbn [bind] in H. apply bind_Ok in H as (m5 & H5 & H). apply bind_Ok in H as ((ops', e) & Hs & H). inversion H; subst ops' e. clear H HP.
  unfold rep_apply in H5. cbn [rp_addp rp_exprs rp_norms rp_change rp_remove rp_repl rp_file add_pois add_expressions change_pois foldM bind reorder_pois] in H5.
  apply bind_Ok in H5 as (mr & H5 & Hr). inversion Hr; subst mr. clear Hr. destruct names as [|n0 names0] eqn:En; [contradiction|]. rewrite <- En in *.
  assert (H5' : (let! vals := default_repl m names [] in remove_pois (e_fuel E) rmatch m names (usable vals)) = Ok m5) by exact H5. clear H5.
  apply bind_Ok in H5' as (vals & Hv & H5). destruct (default_repl_spec m names [] vals Hv ltac:(intros ? ? [])) as (V1 & V2).
  pose proof (removed_savable E _ _ _ _ _ _ S H5) as S5.
  assert (SB : stored_by_name (m_exprs m)) by (intros k e He; apply (proj2 (sv_exprs _ _ S) k e He)).
  destruct (C59_removes_exactly_the_designated _ _ _ _ _ _ HN SB H5) as (Em5 & _ & HPo & _).
  assert (O5 : default_options m5) by (rewrite Em5; exact O).
  destruct (save_reload E C w m5 out ops f HC S5 O5 Hs) as (HR & HQ). split; [exact V2|]. split; [exact HQ|]. intros m' I' Hm'. rewrite HR in Hm'.
  assert (Ep : m_pois m' = m_pois m5 /\ m_nps m' = m_nps m5).
  { clear - Hm'. unfold finish in Hm'. apply bind_Ok in Hm' as (it & _ & X). inversion X; subst. split; reflexivity. }
  destruct Ep as (Ep & Enp). rewrite Ep.
  assert (HD : forall n, designated rmatch names (keys (m_pois m)) n <-> In n names).
  { intros n. split; [|intros Hn; exists n; split; [exact Hn|now left]]. intros (sp & Hsp & [<-|(X & _)]); [exact Hsp|]. contradiction (X (V2 sp Hsp)). }
  split; [intros n p; rewrite HPo, HD; reflexivity|]. split; [rewrite Enp, Em5; reflexivity|].
  split.
  { unfold finish in Hm'. apply bind_Ok in Hm' as (it & Hit & X). inversion X; subst it m'. destruct Ob as (Ob & _). apply siv_built in Ob, Hit. rewrite (built_nbins _ _ _ Ob), (built_nbins _ _ _ Hit), (bt_np _ _ _ Ob), (bt_ng _ _ _ Ob), (bt_np _ _ _ Hit), (bt_ng _ _ _ Hit), Em5. reflexivity. }
  intros HT ps ps' ns t t' b L1 L2 HV Hini Ht Ht' Hb.
  refine (C59_predictions (e_fuel E) rmatch E m m I names (usable vals) m5 m' I' ps ps' ns t t' b (object_finish _ _ _ Ob) (proj1 (sv_chs _ _ S)) HN SB HT H5 Hm' L1 L2 HV _ Ht Ht' Hb).
  intros n v Hn Hn' Hg. apply usable_In in Hg. destruct (V1 n _ Hg) as (p & Hp & Hi). destruct (poi_initial p) as [x|] eqn:Ei; [|discriminate]. inversion Hi; subst x.
  apply (Hini n p v); auto. destruct (in_dec string_dec n names) as [X|X]; [exact X|]. exfalso. apply Hn'. apply dget_In in Hp. unfold keys. apply in_map_iff. exists (n, p). split; [reflexivity|]. apply HPo. split; [exact Hp|]. now rewrite HD.
Qed.
Print Assumptions C104_removed.

(** With --remove and an option file with replacement values (and nothing else): the same, each POI being at the value given for it in the file, and at its initial
    value if there is none. *)
Lemma default_repl_keeps m : forall l d d', default_repl m l d = Ok d' -> forall n, In n (keys (m_pois m)) -> forall v, dget n d' = Some v -> dget n d = Some v \/ (dget n d = None /\ default_value m n v).
Proof.
  unfold default_repl. induction l as [|a l IH]; intros d d' H n Hk v Hv; cbn [foldM] in H; [inversion H; subst; now left|].
  apply bind_Ok in H as (d1 & H1 & H). destruct (dmem a d) eqn:Ea; [inversion H1; subst d1; exact (IH d d' H n Hk v Hv)|].
  apply bind_Ok in H1 as (p & Hp & H1). inversion H1; subst d1. unfold dgetE in Hp. destruct (dget a (m_pois m)) as [q|] eqn:Eq; [|discriminate]. inversion Hp; subst q.
  destruct (IH _ d' H n Hk v Hv) as [A|(A & B)].
  - destruct (string_dec n a) as [->|N]; [|rewrite dget_dset_neq in A by congruence; now left]. rewrite dget_dset_eq in A. injection A as <-. right. split; [unfold dmem in Ea; now destruct (dget a d)|]. exists p. split; [exact Eq|reflexivity].
  - destruct (string_dec n a) as [->|N]; [rewrite dget_dset_eq in A; discriminate|]. rewrite dget_dset_neq in A by congruence. right. split; assumption.
Qed.
Lemma dget_usable d n v : NoDup (keys d) -> dget n (usable d) = Some v -> dget n d = Some (SNum v).
Proof. intros N H. apply usable_In in H. now apply In_dget. Qed.
Lemma default_repl_NoDup m : forall l d d', default_repl m l d = Ok d' -> NoDup (keys d) -> NoDup (keys d').
Proof.
  unfold default_repl. induction l as [|a l IH]; intros d d' H N; cbn [foldM] in H; [inversion H; now subst|]. apply bind_Ok in H as (d1 & H1 & H). apply (IH _ _ H).
  destruct (dmem a d); [inversion H1; now subst|]. apply bind_Ok in H1 as (p & _ & H1). inversion H1; subst d1. now apply NoDup_keys_dset.
Qed.
Definition repl_value (v : jv) : sval := match jnum v with Some x => SNum x | None => SStr "" end.
Lemma file_repl_spec reps : NoDup (keys reps) -> exists fr, fold_left (fun acc kv => dset (fst kv) (repl_value (snd kv)) acc) reps [] = fr /\ NoDup (keys fr) /\
  forall n, dget n fr = match dget n reps with Some v => Some (repl_value v) | None => None end.
Proof.
  intros N. eexists. split; [reflexivity|].
  assert (G : forall (l : dict jv) acc, NoDup (keys l) -> NoDup (keys acc) -> (forall k, In k (keys l) -> dget k acc = None) ->
    NoDup (keys (fold_left (fun acc kv => dset (fst kv) (repl_value (snd kv)) acc) l acc)) /\
    forall n, dget n (fold_left (fun acc kv => dset (fst kv) (repl_value (snd kv)) acc) l acc) = match dget n l with Some v => Some (repl_value v) | None => dget n acc end).
  { clear. induction l as [|[k v] l IH]; intros acc Nl Na Hd; cbn [fold_left fst snd keys map] in *; [split; [exact Na|reflexivity]|]. inversion Nl as [|? ? Hk Nl']; subst.
    destruct (IH (dset k (repl_value v) acc) Nl') as (A & B).
    - now apply NoDup_keys_dset.
    - intros x Hx. rewrite dget_dset_neq; [|intros ->; contradiction]. apply Hd. now right.
    - split; [exact A|]. intros n. rewrite B. cbn [dget]. destruct (String.eqb_spec n k) as [->|Ne].
      + assert (X : dget k l = None) by (apply dget_None; exact Hk). rewrite X. now rewrite dget_dset_eq.
      + destruct (dget n l); [reflexivity|]. now apply dget_dset_neq. }
  destruct (G reps [] N ltac:(constructor) ltac:(reflexivity)) as (A & B). split; [exact A|]. intros n. rewrite B. reflexivity.
Qed.
Theorem C104_file_replacements : forall E C w pf rmatch model out path names f ops m I text fd reps, faithful C -> names <> [] -> (forall n, In n names -> free_of "," n /\ free_of " " n) ->
  model_create E C f model = Ok (m, I) -> writable_model m -> names_ok m -> incl names (keys (m_pois m)) ->
  f path = Some text -> c_parse C "json" text = Ok fd -> dget "norms" fd = None -> dget "expressions" fd = None -> dget "POIs" fd = None ->
  dget "replacements" fd = Some (JObj reps) -> NoDup (keys reps) ->
  rep_run E C w pf rmatch (mkRO model out None (Some path) None None (Some (join "," names)) None) f = Ok (Some (ops, None)) ->
  (forall q, q <> out -> run_ops ops f q = f q) /\
  forall m' I', model_create E C (run_ops ops f) out = Ok (m', I') ->
    (forall n p, In (n, p) (m_pois m') <-> In (n, p) (m_pois m) /\ ~ In n names) /\ m_nps m' = m_nps m /\ i_nbins I' = i_nbins I /\
    (tables_ok E m (m_channels m) -> forall ps ps' ns t t' b, length ps = length (m_pois m) -> length ps' = length (m_pois m') ->
     (forall n, In n (keys (m_pois m')) -> value_of (keys (m_pois m')) ps' n = value_of (keys (m_pois m)) ps n) ->
     (forall n v x, In n names -> dget n reps = Some v -> jnum v = Some x -> value_of (keys (m_pois m)) ps n = x) ->
     (forall n p x, In n names -> dget n reps = None -> dget n (m_pois m) = Some p -> poi_initial p = Some x -> value_of (keys (m_pois m)) ps n = x) ->
     tot_bin_exp m I ps ns None = Ok t -> tot_bin_exp m' I' ps' ns None = Ok t' -> (b < i_nbins I)%nat -> t' b = t b).
Proof.
  intros E C w pf rmatch model out path names f ops m I text fd reps HC Hne Hfree Hm W HN V2 Hp Ht0 D1 D2 D3 D4 NR H.
  destruct (create_mergeable E C f model m I Hm W) as (Ob & S & O).
  unfold rep_run in H. cbn [ro_model] in H. rewrite Hm in H. cbn [bind fst] in H. destruct (file_repl_spec reps NR) as (fr & Hfr & Nfr & Gfr).
  assert (HP : rep_plan E C pf (mkRO model out None (Some path) None None (Some (join "," names)) None) m f = Ok (Some (mkRP [] [] [] [] names fr []))).
  { unfold rep_plan. cbn [ro_file]. rewrite Hp, Ht0. cbn [or_return]. unfold file_norms, file_exprs, file_repl, file_pois. rewrite D1, D2, D3, D4. cbn [or_return line_norms ro_norms bind line_exprs ro_exprs line_repl ro_repl ro_add ro_remove app].
    cbv zeta. rewrite split_join; [|exact Hne|intros s Hs; now apply Hfree]. rewrite (map_ext_in no_space (fun x => x)); [rewrite map_id|intros s Hs; apply no_space_free; now apply Hfree]. unfold repl_value in Hfr. rewrite Hfr. reflexivity. }
  rewrite HP in H. cbn [bind] in H. apply bind_Ok in H as (m5 & H5 & H). apply bind_Ok in H as ((ops', e) & Hs & H). inversion H; subst ops' e. clear H HP.
  unfold rep_apply in H5. cbn [rp_addp rp_exprs rp_norms rp_change rp_remove rp_repl rp_file add_pois add_expressions change_pois foldM bind reorder_pois] in H5.
  apply bind_Ok in H5 as (mr & H5 & Hr). inversion Hr; subst mr. clear Hr. destruct names as [|n0 names0] eqn:En; [contradiction|]. rewrite <- En in *.
  assert (H5' : (let! vals := default_repl m names fr in remove_pois (e_fuel E) rmatch m names (usable vals)) = Ok m5) by exact H5. clear H5.
  apply bind_Ok in H5' as (vals & Hv & H5). pose proof (default_repl_NoDup _ _ _ _ Hv Nfr) as Nv.
  pose proof (removed_savable E _ _ _ _ _ _ S H5) as S5.
  assert (SB : stored_by_name (m_exprs m)) by (intros k e He; apply (proj2 (sv_exprs _ _ S) k e He)).
  destruct (C59_removes_exactly_the_designated _ _ _ _ _ _ HN SB H5) as (Em5 & _ & HPo & _).
  assert (O5 : default_options m5) by (rewrite Em5; exact O).
  destruct (save_reload E C w m5 out ops f HC S5 O5 Hs) as (HR & HQ). split; [exact HQ|]. intros m' I' Hm'. cbn [ro_out] in Hm'. rewrite HR in Hm'.
  assert (Ep : m_pois m' = m_pois m5 /\ m_nps m' = m_nps m5).
  { clear - Hm'. unfold finish in Hm'. apply bind_Ok in Hm' as (it & _ & X). inversion X; subst. split; reflexivity. }
  destruct Ep as (Ep & Enp). rewrite Ep.
  assert (HD : forall n, designated rmatch names (keys (m_pois m)) n <-> In n names).
  { intros n. split; [|intros Hn; exists n; split; [exact Hn|now left]]. intros (sp & Hsp & [<-|(X & _)]); [exact Hsp|]. contradiction (X (V2 sp Hsp)). }
  split; [intros n p; rewrite HPo, HD; reflexivity|]. split; [rewrite Enp, Em5; reflexivity|].
  split.
  { unfold finish in Hm'. apply bind_Ok in Hm' as (it & Hit & X). inversion X; subst it m'. destruct Ob as (Ob & _). apply siv_built in Ob, Hit. rewrite (built_nbins _ _ _ Ob), (built_nbins _ _ _ Hit), (bt_np _ _ _ Ob), (bt_ng _ _ _ Ob), (bt_np _ _ _ Hit), (bt_ng _ _ _ Hit), Em5. reflexivity. }
  intros HT ps ps' ns t t' b L1 L2 HV Hrep Hini Ht Ht' Hb.
  refine (C59_predictions (e_fuel E) rmatch E m m I names (usable vals) m5 m' I' ps ps' ns t t' b (object_finish _ _ _ Ob) (proj1 (sv_chs _ _ S)) HN SB HT H5 Hm' L1 L2 HV _ Ht Ht' Hb).
  intros n v Hn Hn' Hg. apply dget_usable in Hg; [|exact Nv].
  assert (Hin : In n names).
  { destruct (in_dec string_dec n names) as [X|X]; [exact X|]. exfalso. apply Hn'. unfold keys in Hn. apply in_map_iff in Hn as ((k & p) & <- & Hkp). unfold keys. apply in_map_iff. exists (k, p). split; [reflexivity|]. apply HPo. split; [exact Hkp|]. now rewrite HD. }
  destruct (default_repl_keeps _ _ _ _ Hv n Hn _ Hg) as [A|(A & p & Hpp & Hi)].
  - rewrite Gfr in A. destruct (dget n reps) as [j|] eqn:Ej; [|discriminate]. injection A as A. unfold repl_value in A. destruct (jnum j) as [x|] eqn:Ejn; [|discriminate]. injection A as ->. now apply (Hrep n j).
  - rewrite Gfr in A. destruct (dget n reps) as [j|] eqn:Ej; [discriminate|]. destruct (poi_initial p) as [x|] eqn:Ei; [|discriminate]. inversion Hi; subst x. now apply (Hini n p).
Qed.
Print Assumptions C104_file_replacements.

(** ** the list of POIs of an option file *)
(** the entries of a list of objects, by name *)
Definition named (l : list jv) (names : list string) : Prop := Forall2 (fun v n => exists d, v = JObj d /\ dget "name" d = Some (JStr n)) l names.
Lemma poi_load_name d n p : dget "name" d = Some (JStr n) -> poi_load None d = Ok p -> poi_name p = Some n.
Proof.
  intros Hn H. unfold poi_load in H. assert (L : load_field "name" d (jstr_of None) [TStr] = Ok (FVal (JStr n))) by (unfold load_field; rewrite Hn; reflexivity). rewrite L in H. cbn [bind as_ostr] in H.
  do 5 (apply bind_Ok in H as (? & _ & H)). inversion H. reflexivity.
Qed.
Lemma file_pois_keys fd l names fp : dget "POIs" fd = Some (JList l) -> named l names -> NoDup names -> file_pois fd = Ok fp -> keys fp = names.
Proof.
  intros Hd HF HN H. unfold file_pois in H. rewrite Hd in H. cbn [jlist bind] in H.
  assert (X : forall names l acc fp, named l names -> NoDup (keys acc ++ names) ->
    foldM (fun (acc : dict POI) x => match x with JObj d => let! _ := dgetE "name" d in let! p := poi_load None d in let! n := name_of (poi_name p) in Ok (dset n p acc) | _ => Err TypeError end) l acc = Ok fp -> keys fp = keys acc ++ names).
  { clear. induction names as [|n names IH]; intros l acc fp HF HN H; inversion HF as [|? ? ? ? (d & -> & Hn) HF']; subst; cbn [foldM] in H; [inversion H; now rewrite app_nil_r|].
    apply bind_Ok in H as (a1 & H1 & H). apply bind_Ok in H1 as (? & _ & H1). apply bind_Ok in H1 as (p & Hp & H1). rewrite (poi_load_name d n p Hn Hp) in H1. cbn [name_of bind] in H1. inversion H1; subst a1.
    assert (Hni : ~ In n (keys acc)) by (intros Hi; apply NoDup_remove_2 in HN; apply HN, in_or_app; now left).
    assert (K : keys (dset n p acc) = keys acc ++ [n]) by (rewrite dset_app_new by exact Hni; unfold keys; rewrite map_app; reflexivity).
    rewrite (IH _ _ _ HF' ltac:(rewrite K, <- app_assoc; exact HN) H), K, <- app_assoc. reflexivity. }
  exact (X names l [] fp HF HN H).
Qed.
Definition by_name (m : Model) : Prop := forall k p, In (k, p) (m_pois m) -> poi_name p = Some k.
Lemma dset_by_name (d : dict POI) n p : (forall k q, In (k, q) d -> poi_name q = Some k) -> name_of (poi_name p) = Ok n -> forall k q, In (k, q) (dset n p d) -> poi_name q = Some k.
Proof. intros H Hn k q Hin. apply dset_In in Hin as [X|Hin]; [|now apply H]. inversion X; subst. unfold name_of in Hn. destruct (poi_name p); [congruence|discriminate]. Qed.
Lemma add_pois_by_name : forall l m m', by_name m -> add_pois m l = Ok m' -> by_name m'.
Proof.
  unfold add_pois. induction l as [|p l IH]; intros m m' B H; cbn [foldM] in H; [inversion H; now subst|]. apply bind_Ok in H as (m1 & H1 & H). refine (IH m1 m' _ H).
  apply bind_Ok in H1 as (n & Hn & H1). destruct (dmem n (m_pois m)); [discriminate|]. inversion H1; subst m1. exact (dset_by_name _ n p B Hn).
Qed.
Lemma change_pois_by_name : forall l m m', by_name m -> change_pois m l = Ok m' -> by_name m'.
Proof.
  unfold change_pois. induction l as [|p l IH]; intros m m' B H; cbn [foldM] in H; [inversion H; now subst|]. apply bind_Ok in H as (m1 & H1 & H). refine (IH m1 m' _ H).
  apply bind_Ok in H1 as (n & Hn & H1). inversion H1; subst m1. exact (dset_by_name _ n p B Hn).
Qed.
Lemma add_expressions_pois : forall l m m', add_expressions m l = Ok m' -> m_pois m' = m_pois m.
Proof. unfold add_expressions. induction l as [|p l IH]; intros m m' H; cbn [foldM] in H; [inversion H; now subst|]. apply bind_Ok in H as (m1 & H1 & H). rewrite (IH _ _ H). destruct (dmem (expr_name p) (m_exprs m)); [discriminate|]. inversion H1. reflexivity. Qed.
Lemma update_norms_pois rmatch m new m' : update_norms rmatch m new = Ok m' -> m_pois m' = m_pois m.
Proof. unfold update_norms. intros H. apply bind_Ok in H as (x & _ & H). inversion H. reflexivity. Qed.
Lemma remove_pois_incl fuel rmatch m specs vals m' : remove_pois fuel rmatch m specs vals = Ok m' -> incl (m_pois m') (m_pois m).
Proof.
  unfold remove_pois. intros H. apply bind_Ok in H as (sel & _ & H). apply bind_Ok in H as ([[m1 names] evals] & Hl & H).
  unfold remove_expressions in H. apply bind_Ok in H as (sel2 & _ & H). apply remove_expr_loop in H as (A2 & _). replace (m_pois m') with (m_pois m1) by (rewrite A2; reflexivity). clear A2.
  revert Hl. generalize (@nil string) at 1 as n0. generalize (@nil (string * R)) at 1 as e0. revert m. induction sel as [|s sel IH]; intros m e0 n0 H0; cbn [foldM] in H0; [inversion H0; apply incl_refl|].
  apply bind_Ok in H0 as ([[m2 n2] e2] & H1 & H0). apply bind_Ok in H1 as (? & _ & H1). apply bind_Ok in H1 as ([[ex n3] e3] & _ & H1). apply bind_Ok in H1 as (ps & Hp & H1). inversion H1; subst.
  pose proof (IH _ _ _ H0) as X. cbn [with_pois m_pois] in X. unfold dpopE in Hp. destruct (dmem s (m_pois m)); [|discriminate]. inversion Hp; subst. intros a Ha. apply (dremove_incl s). now apply X.
Qed.
Lemma rep_apply_by_name fuel rmatch p m m' : by_name m -> rep_apply fuel rmatch p m = Ok m' -> by_name m' /\ (rp_file p <> [] -> keys (m_pois m') = keys (rp_file p)).
Proof.
  intros B H. unfold rep_apply in H. apply bind_Ok in H as (m1 & H1 & H). apply bind_Ok in H as (m2 & H2 & H). apply bind_Ok in H as (m3 & H3 & H). apply bind_Ok in H as (m4 & H4 & H). apply bind_Ok in H as (m5 & H5 & H).
  assert (B1 := add_pois_by_name _ _ _ B H1).
  assert (B2 : by_name m2) by (intros k q; rewrite (add_expressions_pois _ _ _ H2); apply B1).
  assert (B3 : by_name m3) by (destruct (rp_norms p); [inversion H3; now subst|]; intros k q; rewrite (update_norms_pois _ _ _ _ H3); apply B2).
  assert (B4 := change_pois_by_name _ _ _ B3 H4).
  assert (B5 : by_name m5).
  { destruct (rp_remove p); [inversion H5; now subst|]. apply bind_Ok in H5 as (vals & _ & H5). intros k q Hin. apply B4. exact (remove_pois_incl _ _ _ _ _ _ H5 _ Hin). }
  unfold reorder_pois in H. destruct (rp_file p) as [|kp fp] eqn:Ef; [inversion H; subst; split; [exact B5|contradiction]|]. rewrite <- Ef in *.
  apply bind_Ok in H as (ps & Hps & H). inversion H; subst m'. cbn [with_pois m_pois]. apply mapM_Forall2 in Hps. split.
  - intros k q Hin. destruct (Forall2_in_right _ _ _ _ Hps Hin) as (n & _ & Hn). apply bind_Ok in Hn as (r & Hr & Hn). inversion Hn; subst. unfold dgetE in Hr. destruct (dget k (m_pois m5)) eqn:Eg; [|discriminate]. inversion Hr; subst. apply B5. now apply dget_In.
  - intros _. clear - Hps. remember (keys (rp_file p)) as l. clear Heql. induction Hps as [|n x l ps Hx _ IH]; [reflexivity|]. apply bind_Ok in Hx as (r & _ & Hx). inversion Hx. unfold keys in *. cbn [map fst]. now rewrite IH.
Qed.

(** When the option file has a non-empty list of POIs, the POIs of the output file are those of this list, in this order, whatever the other options. *)
Theorem C104_pois_of_the_file : forall E C w pf rmatch o f m I path text fd l names ops, faithful C ->
  model_create E C f (ro_model o) = Ok (m, I) -> writable_model m ->
  ro_file o = Some path -> f path = Some text -> c_parse C "json" text = Ok fd -> dget "POIs" fd = Some (JList l) -> named l names -> NoDup names -> names <> [] ->
  rep_run E C w pf rmatch o f = Ok (Some (ops, None)) ->
  exists d md l', load_file C (run_ops ops f) (ro_out o) None = Ok d /\ dget "model" d = Some (JObj md) /\ dget "POIs" md = Some (JList l') /\ named l' names.
Proof.
  intros E C w pf rmatch o f m I path text fd l names ops HC Hm W Ho Hf Hp Hd HF HN Hne H.
  destruct (create_mergeable E C f (ro_model o) m I Hm W) as (Ob & S & O).
  unfold rep_run in H. rewrite Hm in H. cbn [bind fst] in H. apply bind_Ok in H as (pl & HP & H).
  assert (K : exists p, pl = Some p /\ keys (rp_file p) = names \/ pl = None).
  { unfold rep_plan in HP. rewrite Ho, Hf, Hp in HP. cbn [or_return] in HP.
    repeat match type of HP with
    | or_return ?r _ = _ => let Er := fresh "Er" in destruct r eqn:Er; cbn [or_return] in HP; [|inversion HP; exists (mkRP [] [] [] [] [] [] []); right; reflexivity]
    | bind ?r _ = _ => apply bind_Ok in HP as (? & _ & HP)
    end. inversion HP. eexists. left. split; [reflexivity|]. cbn [rp_file]. eapply file_pois_keys; eauto. }
  destruct K as (p & [(-> & K)| -> ]); [|discriminate].
  apply bind_Ok in H as (m' & H5 & H). apply bind_Ok in H as ((ops', e) & Hs & H). inversion H; subst ops' e. clear H.
  assert (B : by_name m) by (intros k q Hin; apply (proj2 (sv_pois _ _ S) k q Hin)).
  destruct (rep_apply_by_name _ _ _ _ _ B H5) as (B' & K'). rewrite K in K'. specialize (K' ltac:(destruct (rp_file p); [rewrite <- K in Hne; contradiction Hne; reflexivity|discriminate])).
  unfold model_save in Hs. apply bind_Ok in Hs as (sd & Hsd & Hs). injection Hs as Hs.
  destruct (C89_saved_file_is_loaded C w (ro_out o) None sd ops f HC Hs) as (A & _). unfold model_fill in Hsd. apply bind_Ok in Hsd as (chs & _ & Hsd). inversion Hsd; subst sd. clear Hsd.
  do 3 eexists. split; [exact A|]. split; [reflexivity|]. split; [destruct (m_descr m'); reflexivity|].
  unfold named. rewrite <- K'. clear - B'. unfold by_name in B'. revert B'. unfold values, keys. induction (m_pois m') as [|[k q] d IH]; intros B'; cbn [map]; constructor; [|apply IH; intros; apply B'; now right].
  eexists. split; [reflexivity|]. cbn [snd fst]. unfold poi_fill. rewrite (B' k q (or_introl eq_refl)). unfold dset_some, jstr_of, jnum_of. destruct (poi_descr q), (poi_min q), (poi_max q), (poi_initial q), (poi_unit q); reflexivity.
Qed.
Print Assumptions C104_pois_of_the_file.

(** Without --remove and without POIs in the option file, every POI of the input is in the output, at the same place; the new ones follow. *)
Lemma dset_keys_app {V} n (v : V) d : exists extra, keys (dset n v d) = keys d ++ extra.
Proof. destruct (in_dec string_dec n (keys d)) as [X|X]; [exists []; rewrite keys_dset by exact X; now rewrite app_nil_r|exists [n]; rewrite dset_app_new by exact X; unfold keys; now rewrite map_app]. Qed.
Lemma add_pois_keys : forall l m m', add_pois m l = Ok m' -> exists extra, keys (m_pois m') = keys (m_pois m) ++ extra.
Proof.
  unfold add_pois. induction l as [|p l IH]; intros m m' H; cbn [foldM] in H; [inversion H; exists []; now rewrite app_nil_r|]. apply bind_Ok in H as (m1 & H1 & H). destruct (IH _ _ H) as (e & He).
  apply bind_Ok in H1 as (n & Hn & H1). destruct (dmem n (m_pois m)); [discriminate|]. inversion H1; subst m1. cbn [with_pois m_pois] in He. destruct (dset_keys_app n p (m_pois m)) as (e' & He'). exists (e' ++ e). now rewrite He, He', app_assoc.
Qed.
Lemma change_pois_keys : forall l m m', change_pois m l = Ok m' -> exists extra, keys (m_pois m') = keys (m_pois m) ++ extra.
Proof.
  unfold change_pois. induction l as [|p l IH]; intros m m' H; cbn [foldM] in H; [inversion H; exists []; now rewrite app_nil_r|]. apply bind_Ok in H as (m1 & H1 & H). destruct (IH _ _ H) as (e & He).
  apply bind_Ok in H1 as (n & Hn & H1). inversion H1; subst m1. cbn [with_pois m_pois] in He. destruct (dset_keys_app n p (m_pois m)) as (e' & He'). exists (e' ++ e). now rewrite He, He', app_assoc.
Qed.
Theorem C104_pois_kept : forall E C w pf rmatch o f m I ops, faithful C ->
  model_create E C f (ro_model o) = Ok (m, I) -> writable_model m -> ro_remove o = None ->
  (forall path text fd, ro_file o = Some path -> f path = Some text -> c_parse C "json" text = Ok fd -> dget "POIs" fd = None) ->
  rep_run E C w pf rmatch o f = Ok (Some (ops, None)) ->
  exists d md l' extra, load_file C (run_ops ops f) (ro_out o) None = Ok d /\ dget "model" d = Some (JObj md) /\ dget "POIs" md = Some (JList l') /\ named l' (keys (m_pois m) ++ extra).
Proof.
  intros E C w pf rmatch o f m I ops HC Hm W Hrm Hfd H.
  destruct (create_mergeable E C f (ro_model o) m I Hm W) as (Ob & S & O).
  unfold rep_run in H. rewrite Hm in H. cbn [bind fst] in H. apply bind_Ok in H as (pl & HP & H).
  assert (K : exists p, pl = Some p /\ rp_file p = [] /\ rp_remove p = [] \/ pl = None).
  { unfold rep_plan in HP. rewrite Hrm in HP.
    match type of HP with or_return ?r _ = _ => destruct r as [fd|] eqn:Efd; cbn [or_return] in HP; [|inversion HP; exists (mkRP [] [] [] [] [] [] []); right; reflexivity] end.
    assert (D : dget "POIs" fd = None).
    { destruct (ro_file o) as [path|] eqn:Eo; [|inversion Efd; reflexivity]. destruct (f path) as [text|] eqn:Et; [|discriminate]. exact (Hfd _ _ _ eq_refl Et Efd). }
    unfold file_pois in HP. unfold dmem in HP. rewrite D in HP.
    repeat match type of HP with
    | or_return ?r _ = _ => let Er := fresh "Er" in destruct r eqn:Er; cbn [or_return] in HP; [|inversion HP; exists (mkRP [] [] [] [] [] [] []); right; reflexivity]
    | bind ?r _ = _ => apply bind_Ok in HP as (? & _ & HP)
    end. inversion HP. eexists. left. split; [reflexivity|]. cbn [rp_file rp_remove]. split; [|reflexivity]. congruence. }
  destruct K as (p & [(-> & K1 & K2)| -> ]); [|discriminate].
  apply bind_Ok in H as (m' & H5 & H). apply bind_Ok in H as ((ops', e) & Hs & H). inversion H; subst ops' e. clear H.
  assert (B : by_name m) by (intros k q Hin; apply (proj2 (sv_pois _ _ S) k q Hin)).
  destruct (rep_apply_by_name _ _ _ _ _ B H5) as (B' & _).
  assert (K' : exists extra, keys (m_pois m') = keys (m_pois m) ++ extra).
  { unfold rep_apply in H5. rewrite K1, K2 in H5. apply bind_Ok in H5 as (m1 & H1 & H5). apply bind_Ok in H5 as (m2 & H2 & H5). apply bind_Ok in H5 as (m3 & H3 & H5). apply bind_Ok in H5 as (m4 & H4 & H5). cbn [bind reorder_pois] in H5. inversion H5; subst m4.
    destruct (add_pois_keys _ _ _ H1) as (e1 & X1). destruct (change_pois_keys _ _ _ H4) as (e4 & X4). exists (e1 ++ e4). rewrite X4, app_assoc, <- X1. f_equal. f_equal.
    transitivity (m_pois m2); [|now apply (add_expressions_pois _ _ _ H2)]. destruct (rp_norms p); [inversion H3; now subst|]. now apply (update_norms_pois _ _ _ _ H3). }
  destruct K' as (extra & K').
  unfold model_save in Hs. apply bind_Ok in Hs as (sd & Hsd & Hs). injection Hs as Hs.
  destruct (C89_saved_file_is_loaded C w (ro_out o) None sd ops f HC Hs) as (A & _). unfold model_fill in Hsd. apply bind_Ok in Hsd as (chs & _ & Hsd). inversion Hsd; subst sd. clear Hsd.
  do 4 eexists. split; [exact A|]. split; [reflexivity|]. split; [destruct (m_descr m'); reflexivity|].
  unfold named. rewrite <- K'. clear - B'. unfold by_name in B'. revert B'. unfold values, keys. induction (m_pois m') as [|[k q] d IH]; intros B'; cbn [map]; constructor; [|apply IH; intros; apply B'; now right].
  eexists. split; [reflexivity|]. cbn [snd fst]. unfold poi_fill. rewrite (B' k q (or_introl eq_refl)). unfold dset_some, jstr_of, jnum_of. destruct (poi_descr q), (poi_min q), (poi_max q), (poi_initial q), (poi_unit q); reflexivity.
Qed.
Print Assumptions C104_pois_kept.

(** intended: POIs given with --add are added.  Those not in the list of the file are absent from the output. *)
Corollary added_dropped E C w pf rmatch o f m I path text fd l names ops s ap p n : faithful C ->
  model_create E C f (ro_model o) = Ok (m, I) -> writable_model m ->
  ro_file o = Some path -> f path = Some text -> c_parse C "json" text = Ok fd -> dget "POIs" fd = Some (JList l) -> named l names -> NoDup names -> names <> [] ->
  ro_add o = Some s -> process_pois pf (m_pois m) false s = Ok ap -> In p ap -> poi_name p = Some n -> ~ In n names ->
  rep_run E C w pf rmatch o f = Ok (Some (ops, None)) ->
  exists d md l', load_file C (run_ops ops f) (ro_out o) None = Ok d /\ dget "model" d = Some (JObj md) /\ dget "POIs" md = Some (JList l') /\
    forall v x, In v l' -> v = JObj x -> dget "name" x <> Some (JStr n).
Proof.
  intros HC Hm W Ho Hf Hp Hd HF HN Hne Ha Hpp Hin Hpn Hni H. destruct (C104_pois_of_the_file E C w pf rmatch o f m I path text fd l names ops HC Hm W Ho Hf Hp Hd HF HN Hne H) as (d & md & l' & A & B & D & N).
  exists d, md, l'. repeat (split; [assumption|]). intros v x Hv -> Hx. unfold named in N. destruct (Forall2_in_left _ _ _ _ N Hv) as (n' & Hn' & y & Ey & Hy). injection Ey as <-. congruence.
Qed.
Theorem C104_added_poi_dropped_refuted : forall E C w pf rmatch o f m I path text fd l names ops s ap p n, faithful C ->
  model_create E C f (ro_model o) = Ok (m, I) -> writable_model m ->
  ro_file o = Some path -> f path = Some text -> c_parse C "json" text = Ok fd -> dget "POIs" fd = Some (JList l) -> named l names -> NoDup names -> names <> [] ->
  ro_add o = Some s -> process_pois pf (m_pois m) false s = Ok ap -> In p ap -> poi_name p = Some n -> ~ In n names ->
  rep_run E C w pf rmatch o f = Ok (Some (ops, None)) ->
  exists d md l', load_file C (run_ops ops f) (ro_out o) None = Ok d /\ dget "model" d = Some (JObj md) /\ dget "POIs" md = Some (JList l') /\
    forall v x, In v l' -> v = JObj x -> dget "name" x <> Some (JStr n).
Proof. exact added_dropped. Qed.
Print Assumptions C104_added_poi_dropped_refuted.

(** intended: the names given to --remove are patterns, as in the underlying function.  A name that is not that of a POI is refused with KeyError, unless a
    replacement value is given for it. *)
Theorem C104_pattern_refuted : forall E C w pf rmatch model out names f m I n, names <> [] -> (forall n, In n names -> free_of "," n /\ free_of " " n) ->
  model_create E C f model = Ok (m, I) -> In n names -> ~ In n (keys (m_pois m)) ->
  rep_run E C w pf rmatch (remove_only model out names) f = Err KeyError.
Proof.
  intros E C w pf rmatch model out names f m I n Hne Hfree Hm Hin Hni. unfold rep_run. change (ro_model (remove_only model out names)) with model. rewrite Hm. cbn [bind fst].
  assert (HP : rep_plan E C pf (remove_only model out names) m f = Ok (Some (mkRP [] [] [] [] names [] []))).
  { unfold rep_plan. cbn. rewrite split_join; [|exact Hne|intros s Hs; now apply Hfree]. rewrite (map_ext_in no_space (fun x => x)); [now rewrite map_id|]. intros s Hs. apply no_space_free. now apply Hfree. }
  rewrite HP. cbn [bind]. unfold rep_apply. cbn [rp_addp rp_exprs rp_norms rp_change rp_remove rp_repl rp_file add_pois add_expressions change_pois foldM bind reorder_pois].
  assert (X : default_repl m names [] = Err KeyError).
  { unfold default_repl. assert (G : forall l d, In n l -> dmem n d = false -> foldM (fun (d : dict sval) n => if dmem n d then Ok d else let! p := dgetE n (m_pois m) in Ok (dset n (match poi_initial p with Some x => SNum x | None => SStr "" end) d)) l d = Err KeyError); [|apply G; [exact Hin|reflexivity]].
    induction l as [|a l IH]; intros d Hl Hd; [destruct Hl|]. cbn [foldM]. destruct (String.eqb_spec a n) as [->|Hne'].
    - rewrite Hd. unfold dgetE. destruct (dget n (m_pois m)) eqn:Eg; [|reflexivity]. exfalso. apply Hni. apply dget_In in Eg. unfold keys. apply in_map_iff. exists (n, p). auto.
    - destruct Hl as [Hl|Hl]; [contradiction|]. destruct (dmem a d); [cbn [bind]; now apply IH|]. unfold dgetE. destruct (dget a (m_pois m)); [|reflexivity]. cbn [bind]. apply IH; [exact Hl|].
      unfold dmem in *. rewrite dget_dset_neq by congruence. exact Hd. }
  destruct names as [|n0 names0]; [contradiction|]. rewrite X. reflexivity.
Qed.
Print Assumptions C104_pattern_refuted.

(** ** what the command line refuses *)
(** intended: the normalization can be a number or an expression.  Numbers are refused. *)
Theorem C104_number_norm_refuted : forall E C w pf rmatch model out c s n x f mi, item c -> item s -> item n -> n <> "" -> e_float E n = Some x -> model_create E C f model = Ok mi ->
  rep_run E C w pf rmatch (mkRO model out (Some (join ":" [c; s; n])) None None None None None) f = Err ValueError.
Proof.
  intros E C w pf rmatch model out c s n x f mi Hc Hs Hn Hne Hx Hm. unfold rep_run. cbn [ro_model]. rewrite Hm. cbn [bind]. unfold rep_plan. cbn [ro_file ro_norms or_return file_norms dget].
  assert (X : line_norms E (Some (join ":" [c; s; n])) [] = Err ValueError); [|rewrite X; reflexivity].
  unfold line_norms, spec_list. rewrite no_blank_free; try (apply free_join; [discriminate|]; intros u [<-|[<-|[<-|[]]]]; apply item_free; tauto).
  rewrite (split_free ","); [|apply free_join; [discriminate|]; intros u [<-|[<-|[<-|[]]]]; apply item_free; tauto].
  assert (Z : join ":" [c; s; n] <> "") by (cbn; destruct c; discriminate). cbn [filter]. destruct (String.eqb_spec (join ":" [c; s; n]) ""); [contradiction|]. cbn [negb foldM].
  unfold norm_spec. rewrite split_join; [|discriminate|intros u [<-|[<-|[<-|[]]]]; apply item_free; tauto]. cbn [bind]. unfold norm_instantiate, load_field. cbn [dget String.eqb Ascii.eqb Bool.eqb existsb isinstance orb negb andb bind]. rewrite Hx. cbn [bind].
  destruct (String.eqb_spec n ""); [contradiction|]. reflexivity.
Qed.
Print Assumptions C104_number_norm_refuted.
(** intended: expressions are by default formulas.  These are refused. *)
Theorem C104_formula_refuted : forall E C w pf rmatch model out name formula f mi, item name -> item formula -> model_create E C f model = Ok mi ->
  rep_run E C w pf rmatch (mkRO model out None None (Some (join ":" [name; formula])) None None None) f = Err ValueError /\
  rep_run E C w pf rmatch (mkRO model out None None (Some (join ":" [name; "formula"; formula])) None None None) f = Err ValueError.
Proof.
  intros E C w pf rmatch model out name formula f mi Hn Hf Hm. assert (Ho : item "formula") by (repeat split; discriminate).
  assert (X : forall l, (l = [name; formula] \/ l = [name; "formula"; formula]) -> line_exprs pf (Some (join ":" l)) = Err ValueError).
  { intros l Hl. assert (Hi : forall u, In u l -> item u) by (intros u Hu; destruct Hl as [->| ->]; cbn [In] in Hu; intuition (subst; assumption)).
    assert (Hnl : l <> []) by (destruct Hl as [->| ->]; discriminate).
    unfold line_exprs, spec_list. rewrite no_blank_free; try (apply free_join; [discriminate|]; intros u Hu; apply item_free; [now apply Hi|tauto]).
    rewrite (split_free ","); [|apply free_join; [discriminate|]; intros u Hu; apply item_free; [now apply Hi|tauto]].
    assert (Z : join ":" l <> "") by (destruct Hl as [->| ->]; cbn; destruct name; discriminate). cbn [filter]. destruct (String.eqb_spec (join ":" l) ""); [contradiction|]. cbn [negb mapM].
    unfold expr_spec. rewrite split_join; [|exact Hnl|intros u Hu; apply item_free; [now apply Hi|tauto]]. destruct Hl as [->| ->]; reflexivity. }
  split; unfold rep_run; cbn [ro_model]; rewrite Hm; cbn [bind]; unfold rep_plan; cbn [ro_file ro_norms ro_exprs or_return file_norms file_exprs line_norms dget bind]; rewrite X by tauto; reflexivity.
Qed.
Print Assumptions C104_formula_refuted.
(** intended: an error when the option file cannot be read.  A missing or unreadable file, or one with an invalid list of norms, makes the command return normally without writing anything. *)
Theorem C104_unreadable_file_refuted : forall E C w pf rmatch o f mi path, model_create E C f (ro_model o) = Ok mi -> ro_file o = Some path ->
  f path = None \/ (exists text e, f path = Some text /\ c_parse C "json" text = Err e) \/
  (exists text fd e, f path = Some text /\ c_parse C "json" text = Ok fd /\ file_norms E fd = Err e) ->
  rep_run E C w pf rmatch o f = Ok None.
Proof.
  intros E C w pf rmatch o f mi path Hm Ho H. unfold rep_run. rewrite Hm. cbn [bind]. unfold rep_plan. rewrite Ho.
  destruct H as [H|[(text & e & H & Hp)|(text & fd & e & H & Hp & Hn)]]; rewrite H; [reflexivity|rewrite Hp; reflexivity|rewrite Hp; cbn [or_return]; rewrite Hn; reflexivity].
Qed.
Print Assumptions C104_unreadable_file_refuted.

(** ** replacement values on the command line *)
Lemma lincomb_untouched (sub : dict expr -> string -> res (dict expr * option R)) n k e :
  (forall s x s' r, sub s x = Ok (s', r) -> dget n s = None -> dget k s = Some e -> x <> n /\ dget n s' = None /\ dget k s' = Some e) ->
  forall cs s acc kept s' acc' kept', replace_lincomb sub cs s acc kept = Ok (s', acc', kept') -> dget n s = None -> dget k s = Some e ->
  ~ In n (keys cs) /\ dget n s' = None /\ dget k s' = Some e.
Proof.
  intros HS. induction cs as [|[x c] cs IH]; intros s acc kept s' acc' kept' H Hn Hk; cbn [replace_lincomb] in H; [inversion H; subst; repeat split; auto|].
  destruct (sub s x) as [[s1 r]|] eqn:E1; [|discriminate]. destruct (HS _ _ _ _ E1 Hn Hk) as (X & N1 & K1).
  assert (Y : ~ In n (keys cs) /\ dget n s' = None /\ dget k s' = Some e) by (destruct r; eapply IH; eauto). destruct Y as (Y & N2 & K2). repeat split; auto. intros [Z|Z]; [now apply X|now apply Y].
Qed.
Lemma product_untouched den (sub : dict expr -> string -> res (dict expr * option R)) n k e :
  (forall s x s' r, sub s x = Ok (s', r) -> dget n s = None -> dget k s = Some e -> x <> n /\ dget n s' = None /\ dget k s' = Some e) ->
  forall ks s s' b, replace_product den sub ks s = Ok (s', b) -> dget n s = None -> dget k s = Some e -> dget n s' = None /\ dget k s' = Some e.
Proof.
  intros HS. induction ks as [|x ks IH]; intros s s' b H Hn Hk; cbn [replace_product] in H; [inversion H; subst; auto|].
  destruct (sub s x) as [[s1 [v|]]|] eqn:E1; [| |discriminate]; destruct (HS _ _ _ _ E1 Hn Hk) as (_ & N1 & K1).
  - destruct (den && Reqb v 0)%bool; [discriminate|]. destruct (replace_product den sub ks s1) as [[s2 b2]|] eqn:E2; [|discriminate]. inversion H; subst. eapply IH; eauto.
  - eapply IH; eauto.
Qed.
(** without a value, the expressions using the parameter cannot be reached *)
Lemma replace_untouched n params k nm nom co : In n (keys co) -> forall fuel st key st' r, replace fuel n None params st key = Ok (st', r) ->
  dget n st = None -> dget k st = Some (ELinComb nm nom co) -> key <> n /\ key <> k /\ dget n st' = None /\ dget k st' = Some (ELinComb nm nom co).
Proof.
  intros Hin. induction fuel as [|fuel IH]; intros st key st' r H Hn Hk; cbn [replace] in H; [discriminate|].
  assert (HS : forall s x s' r, replace fuel n None params s x = Ok (s', r) -> dget n s = None -> dget k s = Some (ELinComb nm nom co) -> x <> n /\ dget n s' = None /\ dget k s' = Some (ELinComb nm nom co)).
  { intros s x s' r0 H0 A B. destruct (IH _ _ _ _ H0 A B) as (X & _ & Y & Z). auto. }
  assert (N : key <> n). { intros ->. rewrite Hn in H. destruct (existsb (String.eqb n) params); [|discriminate]. now rewrite String.eqb_refl in H. }
  split; [exact N|]. destruct (String.eqb_spec key k) as [->|Nk].
  - exfalso. rewrite Hk in H. destruct (replace_lincomb _ co st nom []) as [[[s nom'] kept]|] eqn:EL; [|discriminate].
    destruct (lincomb_untouched _ n k _ HS _ _ _ _ _ _ _ EL Hn Hk) as (X & _). contradiction.
  - split; [exact Nk|]. destruct (dget key st) as [e|] eqn:E.
    + destruct e as [x v|x|x no c|x pf nu de|x y|x fm].
      * inversion H; subst; auto.
      * destruct (String.eqb n x); [discriminate|]. inversion H; subst; auto.
      * destruct (replace_lincomb _ c st no []) as [[[s nom'] kept]|] eqn:EL; [|discriminate]. destruct (lincomb_untouched _ n k _ HS _ _ _ _ _ _ _ EL Hn Hk) as (_ & A & B).
        assert (Hs : st' = dset key (ELinComb x nom' kept) s) by (destruct kept; inversion H; reflexivity). subst st'. rewrite !dget_dset_neq by congruence. auto.
      * destruct (replace_product false _ nu st) as [[s [|]]|] eqn:E1; try discriminate. destruct (product_untouched _ _ n k _ HS _ _ _ _ E1 Hn Hk) as (A & B).
        destruct (replace_product true _ de s) as [[s2 [|]]|] eqn:E2; try discriminate. destruct (product_untouched _ _ n k _ HS _ _ _ _ E2 A B) as (A2 & B2). destruct (length nu + length de =? 0)%nat; inversion H; subst; auto.
      * destruct (replace fuel n None params st y) as [[s [v|]]|] eqn:E1; inversion H; subst; apply (HS _ _ _ _ E1 Hn Hk).
      * discriminate.
    + destruct (existsb (String.eqb key) params); [|discriminate]. destruct (String.eqb n key); [discriminate|]. inversion H; subst; auto.
Qed.
(** intended: --replacements n:v gives the value by which a removed POI is replaced.  The value is not converted to a number, and the command fails
    whenever the POI is used in a linear combination. *)
Theorem C104_line_replacement_refuted : forall E C w pf rmatch model out n v f m I k nm nom co, item n -> item v -> model_create E C f model = Ok (m, I) ->
  In n (keys (m_pois m)) -> dget n (m_exprs m) = None -> dget k (m_exprs m) = Some (ELinComb nm nom co) -> In n (keys co) ->
  exists e, rep_run E C w pf rmatch (mkRO model out None None None None (Some n) (Some (join ":" [n; v]))) f = Err e.
Proof.
  intros E C w pf rmatch model out n v f m I k nm nom co Hn Hv Hm Hp Hx Hk Hin. unfold rep_run. cbn [ro_model]. rewrite Hm. cbn [bind fst].
  assert (HP : rep_plan E C pf (mkRO model out None None None None (Some n) (Some (join ":" [n; v]))) m f = Ok (Some (mkRP [] [] [] [] [n] [(n, SStr v)] []))).
  { unfold rep_plan. cbn [ro_file ro_norms ro_exprs ro_repl ro_add ro_remove or_return file_norms file_exprs file_repl file_pois line_norms line_exprs dget bind].
    assert (X : line_repl (Some (join ":" [n; v])) [] = Ok [(n, SStr v)]).
    { unfold line_repl. rewrite (split_free ","); [|apply free_join; [discriminate|]; intros u [<-|[<-|[]]]; apply item_free; tauto]. cbn [foldM].
      rewrite no_space_free; [|apply free_join; [discriminate|]; intros u [<-|[<-|[]]]; apply item_free; tauto]. rewrite split_join; [reflexivity|discriminate|intros u [<-|[<-|[]]]; apply item_free; tauto]. }
    rewrite X. cbn [or_return bind]. rewrite split_free by (apply item_free; tauto). cbn [map]. rewrite no_space_free by (apply item_free; tauto). reflexivity. }
  rewrite HP. cbn [bind]. match goal with |- context [bind (rep_apply ?a ?b ?c ?d) _] => destruct (rep_apply a b c d) as [m'|e] eqn:ER; [|exists e; reflexivity] end. exfalso.
  unfold rep_apply in ER. cbn [rp_addp rp_exprs rp_norms rp_change rp_remove rp_repl rp_file add_pois add_expressions change_pois foldM bind reorder_pois] in ER.
  unfold default_repl in ER. cbn [foldM] in ER. assert (X : dmem n [(n, SStr v)] = true) by (unfold dmem; cbn [dget]; rewrite String.eqb_refl; reflexivity). rewrite X in ER. cbn [bind usable flat_map snd app] in ER.
  apply bind_Ok in ER as (m5 & H5 & _). unfold remove_pois in H5. apply bind_Ok in H5 as (sel & Hsel & H5). unfold select_names in Hsel. cbn [mapM] in Hsel.
  assert (Y : existsb (String.eqb n) (keys (m_pois m)) = true) by (apply existsb_exists; exists n; split; [exact Hp|apply String.eqb_refl]). rewrite Y in Hsel. cbn [bind concat app] in Hsel. inversion Hsel; subst sel.
  apply bind_Ok in H5 as ([[m1 n1] e1] & H1 & _). cbn [foldM] in H1. apply bind_Ok in H1 as ([[m2 n2] e2] & H1 & _). apply bind_Ok in H1 as (? & _ & H1). apply bind_Ok in H1 as (r & Hr & _). cbn [dget] in Hr.
  unfold replace_in_exprs in Hr. revert Hr. assert (Hk2 : In k (keys (m_exprs m))) by (apply dget_In in Hk; unfold keys; apply in_map_iff; exists (k, ELinComb nm nom co); auto).
  generalize (e_fuel E) as fuel. generalize (keys (m_pois m) ++ keys (m_nps m)) as params. clear - Hin Hx Hk Hk2. intros params fuel.
  assert (G : forall l ex u w0, dget n ex = None -> dget k ex = Some (ELinComb nm nom co) -> In k l ->
    foldM (fun (st : dict expr * list string * dict R) k => let '(ex, names, vals) := st in let! r := replace fuel n None params ex k in
             Ok (match snd r with None => (fst r, names, vals) | Some v => (fst r, names ++ [k], dset k v vals) end)) l (ex, u, w0) = Ok r -> False); [|intros Hr; exact (G _ _ _ _ Hx Hk Hk2 Hr)].
  clear Hx Hk Hk2. induction l as [|x l IH]; intros ex u w0 Hx Hk Hk2 Hr; [destruct Hk2|]. cbn [foldM] in Hr. apply bind_Ok in Hr as ([[ex1 u1] w1] & H1 & Hr). apply bind_Ok in H1 as ([ex2 r2] & H1 & H2).
  destruct (replace_untouched n params k nm nom co Hin _ _ _ _ _ H1 Hx Hk) as (_ & Nk & A & B). destruct Hk2 as [Hk2|Hk2]; [now apply Nk|]. cbn [fst snd] in H2.
  assert (Z : ex1 = ex2) by (destruct r2; inversion H2; reflexivity). subst ex1. exact (IH ex2 u1 w1 A B Hk2 Hr).
Qed.
Print Assumptions C104_line_replacement_refuted.

(** ** a concrete model: three POIs, one sample normalized to mu + 2 nu *)
Definition rq_poi (n : string) (v : R) : string * POI := (n, mkPOI (Some n) (Some (-5)) (Some 5) (Some v) None None).
Definition rq_model (pois : dict POI) (nom : R) (co : dict R) : Model := rp_model pois [("sig", ELinComb "sig" nom co)] "sig".
Definition rq0 : Model := rq_model [rq_poi "mu" 1; rq_poi "nu" 3; rq_poi "xi" 0] 0 [("mu", 1); ("nu", 2)].
Definition rq1 : Model := rq_model [rq_poi "mu" 1; rq_poi "xi" 0] (0 + 2 * 3) [("mu", 1)].
Definition filled (m : Model) : dict jv := match model_fill ex_env m [] with Ok d => d | Err _ => [] end.
Definition rq_file : dict jv := [("POIs", JList [JObj (poi_fill (snd (rq_poi "mu" 1)) [])])].
Definition rq_fs (p : string) : option string := if String.eqb p "m.json" then Some "1" else if String.eqb p "opts.json" then Some "3" else None.
Definition rq_codec (out : Model) : Codec := table_codec [("1", filled rq0); ("2", filled out); ("3", rq_file)].
Lemma rq_faithful out : faithful (rq_codec out).
Proof. apply table_codec_faithful. cbn. repeat constructor; cbn; intuition congruence. Qed.
Definition rqI (m : Model) (I : Internal) : Prop := i_channels I = m_channels m.
Lemma rq_loads : exists I, model_load ex_env (new_model true false) (filled rq0) = Ok (rq0, I) /\ rqI rq0 I.
Proof. eexists. split; [unfold model_load, finish, filled, rq0, rq_model, rp_model; ev; reflexivity|]. reflexivity. Qed.
Lemma rq_writable : writable_model rq0.
Proof.
  constructor.
  - intros k p [X|[X|[X|[]]]]; inversion X; repeat split; discriminate.
  - intros k p [].
  - intros k c [X|[]]; inversion X; reflexivity.
  - intros k c k' s y [X|[]] Hs Hy; inversion X; subst. destruct Hs as [Y|[]]; inversion Y; subst. cbn in Hy. inversion Hy. reflexivity.
Qed.
Lemma rq_create out : model_create ex_env (rq_codec out) rq_fs "m.json" = model_load ex_env (new_model true false) (filled rq0).
Proof. reflexivity. Qed.
Lemma rq_saved out : filled out <> filled rq0 -> model_fill ex_env out [] = Ok (filled out) -> model_save ex_env (rq_codec out) (fun _ => true) out "out.json" None = Ok (save_ops (rq_codec out) (fun _ => true) "out.json" None (filled out)) /\
  snd (save_ops (rq_codec out) (fun _ => true) "out.json" None (filled out)) = None.
Proof.
  intros H Hf. split; [unfold model_save; rewrite Hf; reflexivity|]. unfold save_ops. cbn [negb]. change (flavor_of "out.json" None) with "json". cbn [String.eqb Ascii.eqb Bool.eqb orb].
  assert (P : c_dump (rq_codec out) "json" (filled out) = (["2"], None)); [|rewrite P; reflexivity].
  unfold rq_codec, table_codec. cbn [c_dump find snd]. destruct (jv_eq_dec (JObj (filled rq0)) (JObj (filled out))) as [X|_]; [injection X as X; congruence|]. destruct (jv_eq_dec (JObj (filled out)) (JObj (filled out))); [reflexivity|contradiction].
Qed.
Example C104_nonvacuous : exists I ops m' I', faithful (rq_codec rq1) /\ model_create ex_env (rq_codec rq1) rq_fs "m.json" = Ok (rq0, I) /\ writable_model rq0 /\ names_ok rq0 /\
  rep_run ex_env (rq_codec rq1) (fun _ => true) (fun _ => None) no_match (remove_only "m.json" "out.json" ["nu"]) rq_fs = Ok (Some (ops, None)) /\
  model_create ex_env (rq_codec rq1) (run_ops ops rq_fs) "out.json" = Ok (m', I') /\ m_pois m' = [rq_poi "mu" 1; rq_poi "xi" 0] /\
  rep_run ex_env (rq_codec rq1) (fun _ => true) (fun _ => None) no_match (remove_only "m.json" "out.json" ["n.*"]) rq_fs = Err KeyError.
Proof.
  destruct rq_loads as (I & L & _).
  assert (F : model_fill ex_env rq1 [] = Ok (filled rq1)) by (unfold filled, rq1, rq_model, rp_model; ev; reflexivity).
  assert (NE : filled rq1 <> filled rq0) by (unfold filled; cbn; discriminate).
  destruct (rq_saved rq1 NE F) as (S1 & S2). destruct (save_ops (rq_codec rq1) (fun _ => true) "out.json" None (filled rq1)) as [ops e] eqn:Es. cbn [snd] in S2. subst e.
  assert (R : rep_run ex_env (rq_codec rq1) (fun _ => true) (fun _ => None) no_match (remove_only "m.json" "out.json" ["nu"]) rq_fs = Ok (Some (ops, None))).
  { unfold rep_run. change (ro_model (remove_only "m.json" "out.json" ["nu"])) with "m.json". rewrite rq_create, L. cbn [bind fst].
    change (rep_plan ex_env (rq_codec rq1) (fun _ => None) (remove_only "m.json" "out.json" ["nu"]) rq0 rq_fs) with (@Ok (option RepPlan) (Some (mkRP [] [] [] [] ["nu"] [] []))). cbn [bind].
    assert (X : rep_apply (e_fuel ex_env) no_match (mkRP [] [] [] [] ["nu"] [] []) rq0 = Ok rq1) by reflexivity. rewrite X. cbn [bind]. change (ro_out (remove_only "m.json" "out.json" ["nu"])) with "out.json". rewrite S1. reflexivity. }
  assert (Y : exists I1, model_load ex_env (new_model true false) (filled rq1) = Ok (rq1, I1)) by (eexists; unfold model_load, finish, filled, rq1, rq_model, rp_model; ev; reflexivity).
  destruct Y as (I1 & Y). exists I, ops, rq1, I1. split; [apply rq_faithful|]. split; [rewrite rq_create; exact L|]. split; [exact rq_writable|]. split; [repeat constructor; cbn; intuition congruence|]. split; [exact R|].
  split. { destruct (C89_saved_file_is_loaded _ _ _ _ _ _ rq_fs (rq_faithful rq1) Es) as (A & _). unfold model_create, model_load_file. rewrite A. exact Y. }
  split; [reflexivity|]. eapply C104_pattern_refuted with (n := "n.*"); [discriminate|intros n [<-|[]]; repeat split; discriminate|rewrite rq_create; exact L|now left|cbn; intuition congruence].
Qed.

(** here nu, removed, is at 4, the value in the file, and not at 3, its initial value *)
Definition rq4 : Model := rq_model [rq_poi "mu" 1; rq_poi "xi" 0] (0 + 2 * 4) [("mu", 1)].
Definition rq_reps : dict jv := [("nu", JFlt 4)].
Definition rq_codec4 : Codec := table_codec [("1", filled rq0); ("2", filled rq4); ("3", [("replacements", JObj rq_reps)])].
Example C104_file_replacements_nonvacuous : exists I ops, let o := mkRO "m.json" "out.json" None (Some "opts.json") None None (Some (join "," ["nu"])) None in
  faithful rq_codec4 /\ model_create ex_env rq_codec4 rq_fs "m.json" = Ok (rq0, I) /\ writable_model rq0 /\ names_ok rq0 /\ incl ["nu"] (keys (m_pois rq0)) /\
  rq_fs "opts.json" = Some "3" /\ c_parse rq_codec4 "json" "3" = Ok [("replacements", JObj rq_reps)] /\ NoDup (keys rq_reps) /\
  rep_run ex_env rq_codec4 (fun _ => true) (fun _ => None) no_match o rq_fs = Ok (Some (ops, None)).
Proof.
  destruct rq_loads as (I & L & _).
  assert (F : model_fill ex_env rq4 [] = Ok (filled rq4)) by (unfold filled, rq4, rq_model, rp_model; ev; reflexivity).
  assert (NE : filled rq0 <> filled rq4) by (unfold filled; cbn; discriminate).
  set (o := mkRO "m.json" "out.json" None (Some "opts.json") None None (Some (join "," ["nu"])) None).
  assert (R : exists ops, rep_run ex_env rq_codec4 (fun _ => true) (fun _ => None) no_match o rq_fs = Ok (Some (ops, None))).
  { unfold rep_run. change (ro_model o) with "m.json". change (model_create ex_env rq_codec4 rq_fs "m.json") with (model_load ex_env (new_model true false) (filled rq0)). rewrite L. cbn [bind fst].
    assert (PL : rep_plan ex_env rq_codec4 (fun _ => None) o rq0 rq_fs = Ok (Some (mkRP [] [] [] [] ["nu"] [("nu", SNum 4)] []))) by reflexivity. rewrite PL. cbn [bind].
    assert (X : rep_apply (e_fuel ex_env) no_match (mkRP [] [] [] [] ["nu"] [("nu", SNum 4)] []) rq0 = Ok rq4) by reflexivity. rewrite X. cbn [bind]. unfold model_save. rewrite F. cbn [bind].
    unfold save_ops. cbn [negb]. change (flavor_of (ro_out o) None) with "json". cbn [String.eqb Ascii.eqb Bool.eqb orb].
    assert (P : c_dump rq_codec4 "json" (filled rq4) = (["2"], None)); [|rewrite P; eexists; reflexivity].
    unfold rq_codec4, table_codec. cbn [c_dump find snd]. destruct (jv_eq_dec (JObj (filled rq0)) (JObj (filled rq4))) as [X'|_]; [exfalso; apply NE; congruence|].
    destruct (jv_eq_dec (JObj (filled rq4)) (JObj (filled rq4))); [reflexivity|contradiction]. }
  destruct R as (ops & R). exists I, ops. cbv zeta. split; [apply table_codec_faithful; repeat constructor; cbn; intuition congruence|]. split; [exact L|]. split; [exact rq_writable|].
  split; [repeat constructor; cbn; intuition congruence|]. split; [intros n [<-|[]]; cbn; tauto|]. split; [reflexivity|]. split; [reflexivity|]. split; [repeat constructor; cbn; intuition|exact R].
Qed.

(** a file without POIs and without changes *)
Example C104_pois_kept_nonvacuous : exists I ops, let o := mkRO "m.json" "out.json" None None None None None None in let C := table_codec [("1", filled rq0)] in
  faithful C /\ model_create ex_env C rq_fs (ro_model o) = Ok (rq0, I) /\ writable_model rq0 /\ keys (m_pois rq0) = ["mu"; "nu"; "xi"] /\
  rep_run ex_env C (fun _ => true) (fun _ => None) no_match o rq_fs = Ok (Some (ops, None)).
Proof.
  destruct rq_loads as (I & L & _).
  assert (F : model_fill ex_env rq0 [] = Ok (filled rq0)) by (unfold filled, rq0, rq_model, rp_model; ev; reflexivity).
  set (C := table_codec [("1", filled rq0)]).
  assert (R : exists ops, rep_run ex_env C (fun _ => true) (fun _ => None) no_match (mkRO "m.json" "out.json" None None None None None None) rq_fs = Ok (Some (ops, None))).
  { unfold rep_run. change (model_create ex_env C rq_fs (ro_model (mkRO "m.json" "out.json" None None None None None None))) with (model_load ex_env (new_model true false) (filled rq0)). rewrite L. cbn [bind fst].
    change (rep_plan ex_env C (fun _ => None) (mkRO "m.json" "out.json" None None None None None None) rq0 rq_fs) with (@Ok (option RepPlan) (Some (mkRP [] [] [] [] [] [] []))). cbn [bind].
    change (rep_apply (e_fuel ex_env) no_match (mkRP [] [] [] [] [] [] []) rq0) with (Ok (A := Model) rq0). cbn [bind]. unfold model_save. rewrite F. cbn [bind].
    unfold save_ops. cbn [negb ro_out]. change (flavor_of "out.json" None) with "json". cbn [String.eqb Ascii.eqb Bool.eqb orb].
    assert (P : c_dump C "json" (filled rq0) = (["1"], None)); [|rewrite P; eexists; reflexivity].
    unfold C, table_codec. cbn [c_dump find snd]. destruct (jv_eq_dec (JObj (filled rq0)) (JObj (filled rq0))); [reflexivity|contradiction]. }
  destruct R as (ops & R). exists I, ops. cbv zeta. split; [apply table_codec_faithful; repeat constructor; cbn; intuition congruence|]. split; [exact L|]. split; [exact rq_writable|]. split; [reflexivity|exact R].
Qed.

(** intended: the output is a usable model.  With POIs in the file and --remove, the POIs in neither list are dropped without being replaced: here sig = mu + 2 nu remains
    although nu is no longer a parameter, and the output cannot be loaded. *)
Definition rq2 : Model := rq_model [rq_poi "mu" 1] 0 [("mu", 1); ("nu", 2)].
Theorem C104_dangling_refuted : exists I ops, model_create ex_env (rq_codec rq2) rq_fs "m.json" = Ok (rq0, I) /\
  rep_run ex_env (rq_codec rq2) (fun _ => true) (fun _ => None) no_match (mkRO "m.json" "out.json" None (Some "opts.json") None None (Some "xi") None) rq_fs = Ok (Some (ops, None)) /\
  exists e, model_create ex_env (rq_codec rq2) (run_ops ops rq_fs) "out.json" = Err e.
Proof.
  destruct rq_loads as (I & L & _).
  assert (F : model_fill ex_env rq2 [] = Ok (filled rq2)) by (unfold filled, rq2, rq_model, rp_model; ev; reflexivity).
  assert (NE : filled rq2 <> filled rq0) by (unfold filled; cbn; discriminate).
  destruct (rq_saved rq2 NE F) as (S1 & S2). destruct (save_ops (rq_codec rq2) (fun _ => true) "out.json" None (filled rq2)) as [ops e] eqn:Es. cbn [snd] in S2. subst e.
  exists I, ops. split; [rewrite rq_create; exact L|]. split.
  { unfold rep_run. cbn [ro_model]. rewrite rq_create, L. cbn [bind fst].
    assert (P : rep_plan ex_env (rq_codec rq2) (fun _ => None) (mkRO "m.json" "out.json" None (Some "opts.json") None None (Some "xi") None) rq0 rq_fs = Ok (Some (mkRP [] [] [] [snd (rq_poi "mu" 1)] ["xi"] [] [rq_poi "mu" 1]))) by reflexivity. rewrite P. cbn [bind].
    assert (X : rep_apply (e_fuel ex_env) no_match (mkRP [] [] [] [snd (rq_poi "mu" 1)] ["xi"] [] [rq_poi "mu" 1]) rq0 = Ok rq2) by reflexivity. rewrite X. cbn [bind ro_out]. rewrite S1. reflexivity. }
  destruct (C89_saved_file_is_loaded _ _ _ _ _ _ rq_fs (rq_faithful rq2) Es) as (A & _). unfold model_create, model_load_file. rewrite A. cbn [bind].
  eexists. unfold model_load, finish, filled, rq2, rq_model, rp_model. ev. reflexivity.
Qed.
Print Assumptions C104_dangling_refuted.

Definition rq3 : Model := rq_model [rq_poi "mu" 1] (0 + 2 * 3) [("mu", 1)].
Example C104_pois_of_the_file_nonvacuous : exists ops, named [JObj (poi_fill (snd (rq_poi "mu" 1)) [])] ["mu"] /\ rq_fs "opts.json" = Some "3" /\ c_parse (rq_codec rq3) "json" "3" = Ok rq_file /\
  dget "POIs" rq_file = Some (JList [JObj (poi_fill (snd (rq_poi "mu" 1)) [])]) /\ (exists p, process_pois (fun _ => Some 1) (m_pois rq0) false "zz=1:0:2" = Ok [p] /\ poi_name p = Some "zz") /\
  rep_run ex_env (rq_codec rq3) (fun _ => true) (fun _ => Some 1) no_match (mkRO "m.json" "out.json" None (Some "opts.json") None (Some "zz=1:0:2") None None) rq_fs = Ok (Some (ops, None)).
Proof.
  destruct rq_loads as (I & L & _).
  assert (F : model_fill ex_env rq3 [] = Ok (filled rq3)) by (unfold filled, rq3, rq_model, rp_model; ev; reflexivity).
  assert (NE : filled rq3 <> filled rq0) by (unfold filled; cbn; discriminate).
  destruct (rq_saved rq3 NE F) as (S1 & S2). destruct (save_ops (rq_codec rq3) (fun _ => true) "out.json" None (filled rq3)) as [ops e] eqn:Es. cbn [snd] in S2. subst e.
  assert (Hp : exists p, process_pois (fun _ => Some 1) (m_pois rq0) false "zz=1:0:2" = Ok [p] /\ poi_name p = Some "zz") by (eexists; split; reflexivity).
  exists ops. split; [constructor; [|constructor]; eexists; split; reflexivity|]. split; [reflexivity|]. split; [reflexivity|]. split; [reflexivity|]. split; [exact Hp|].
  destruct Hp as (p & Hp & Hn). unfold rep_run. cbn [ro_model]. rewrite rq_create, L. cbn [bind fst].
  assert (P : exists pl, rep_plan ex_env (rq_codec rq3) (fun _ => Some 1) (mkRO "m.json" "out.json" None (Some "opts.json") None (Some "zz=1:0:2") None None) rq0 rq_fs = Ok (Some pl) /\ rep_apply (e_fuel ex_env) no_match pl rq0 = Ok rq3) by (eexists; split; reflexivity).
  destruct P as (pl & P & X). rewrite P. cbn [bind]. rewrite X. cbn [bind ro_out]. rewrite S1. reflexivity.
Qed.
Example C104_refused_nonvacuous : item "SR" /\ item "S" /\ item "2" /\ item "x" /\ "2" <> "" /\ rq_fs "none.json" = None /\
  In "nu" (keys (m_pois rq0)) /\ dget "nu" (m_exprs rq0) = None /\ dget "sig" (m_exprs rq0) = Some (ELinComb "sig" 0 [("mu", 1); ("nu", 2)]) /\ In "nu" (keys [("mu", 1); ("nu", 2)]).
Proof. repeat split; try discriminate; cbn; tauto. Qed.
