(** C101-C102: the commands that prune and merge models. *)
From Verif Require Import Py PyFacts Base BaseFacts Expressions ExprProps Norms Sample SampleFacts Channels ChannelFacts Params Core CoreFacts CoreSpec CoreCoefs CoreYields CoreExample ModelIO ModelIOFacts ModelIOProps DataProps
  ModelTools ModelToolsFacts NPPruneFacts NPPruneProps SamplePruneProps UtilTools UtilFacts UtilProps FileIO FileIOProps ToolsMoreProps MergeProps Commands CommandFacts.
Local Open Scope string_scope.
Local Open Scope list_scope.
Local Open Scope R_scope.

(** ** C101 *)
(** the dataset as markup can hold it: integer counts *)
Definition as_integers (d : Data) : Data := mkData (map (fun x => IZR (py_int x)) (d_counts d)) (d_aux d).

Lemma save_dataset_trunc c l : save_dataset c (map (fun x => IZR (py_int x)) l) = save_dataset c l.
Proof.
  unfold save_dataset. rewrite map_length. destruct (length l =? nbins c)%nat; [|reflexivity]. cbn [negb]. f_equal.
  destruct (ch_kind c); cbn zeta.
  - destruct l as [|x l]; cbn [map nth]; [reflexivity|]. now rewrite py_int_IZR.
  - assert (G : forall (bins : list (R * R)) l, zipwith (fun (b : R * R) x => JObj [("lo_edge", JFlt (fst b)); ("hi_edge", JFlt (snd b)); ("counts", JInt (py_int x))]) bins (map (fun x => IZR (py_int x)) l) =
      zipwith (fun (b : R * R) x => JObj [("lo_edge", JFlt (fst b)); ("hi_edge", JFlt (snd b)); ("counts", JInt (py_int x))]) bins l).
    { intros bs. induction bs as [|b bs IH]; intros [|x r]; cbn; try reflexivity. now rewrite py_int_IZR, IH. }
    now rewrite G.
  - assert (G : forall (bins : list string) l, zipwith (fun (b : string) x => JObj [("name", JStr b); ("counts", JInt (py_int x))]) bins (map (fun x => IZR (py_int x)) l) =
      zipwith (fun (b : string) x => JObj [("name", JStr b); ("counts", JInt (py_int x))]) bins l).
    { intros bs. induction bs as [|b bs IH]; intros [|x r]; cbn; try reflexivity. now rewrite py_int_IZR, IH. }
    now rewrite G.
  - assert (G : forall (bins : list string) l, zipwith (fun (b : string) x => JObj [("name", JStr b); ("counts", JInt (py_int x))]) bins (map (fun x => IZR (py_int x)) l) =
      zipwith (fun (b : string) x => JObj [("name", JStr b); ("counts", JInt (py_int x))]) bins l).
    { intros bs. induction bs as [|b bs IH]; intros [|x r]; cbn; try reflexivity. now rewrite py_int_IZR, IH. }
    now rewrite G.
Qed.
Lemma channel_slice_map f I k l : channel_slice I k (map f l) = (let! s := channel_slice I k l in Ok (map f s)).
Proof. unfold channel_slice. destruct (dgetE k (i_offsets I)) as [off|]; [|reflexivity]. cbn [bind]. destruct (dgetE k (i_channels I)) as [c|]; [|reflexivity]. cbn [bind]. now rewrite skipn_map, firstn_map. Qed.
Lemma data_fill_trunc m I d descr sd : data_fill m I (as_integers d) descr sd = data_fill m I d descr sd.
Proof.
  unfold data_fill, as_integers. cbn [d_counts d_aux].
  assert (G : forall l : dict Channel, mapM (fun kc => let! s := channel_slice I (fst kc) (map (fun x => IZR (py_int x)) (d_counts d)) in let! e := save_dataset (snd kc) s in Ok (JObj e)) l =
     mapM (fun kc => let! s := channel_slice I (fst kc) (d_counts d) in let! e := save_dataset (snd kc) s in Ok (JObj e)) l).
  { induction l as [|kc l IH]; [reflexivity|]. cbn [mapM]. rewrite IH, channel_slice_map. destruct (channel_slice I (fst kc) (d_counts d)); [|reflexivity]. cbn [bind]. now rewrite save_dataset_trunc. }
  now rewrite G.
Qed.

(** the dataset read from a file has the sizes of the model *)
Lemma load_counts_length chs l : forall off counts, (off + fold_right (fun c n => (nbins c + n)%nat) 0%nat chs <= length counts)%nat -> length (fst (load_counts chs l off counts)) = length counts.
Proof.
  induction chs as [|c chs IH]; intros off counts HL; cbn [load_counts fold_right] in *; [reflexivity|].
  destruct (find_channel (ch_name c) l) as [d|]; [|reflexivity].
  pose proof (load_dataset_length c d (firstn (nbins c) (skipn off counts))) as L.
  destruct (load_dataset c d (firstn (nbins c) (skipn off counts))) as [view o]. cbn [fst] in L. rewrite firstn_length, skipn_length in L.
  assert (L2 : length (firstn off counts ++ view ++ skipn (off + nbins c) counts) = length counts) by (rewrite !app_length, firstn_length, skipn_length; lia).
  destruct o; [exact L2|]. rewrite IH; [exact L2|]. rewrite L2. lia.
Qed.
Lemma total_bins_fold (l : dict Channel) : fold_right (fun c n => (nbins c + n)%nat) 0%nat (values l) = total_bins l.
Proof. unfold total_bins, values. induction l as [|[k c] l IH]; cbn; [reflexivity|]. now rewrite IH. Qed.

Lemma data_create_facts E C f m I path d descr : object E m I -> data_create C f (m, I) path = Ok (d, descr) ->
  length (d_counts d) = i_nbins I /\ length (d_aux d) = length (m_nps m) /\
  (forall i p, nth_error (values (m_nps m)) i = Some p -> np_aux_obs p = None -> nth i (d_aux d) 0 = 0) /\
  exists d0, data_init m I [] [] = Ok d0 /\ length (d_counts d0) = i_nbins I.
Proof.
  intros (HS & HC) H. pose proof (siv_built _ _ _ HS) as Bt. unfold data_create in H. cbn [fst snd] in H. apply bind_Ok in H as (d0 & H0 & H).
  assert (L0 : length (d_counts d0) = i_nbins I).
  { unfold data_init in H0. apply bind_Ok in H0 as (c & Hc & H0). apply bind_Ok in H0 as (a & _ & H0). inversion H0; subst d0. cbn in *. inversion Hc. apply repeat_length. }
  apply bind_Ok in H as (sd & _ & H). destruct (data_load m I d0 sd) as [d1 [e|]] eqn:EL; [discriminate|]. apply bind_Ok in H as (ds & _ & H). inversion H; subst d1 ds; clear H.
  unfold data_load in EL. destruct (dget "data" sd) as [[| | | | | |dd]|]; try discriminate. destruct (bind (load_field "description" dd JNull [TStr]) as_ostr); [|discriminate].
  destruct (dget "channels" dd) as [[| | | | |l|]|]; try discriminate.
  pose proof (load_counts_length (values (i_channels I)) l 0 (d_counts d0)) as LC. rewrite total_bins_fold, L0, (bt_nb _ _ _ Bt) in LC. specialize (LC ltac:(lia)).
  destruct (load_counts (values (i_channels I)) l 0 (d_counts d0)) as [counts [e|]]; [discriminate|]. cbn [fst] in LC.
  destruct (let! a := aux_entries dd in let! v := aux_values (values (m_nps m)) a in set_aux_obs m I v) as [aux|] eqn:Ea; [|discriminate]. inversion EL; subst d; clear EL. cbn [d_counts d_aux].
  apply bind_Ok in Ea as (ae & _ & Ea). apply bind_Ok in Ea as (v & Hv & Ea).
  assert (Lv : length v = length (m_nps m)) by (apply mapM_Forall2 in Hv; rewrite <- (Forall2_length _ _ _ Hv); unfold values; now rewrite map_length).
  assert (Ev : aux = v).
  { unfold set_aux_obs in Ea. rewrite Lv, Nat.eqb_refl in Ea. destruct (length (m_nps m) =? 0)%nat eqn:E0; [|congruence]. apply Nat.eqb_eq in E0. rewrite E0 in Lv. destruct v; [|discriminate].
    inversion Ea. destruct (pmodel_names _ _ (bt_pm _ _ _ Bt)) as (_ & Hn & _). assert (Ln : length (pm_nps (i_pm I)) = 0%nat).
    { pose proof (f_equal (@length string) Hn) as X. unfold np_names, keys in X. rewrite !map_length in X. lia. } now destruct (pm_nps (i_pm I)). }
  subst aux. split; [rewrite (bt_nb _ _ _ Bt); exact LC|]. split; [exact Lv|]. split; [|eauto].
  intros i p Hi Hp. apply mapM_Forall2 in Hv. destruct (Forall2_nth _ _ _ _ _ Hv Hi) as (x & Hx & Hy). rewrite Hp in Hy. inversion Hy; subst x. now apply nth_error_nth.
Qed.

(** the steps of the command keep what saving needs *)
Definition default_options (m : Model) : Prop := m_asym m = true /\ m_linear m = false /\ m_simple_sym m = true /\ m_lognormal m = false /\ m_cutoff m = 0.
Record prunable (E : Env) (m : Model) (I : Internal) : Prop := mkPrunable {
  pr_object : object E m I; pr_savable : savable E m; pr_owner : one_owner m; pr_opts : default_options m;
  pr_nps : forall k p, In (k, p) (m_nps m) -> np_aux_obs p <> Some "" /\ np_variation p <> 0 }.
Lemma prune_steps_prunable E pf rmatch o m I m' I' : prunable E m I -> prune_steps E pf rmatch o (m, I) = Ok (m', I') -> prunable E m' I' /\ m_pois m' = m_pois m /\ m_exprs m' = m_exprs m /\ incl (m_nps m') (m_nps m).
Proof.
  intros P H. unfold prune_steps in H. apply bind_Ok in H as ([m1 I1] & H1 & H). apply bind_Ok in H as ([m2 I2] & H2 & H). cbn [fst snd] in H2.
  assert (P1 : prunable E m1 I1 /\ m_pois m1 = m_pois m /\ m_exprs m1 = m_exprs m /\ incl (m_nps m1) (m_nps m)).
  { destruct (po_signif o) as [z|]; [|inversion H1; subst; split; [exact P|]; repeat split; apply incl_refl].
    destruct (prune_samples_savable E m I z m1 I1 (pr_object _ _ _ P) (pr_savable _ _ _ P) H1) as (Ob & S).
    destruct (prune_result E m I z m1 I1 (pr_object _ _ _ P) (proj1 (sv_chs _ _ (pr_savable _ _ _ P))) H1) as (Em & _).
    assert (En : m_nps m1 = m_nps m) by (rewrite Em; reflexivity).
    split; [|rewrite Em; repeat split; apply incl_refl]. constructor; [exact Ob|exact S|unfold one_owner; rewrite En; apply P| |rewrite En; apply P]. unfold default_options. rewrite Em. apply P. }
  destruct P1 as (P1 & Q1 & Q2 & Q3).
  assert (G : forall m2 I2 m3 I3, prunable E m2 I2 -> object E m3 I3 /\ savable E m3 /\ one_owner m3 /\ (forall k p, In (k, p) (m_nps m3) -> np_aux_obs p <> Some "") /\
     m3 = mkModel (m_name m2) (m_descr m2) (m_pois m2) (m_nps m3) (m_aux m3) (m_channels m3) (m_exprs m2) (m_asym m2) (m_linear m2) (m_simple_sym m2) (m_lognormal m2) (m_cutoff m2) /\ incl (m_nps m3) (m_nps m2) ->
     prunable E m3 I3 /\ m_pois m3 = m_pois m2 /\ m_exprs m3 = m_exprs m2 /\ incl (m_nps m3) (m_nps m2)).
  { intros a Ia b Ib Pa (A1 & A2 & A3 & A4 & A5 & A6). split; [|rewrite A5; cbn [m_pois m_exprs]; repeat split; exact A6].
    constructor; [exact A1|exact A2|exact A3|unfold default_options; rewrite A5; apply Pa|]. intros k p Hin. split; [exact (A4 k p Hin)|exact (proj2 (pr_nps _ _ _ Pa k p (A6 _ Hin)))]. }
  assert (P2 : prunable E m2 I2 /\ m_pois m2 = m_pois m1 /\ m_exprs m2 = m_exprs m1 /\ incl (m_nps m2) (m_nps m1)).
  { destruct (po_nps o) as [spec|]; [|inversion H2; subst; split; [exact P1|]; repeat split; apply incl_refl].
    apply bind_Ok in H2 as (d & _ & H2). apply bind_Ok in H2 as (pv & _ & H2). apply (G m1 I1); [exact P1|].
    apply (remove_nps_savable E rmatch m1 I1 pv); [apply P1|apply P1|intros k p Hin; exact (proj1 (pr_nps _ _ _ P1 k p Hin))|exact H2]. }
  destruct P2 as (P2 & R1 & R2 & R3).
  assert (P3 : prunable E m' I' /\ m_pois m' = m_pois m2 /\ m_exprs m' = m_exprs m2 /\ incl (m_nps m') (m_nps m2)).
  { destruct (po_impact o) as [x|]; [|inversion H; subst; split; [exact P2|]; repeat split; apply incl_refl].
    apply (G m2 I2); [exact P2|]. apply (prune_nps_savable E rmatch m2 I2 x); [apply P2|apply P2|intros k p Hin; exact (proj1 (pr_nps _ _ _ P2 k p Hin))|exact H]. }
  destruct P3 as (P3 & S1 & S2 & S3). split; [exact P3|]. split; [congruence|]. split; [congruence|]. intros x Hx. apply Q3, R3, S3, Hx.
Qed.

(** a model just loaded, with the default options *)
Lemma create_prunable E C f path m I : model_create E C f path = Ok (m, I) -> writable_model m -> one_owner m ->
  (forall k p, In (k, p) (m_nps m) -> np_aux_obs p <> Some "" /\ np_variation p <> 0) -> prunable E m I.
Proof.
  intros H W Ow Hn. unfold model_create, model_load_file in H. apply bind_Ok in H as (sd & _ & H).
  pose proof (loaded_savable E (new_model true false) sd m I eq_refl H W) as S. unfold model_load in H. apply bind_Ok in H as (mr & Hr & HF).
  constructor; [exact (finish_object _ _ _ _ HF)|exact S|exact Ow| |exact Hn].
  assert (O : default_options mr).
  { unfold model_read in Hr. apply bind_Ok in Hr as (mv & _ & Hr). destruct mv; try discriminate. do 12 (apply bind_Ok in Hr as (? & _ & Hr)). inversion Hr; subst mr. repeat split. }
  unfold finish in HF. apply bind_Ok in HF as (it & _ & HF). inversion HF; subst m. exact O.
Qed.
Lemma create_reload E m I sm : prunable E m I -> model_fill E m [] = Ok sm -> model_load E (new_model true false) sm = Ok (m, I).
Proof.
  intros P Hm. destruct (pr_opts _ _ _ P) as (O1 & O2 & O3 & O4 & O5).
  destruct (C17_reloaded_object_is_identical E m m I (new_model true false) [] (object_finish _ _ _ (pr_object _ _ _ P)) (pr_savable _ _ _ P)) as (sm' & Hm' & Hl); try reflexivity; try (symmetry; assumption). congruence.
Qed.

(** Pruning a model file: the output file holds the pruned model and the dataset, as a model and a dataset loaded from it show; the
    counts of the dataset are truncated to integers, as always when a dataset is saved; no other file is touched. *)
Theorem C101_output_file : forall E C w pf rmatch o f ops m I, faithful C ->
  model_create E C f (po_model o) = Ok (m, I) -> writable_model m -> one_owner m ->
  (forall k p, In (k, p) (m_nps m) -> np_aux_obs p <> Some "" /\ np_variation p <> 0) ->
  prune_run E C w pf rmatch o f = Ok (ops, None) ->
  exists m' I' d descr, prune_steps E pf rmatch o (m, I) = Ok (m', I') /\ data_create C f (m', I') (prune_source o) = Ok (d, descr) /\
    model_create E C (run_ops ops f) (prune_output o) = Ok (m', I') /\
    data_create C (run_ops ops f) (m', I') (prune_output o) = Ok (as_integers d, descr) /\
    forall q, q <> prune_output o -> run_ops ops f q = f q.
Proof.
  intros E C w pf rmatch o f ops m I HC Hm W Ow Hn H. unfold prune_run in H. rewrite Hm in H. cbn [bind] in H.
  apply bind_Ok in H as ([m' I'] & Hs & H). apply bind_Ok in H as ([d descr] & Hd & H). cbn [fst snd] in H.
  pose proof (create_prunable E C f (po_model o) m I Hm W Ow Hn) as P. destruct (prune_steps_prunable _ _ _ _ _ _ _ _ P Hs) as (P' & _ & _ & _).
  exists m', I', d, descr. split; [exact Hs|]. split; [exact Hd|].
  destruct (data_create_facts E C f m' I' _ d descr (pr_object _ _ _ P') Hd) as (Lc & La & Hz & d0 & H0 & L0).
  destruct (C89_save_with_model _ _ _ _ _ _ _ _ _ _ f HC H) as (sm & sd & Hsm & Hsd & HM & HD).
  split; [unfold model_create; rewrite HM; exact (create_reload E m' I' sm P' Hsm)|]. split.
  - destruct (sv_chs _ _ (pr_savable _ _ _ P')) as (HN & Hch).
    destruct (C28_dataset_save_load_roundtrip E m' I' (map py_int (d_counts d)) (d_aux d) d0 descr []) as (sd' & Hd' & Hl); auto.
    + apply P'. + intros k c Hin. destruct (Hch k c Hin) as (A & B & _). auto. + now rewrite map_length. + intros k p Hin. exact (proj2 (pr_nps _ _ _ P' k p Hin)). + apply P'.
    + rewrite map_map in Hd', Hl. change (mkData (map (fun x => IZR (py_int x)) (d_counts d)) (d_aux d)) with (as_integers d) in Hd', Hl. rewrite data_fill_trunc in Hd'.
      assert (sd' = sd) by congruence. subst sd'. specialize (HD m' I' d0). unfold data_load_file in HD. unfold data_create. cbn [fst snd]. rewrite H0. cbn [bind].
      assert (X : exists v, load_file C (run_ops ops f) (prune_output o) None = Ok v /\ v = dupdate sm sd).
      { unfold save_with_model in H. rewrite Hsm, Hsd in H. cbn [bind] in H. injection H as Hops. destruct (C89_saved_file_is_loaded _ _ _ _ _ _ f HC Hops) as (HL & _). eauto. }
      destruct X as (v & HL & Hv). rewrite HL in *. cbn [bind]. rewrite HD, Hl. 
      assert (G : dget "data" v = dget "data" sd). { subst v. destruct (model_fill_key _ _ _ Hsm) as [vm ->]. destruct (data_fill_key _ _ _ _ _ Hsd) as [vd ->]. reflexivity. }
      rewrite G. unfold data_fill in Hsd. apply bind_Ok in Hsd as (chl & _ & Hsd). apply bind_Ok in Hsd as (al & _ & Hsd). inversion Hsd; subst sd. cbn [dset dget String.eqb Ascii.eqb Bool.eqb].
      destruct descr as [s|]; reflexivity.
  - intros q Hq. unfold save_with_model in H. apply bind_Ok in H as (x & _ & H). apply bind_Ok in H as (y & _ & H). injection H as Hops.
    destruct (C89_saved_file_is_loaded _ _ _ _ _ _ f HC Hops) as (_ & HO). exact (HO q Hq).
Qed.
Print Assumptions C101_output_file.

(** the output is named after the option, with the extension added when it is missing *)
Definition ends_with (suf s : string) : Prop := exists p, s = (p ++ suf)%string.
Lemma drop_suffix_spec suf : forall s p, drop_suffix suf s = Some p -> s = (p ++ suf)%string.
Proof.
  induction s as [|a s IH]; intros p H; cbn [drop_suffix] in H.
  - destruct (String.eqb_spec "" suf) as [E|_]; [inversion H; subst p; exact E|discriminate].
  - destruct (String.eqb_spec (String a s) suf) as [E|_]; [inversion H; subst p; exact E|]. destruct (drop_suffix suf s) as [q|] eqn:Eq; [|discriminate]. inversion H; subst p. cbn. f_equal. now apply IH.
Qed.
Lemma drop_suffix_ex suf : suf <> "" -> forall s p, s = (p ++ suf)%string -> exists q, drop_suffix suf s = Some q.
Proof.
  intros Hs s. induction s as [|a s IH]; intros p Hp; cbn [drop_suffix].
  - destruct p; cbn in Hp; [subst; contradiction|discriminate].
  - destruct (String.eqb_spec (String a s) suf); [eauto|]. destruct p as [|b p]; cbn in Hp; [congruence|]. inversion Hp; subst. destruct (IH p eq_refl) as (q & ->). eauto.
Qed.
Theorem C101_output_name : forall o, (ends_with ".json" (po_out o) -> prune_output o = po_out o) /\ (~ ends_with ".json" (po_out o) -> prune_output o = (po_out o ++ ".json")%string).
Proof.
  intros o. unfold prune_output. split; intros H.
  - destruct H as (p & Hp). destruct (drop_suffix_ex ".json" ltac:(discriminate) _ _ Hp) as (q & Hq). rewrite Hq. symmetry. exact (drop_suffix_spec _ _ _ Hq).
  - destruct (drop_suffix ".json" (po_out o)) as [q|] eqn:Eq; [|reflexivity]. exfalso. apply H. exists q. exact (drop_suffix_spec _ _ _ Eq).
Qed.
Print Assumptions C101_output_name.
Example C101_output_name_nonvacuous : map (fun s => prune_output (mkPO "m.json" None s None None None)) ["a.json"; "a"; "a.json.json"; "a.yaml"] = ["a.json"; "a.json"; "a.json.json"; "a.yaml.json"].
Proof. reflexivity. Qed.

(** Removing one NP by name, at a value: the model in the output file has the other NPs, and predicts what the original model predicts
    with the NP at this value. *)
Theorem C101_np_removed_at_value : forall E C w pf rmatch model data out var val x n p nom f ops m I m' I', faithful C ->
  let o := mkPO model data out (Some (write (var, val))) None None in
  model_create E C f model = Ok (m, I) -> writable_model m -> one_owner m ->
  (forall k p, In (k, p) (m_nps m) -> np_aux_obs p <> Some "" /\ np_variation p <> 0) -> names_ok m -> tables_ok E m (m_channels m) ->
  part var -> part val -> pf val = Some x -> filter (rmatch (var ++ "$")%string) (keys (m_nps m)) = [n] -> filter (rmatch (var ++ "$")%string) (keys (m_pois m)) = [] ->
  dget n (m_nps m) = Some p -> np_nominal p = Some nom ->
  prune_run E C w pf rmatch o f = Ok (ops, None) -> model_create E C (run_ops ops f) (prune_output o) = Ok (m', I') ->
  (forall k q, In (k, q) (m_nps m') <-> In (k, q) (m_nps m) /\ k <> n) /\
  (tables_ok E m' (m_channels m') -> norms_at_nominal m (keys (m_nps m')) -> forall ps ns ns' t t' b, length ps = length (m_pois m) ->
   (forall k, k <> n -> In k (keys (m_nps m)) -> np_at (keys (m_nps m')) ns' k = np_at (keys (m_nps m)) ns k) ->
   unscaled_value nom (np_variation p) (np_at (keys (m_nps m)) ns n) = x ->
   tot_bin_exp m I ps ns None = Ok t -> tot_bin_exp m' I' ps ns' None = Ok t' -> (b < i_nbins I)%nat -> t' b = t b).
Proof.
  intros E C w pf rmatch model data out var val x n p nom f ops m I m' I' HC o Hm W Ow Hn HNm HT Hv Hl Hx Hf Hp Hg Hnom H Hm'.
  destruct (C101_output_file E C w pf rmatch o f ops m I HC Hm W Ow Hn H) as (m2 & I2 & d & descr & Hs & _ & Hr & _ & _). rewrite Hr in Hm'. inversion Hm'; subst m2 I2; clear Hm' Hr.
  pose proof (create_prunable E C f _ m I Hm W Ow Hn) as P.
  unfold prune_steps in Hs. cbn [o po_signif po_nps po_impact bind fst snd] in Hs. apply bind_Ok in Hs as ([m3 I3] & Hs & H3). inversion H3; subst m3 I3; clear H3.
  apply bind_Ok in Hs as (dd & Hdd & Hs). apply bind_Ok in Hs as (pv & Hpv & Hs).
  assert (Hvar : np_variation p <> 0) by (apply (proj2 (Hn n p (dget_In _ _ _ Hg)))).
  assert (Ed : dd = [(n, SNum ((x - nom) / np_variation p))]).
  { unfold process_setvals in Hdd. change (write (var, val)) with (join "," (map write [(var, val)])) in Hdd.
    rewrite assignments_join in Hdd; [|discriminate|intros v r [E0|[]]; inversion E0; subst; auto]. cbn [map fst snd foldM] in Hdd. unfold setval in Hdd. rewrite Hf, Hp in Hdd.
    cbn [app length Nat.eqb] in Hdd. rewrite Hx in Hdd. cbn [bind assign_all existsb] in Hdd. rewrite String.eqb_refl in Hdd. cbn [andb orb] in Hdd. rewrite Hg, Hnom in Hdd. unfold scaled_value in Hdd.
    rewrite (proj2 (Reqb_false _ _) Hvar) in Hdd. cbn in Hdd. congruence. }
  subst dd. cbn in Hpv. inversion Hpv; subst pv; clear Hpv.
  destruct (pr_object _ _ _ P) as (HS & HCc). pose proof (object_finish _ _ _ (pr_object _ _ _ P)) as HF.
  destruct (sv_chs _ _ (pr_savable _ _ _ P)) as (HN & Hch).
  assert (HSt : stored (m_channels m)) by (intros k c Hk; destruct (Hch k c Hk) as (A & _ & B & D); split; [exact A|]; split; [exact B|]; intros q s Hq; exact (proj1 (D q s Hq))).
  destruct (C56_removes_exactly_the_designated E m m I rmatch _ m' I' HF HN HNm HSt HT Hs) as (K & _ & Em).
  assert (Hin : In n (keys (m_nps m))) by (unfold keys; apply in_map_iff; exists (n, p); split; [reflexivity|exact (dget_In _ _ _ Hg)]).
  assert (K' : forall k q, In (k, q) (m_nps m') <-> In (k, q) (m_nps m) /\ k <> n).
  { intros k q. rewrite K. unfold np_designated. cbn [keys map fst]. split; intros (A & B); (split; [exact A|]).
    - intros ->. apply B. exists n. split; [now left|now left].
    - intros (sp & [<-|[]] & [Hx1|(Hx1 & _)]); [congruence|contradiction]. }
  split; [exact K'|]. intros HT' Hnn ps ns ns' t t' b HL Hk Hval Ht Ht' Hb.
  destruct (pr_opts _ _ _ P) as (_ & O2 & _ & _ & O5).
  assert (Kk : forall k, In k (keys (m_nps m')) <-> In k (keys (m_nps m)) /\ k <> n).
  { intros k. unfold keys. rewrite !in_map_iff. split.
    - intros ([k0 q] & <- & Hq). apply K' in Hq as (A & B). split; [exists (k0, q); auto|exact B].
    - intros (([k0 q] & <- & Hq) & B). exists (k0, q). split; [reflexivity|]. apply K'. auto. }
  eapply (C56_predictions E m m I rmatch _ m' I' ps ns ns' t t' b); eauto.
  - intros k Hkk. apply Kk in Hkk as (A & B). now apply Hk.
  - intros k q Hq Hnot. assert (k = n). { destruct (string_dec k n) as [->|Hne]; [reflexivity|]. exfalso. apply Hnot. apply Kk. split; [unfold keys; apply in_map_iff; exists (k, q); auto|exact Hne]. } subst k.
    unfold removed_at. cbn [dget]. rewrite String.eqb_refl. rewrite <- Hval. unfold unscaled_value. field. exact Hvar.
Qed.
Print Assumptions C101_np_removed_at_value.

(** a model file without dataset, and no dataset file: KeyError and nothing is written, although the model has been pruned *)
Theorem C101_dataset_needed_refuted : forall E C w pf rmatch o f m I m' I' sd, model_create E C f (po_model o) = Ok (m, I) -> prune_steps E pf rmatch o (m, I) = Ok (m', I') ->
  object E m' I' -> (po_data o = None \/ po_data o = Some "") -> load_file C f (po_model o) None = Ok sd -> dget "data" sd = None ->
  prune_run E C w pf rmatch o f = Err KeyError.
Proof.
  intros E C w pf rmatch o f m I m' I' sd Hm Hs Ob Hd HL Hn. unfold prune_run. rewrite Hm. cbn [bind]. rewrite Hs. cbn [bind].
  assert (Es : prune_source o = po_model o) by (unfold prune_source; destruct Hd as [->| ->]; reflexivity). rewrite Es. unfold data_create. cbn [fst snd].
  unfold data_init, set_counts, set_aux_obs. cbn [bind length Nat.eqb]. rewrite HL. cbn [bind]. unfold data_load. rewrite Hn. reflexivity.
Qed.
Print Assumptions C101_dataset_needed_refuted.

(** The dataset is read from the data file when one is given, and otherwise from the file of the model: whatever the other options, the dataset in the
    output file is the one that the pruned model reads in that file. *)
Theorem C101_data_source : forall E C w pf rmatch o f ops m I path, faithful C ->
  model_create E C f (po_model o) = Ok (m, I) -> writable_model m -> one_owner m ->
  (forall k p, In (k, p) (m_nps m) -> np_aux_obs p <> Some "" /\ np_variation p <> 0) ->
  prune_run E C w pf rmatch o f = Ok (ops, None) ->
  (path <> "" /\ po_data o = Some path) \/ (path = po_model o /\ (po_data o = None \/ po_data o = Some "")) ->
  exists m' I' d descr, model_create E C (run_ops ops f) (prune_output o) = Ok (m', I') /\
    data_create C f (m', I') path = Ok (d, descr) /\ data_create C (run_ops ops f) (m', I') (prune_output o) = Ok (as_integers d, descr).
Proof.
  intros E C w pf rmatch o f ops m I path HC Hm W Ow Hn H Hp. destruct (C101_output_file E C w pf rmatch o f ops m I HC Hm W Ow Hn H) as (m' & I' & d & descr & _ & Hd & Hr & Hd2 & _).
  exists m', I', d, descr. split; [exact Hr|]. split; [|exact Hd2]. rewrite <- Hd. f_equal. unfold prune_source.
  destruct Hp as [(N & ->)|(-> & [->| ->])]; try reflexivity. destruct (String.eqb_spec path ""); [contradiction|reflexivity].
Qed.
Print Assumptions C101_data_source.
(** the hypotheses on the run are those of C101_output_file (see C101_nonvacuous); the two ways to name the source *)
Example C101_data_source_nonvacuous : let o := mkPO "m.json" (Some "d.json") "out" None None None in ("d.json" <> "" /\ po_data o = Some "d.json").
Proof. split; [discriminate|reflexivity]. Qed.

(** the counts of the dataset are truncated on the way *)
Theorem C101_counts_truncated_refuted : forall E C w pf rmatch o f ops m I, faithful C ->
  model_create E C f (po_model o) = Ok (m, I) -> writable_model m -> one_owner m ->
  (forall k p, In (k, p) (m_nps m) -> np_aux_obs p <> Some "" /\ np_variation p <> 0) ->
  prune_run E C w pf rmatch o f = Ok (ops, None) ->
  exists m' I' d descr d2, data_create C f (m', I') (prune_source o) = Ok (d, descr) /\ model_create E C (run_ops ops f) (prune_output o) = Ok (m', I') /\
    data_create C (run_ops ops f) (m', I') (prune_output o) = Ok (d2, descr) /\ (d2 = d <-> forall x, In x (d_counts d) -> exists z, x = IZR z).
Proof.
  intros E C w pf rmatch o f ops m I HC Hm W Ow Hn H. destruct (C101_output_file E C w pf rmatch o f ops m I HC Hm W Ow Hn H) as (m' & I' & d & descr & _ & Hd & Hr & Hd2 & _).
  exists m', I', d, descr, (as_integers d). split; [exact Hd|]. split; [exact Hr|]. split; [exact Hd2|]. destruct d as [c a]. unfold as_integers. cbn [d_counts d_aux]. split.
  - intros [= Hc] x Hx. rewrite <- Hc in Hx. apply in_map_iff in Hx as (y & <- & _). eauto.
  - intros Hc. f_equal. clear - Hc. induction c as [|x c IH]; [reflexivity|]. cbn [map]. rewrite IH by (intros y Hy; apply Hc; now right). destruct (Hc x (or_introl eq_refl)) as (z & ->). now rewrite py_int_IZR.
Qed.
Print Assumptions C101_counts_truncated_refuted.

(** a concrete case: a library that knows two texts *)
Definition two_texts (vin vout : dict jv) : Codec :=
  mkCodec (fun fl v => if jv_eq_dec (JObj v) (JObj vout) then (["o"; "ut"], None) else ([], Some TypeError)) (fun fl s => if String.eqb s "in" then Ok vin else Ok vout).
Lemma two_texts_faithful vin vout : faithful (two_texts vin vout).
Proof. intros fl v l H. unfold two_texts in *. cbn [c_dump c_parse] in *. destruct (jv_eq_dec (JObj v) (JObj vout)) as [E|]; [|discriminate]. injection H as <-. cbn. congruence. Qed.
Definition only (p t : string) : fs := fun q => if String.eqb q p then Some t else None.
Definition exactly (spec n : string) : bool := String.eqb spec (n ++ "$").
(** a model file, with two NPs, one of them with an auxiliary observable, and a dataset *)
Definition cx_model : Model :=
  mkModel "cx" None [("mu", mkPOI (Some "mu") (Some 0) (Some 10) (Some 1) None None)]
    [("a", mkNP (Some "a") (Some 0) 1 (Some 1) (Some "aux_a") None None); np1 "b" 0] [("aux_a", mkAux (Some "aux_a") None None None None)]
    [("SR", mkChannel "SR" KSingle [("S", pr_sample (ExprNorm "mu") pr_imps)])] [] true false true false 0.
Definition cx_data : dict jv :=
  [("data", JObj [("channels", JList [JObj [("name", JStr "SR"); ("counts", JInt 12)]]); ("aux_obs", JList [JObj [("name", JStr "aux_a"); ("value", JFlt 1)]])])].
Definition cx_in : dict jv := (match model_fill ex_env cx_model [] with Ok d => d | Err _ => [] end) ++ cx_data.
Definition cx_opts : PruneOpts := mkPO "m.json" None "pruned" (Some "a=half") None None.
Definition cx_pf (s : string) : option R := if String.eqb s "half" then Some (1/2) else None.
Lemma cx_load : exists I, model_load ex_env (new_model true false) cx_in = Ok (cx_model, I) /\ set_internal_vars ex_env cx_model = Ok I.
Proof. eexists. split; [unfold model_load, finish; ev; reflexivity|ev; reflexivity]. Qed.
Lemma cx_writable : writable_model cx_model /\ one_owner cx_model /\ (forall k p, In (k, p) (m_nps cx_model) -> np_aux_obs p <> Some "" /\ np_variation p <> 0).
Proof.
  split; [constructor|split].
  - intros k p [[= <- <-]|[]]. repeat split; discriminate.
  - intros k p [[= <- <-]|[[= <- <-]|[]]]; cbn; congruence.
  - intros k c [[= <- <-]|[]]. reflexivity.
  - intros k c k' s y [[= <- <-]|[]] [[= <- <-]|[]] [= <-]. reflexivity.
  - repeat constructor; cbn; intuition.
  - intros k p [[= <- <-]|[[= <- <-]|[]]]; cbn; split; try congruence; lra.
Qed.
Example C101_nonvacuous : exists C ops I m' I', faithful C /\ model_create ex_env C (only "m.json" "in") "m.json" = Ok (cx_model, I) /\
  writable_model cx_model /\ one_owner cx_model /\ (forall k p, In (k, p) (m_nps cx_model) -> np_aux_obs p <> Some "" /\ np_variation p <> 0) /\
  prune_run ex_env C (fun _ => true) cx_pf exactly cx_opts (only "m.json" "in") = Ok (ops, None) /\
  model_create ex_env C (run_ops ops (only "m.json" "in")) "pruned.json" = Ok (m', I') /\ keys (m_nps m') = ["b"] /\ m_aux m' = [].
Proof.
  destruct cx_load as (I & HL & HS).
  assert (X : exists m' I' d sm sd, prune_steps ex_env cx_pf exactly cx_opts (cx_model, I) = Ok (m', I') /\ keys (m_nps m') = ["b"] /\ m_aux m' = [] /\
     data_init m' I' [] [] = Ok (mkData [0] [0]) /\ data_load m' I' (mkData [0] [0]) cx_in = (d, None) /\ model_fill ex_env m' [] = Ok sm /\ data_fill m' I' d None [] = Ok sd).
  { revert HS. clear HL. intros HS. assert (Y : exists I, set_internal_vars ex_env cx_model = Ok I) by eauto. 
    assert (Z : forall J, set_internal_vars ex_env cx_model = Ok J -> J = I) by (intros J HJ; congruence).
    eassert (W : set_internal_vars ex_env cx_model = Ok _) by (ev; reflexivity).
    rewrite <- (Z _ W). clear.
    do 5 eexists. split; [ev; reflexivity|]. split; [reflexivity|]. split; [reflexivity|]. split; [ev; reflexivity|]. split; [ev; reflexivity|]. split; [ev; reflexivity|ev; reflexivity]. }
  destruct X as (m' & I' & d & sm & sd & X1 & X2 & X3 & X4 & X5 & X6 & X7).
  set (C := two_texts cx_in (dupdate sm sd)). exists C.
  assert (HC : faithful C) by apply two_texts_faithful.
  assert (Hc : model_create ex_env C (only "m.json" "in") "m.json" = Ok (cx_model, I)) by exact HL.
  assert (Hr : exists ops, prune_run ex_env C (fun _ => true) cx_pf exactly cx_opts (only "m.json" "in") = Ok (ops, None)).
  { unfold prune_run. change (po_model cx_opts) with "m.json". rewrite Hc. cbn [bind]. rewrite X1. cbn [bind].
    assert (Hd : data_create C (only "m.json" "in") (m', I') (prune_source cx_opts) = Ok (d, None)).
    { unfold data_create. cbn [fst snd]. rewrite X4. cbn [bind]. change (load_file C (only "m.json" "in") (prune_source cx_opts) None) with (Ok cx_in). cbn [bind]. rewrite X5. reflexivity. }
    rewrite Hd. cbn [bind fst snd]. unfold save_with_model. rewrite X6, X7. cbn [bind]. unfold save_ops. cbn [negb].
    change ((flavor_of (prune_output cx_opts) None =? "json") || (flavor_of (prune_output cx_opts) None =? "yaml"))%bool with true. cbn iota. unfold C at 1, two_texts. cbn [c_dump].
    destruct (jv_eq_dec (JObj (dupdate sm sd)) (JObj (dupdate sm sd))) as [|N]; [|contradiction]. eexists. reflexivity. }
  destruct Hr as (ops & Hr). destruct cx_writable as (W1 & W2 & W3). exists ops, I, m', I'. split; [exact HC|]. split; [exact Hc|]. split; [exact W1|]. split; [exact W2|]. split; [exact W3|]. split; [exact Hr|].
  destruct (C101_output_file ex_env C _ cx_pf exactly cx_opts _ ops cx_model I HC Hc W1 W2 W3 Hr) as (m2 & I2 & d2 & ds & H1 & _ & H3 & _). rewrite X1 in H1. injection H1 as <- <-. split; [exact H3|]. split; assumption.
Qed.
