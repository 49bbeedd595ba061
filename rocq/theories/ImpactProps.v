(** C114: the impacts of the nuisance parameters on a POI. *)
From Coq Require Import Permutation Sorted.
From Verif Require Import Py PyFacts Base BaseFacts Expressions ExprProps Norms RSort Sample SampleFacts Channels ChannelFacts Params ParamsFacts Core CoreFacts CoreSpec CoreCoefs CoreYields CoreExample CoreMore NpMin PoiMin
  ModelIO ModelIOFacts ModelIOProps ModelTools ModelToolsFacts NPPruneFacts NPPruneProps UtilTools FileIO FileIOProps Commands Impacts.
Local Open Scope string_scope.
Local Open Scope list_scope.
Local Open Scope R_scope.

(** * Specification *)
(** the reduced model [m'] is [m] with the NP [n] kept at the value [v], in units of its variation: it has the other NPs, and predicts in every bin what [m] predicts *)
Definition frozen_at (E : Env) (m : Model) (I : Internal) (n : string) (v : R) (m' : Model) (I' : Internal) : Prop :=
  (forall k p, In (k, p) (m_nps m') <-> In (k, p) (m_nps m) /\ k <> n) /\ m_pois m' = m_pois m /\
  (tables_ok E m' (m_channels m') -> norms_at_nominal m (keys (m_nps m')) -> forall ps ns ns' t t' b, length ps = length (m_pois m) ->
   (forall k, k <> n -> In k (keys (m_nps m)) -> np_at (keys (m_nps m')) ns' k = np_at (keys (m_nps m)) ns k) -> np_at (keys (m_nps m)) ns n = v ->
   tot_bin_exp m I ps ns None = Ok t -> tot_bin_exp m' I' ps ns' None = Ok t' -> (b < i_nbins I)%nat -> t' b = t b).
(** the dataset [d'] of the reduced model is [d]: same counts, and same auxiliary observations of the other NPs *)
Definition same_data (m m' : Model) (n : string) (d d' : Data) : Prop :=
  d_counts d' = d_counts d /\ length (d_aux d') = length (m_nps m') /\
  forall k, k <> n -> In k (keys (m_nps m)) -> np_at (keys (m_nps m')) (d_aux d') k = np_at (keys (m_nps m)) (d_aux d) k.
(** [delta] is the change of the POI, from its value in [best], in the fit of the model with the NP [n] kept at [v] *)
Definition shift_at (E : Env) (cl : cloner) (m : Model) (I : Internal) (d : Data) (best : Params) (poi n : string) (v delta : R) : Prop :=
  exists m' I' d' start fit p mu mu0, frozen_at E m I n v m' I' /\ same_data m m' n d d' /\ pois start = i_ref_pois I' /\ cl start = Ok fit /\ fit (m', I') d' = Ok p /\
    pars_get p poi = Ok mu /\ pars_get best poi = Ok mu0 /\ delta = mu - mu0.
(** the size of an impact: half the distance between the two changes *)
Definition half_width (i : Impact) : R := Rabs (im_pos i - im_neg i) / 2.
Definition larger_first (a b : Impact) : Prop := half_width b <= half_width a.
Definition processed (m : Model) (pars : option (list string)) : list string := match pars with Some l => l | None => keys (m_nps m) end.
(** what is asked of the model: a complete model without Gaussian channels, with exponential impacts and without cutoff *)
Record usable_model (E : Env) (m : Model) (I : Internal) : Prop := mkUsable {
  um_built : finish E m = Ok (m, I); um_keyed : keyed m; um_names : names_ok m; um_tables : tables_ok E m (m_channels m);
  um_poisson : forall k c, In (k, c) (m_channels m) -> is_gaussian c = false; um_exp : m_linear m = false; um_cutoff : m_cutoff m = 0 }.

(** the output file of plot_impacts *)
Definition impact_file (o : ImpOpts) : string := (impact_prefix (io_out o) ++ "_impacts.json")%string.

(** * Copies *)
Definition renamed (m : Model) (s : string) : Model :=
  mkModel s (m_descr m) (m_pois m) (m_nps m) (m_aux m) (m_channels m) (m_exprs m) (m_asym m) (m_linear m) (m_simple_sym m) (m_lognormal m) 0.
Lemma clone_named E mi m I s : finish E mi = Ok (m, I) -> keyed m -> (forall k c, In (k, c) (m_channels m) -> is_gaussian c = false) -> model_clone E m (Some s) = Ok (renamed m s, I).
Proof.
  intros HF K Hg. unfold model_clone.
  rewrite (clone_channels (m_channels m) []).
  2: exact (proj1 (ky_chs _ K)).
  2: { intros k c Hin. destruct (proj2 (ky_chs _ K) k c Hin) as (A & B & C). split; [apply clone_channel_id; auto; apply (Hg k c Hin)|exact A]. }
  cbn [bind app]. unfold model_init, rekey. cbn [m_pois m_nps m_aux m_channels m_exprs m_name m_descr m_asym m_linear m_simple_sym m_lognormal].
  pose proof (rekey_id (fun p => name_of (poi_name p)) (m_pois m) [] (proj1 (ky_pois _ K)) (fun k p Hin => f_equal name_of (proj2 (ky_pois _ K) k p Hin))) as R1.
  pose proof (rekey_nps (m_aux m) (m_nps m) [] (proj1 (ky_nps _ K)) (proj2 (ky_nps _ K))) as R2.
  pose proof (rekey_id (fun p => name_of (aux_name p)) (m_aux m) [] (proj1 (ky_aux _ K)) (fun k p Hin => f_equal name_of (proj2 (ky_aux _ K) k p Hin))) as R3.
  pose proof (rekey_id (fun c => Ok (ch_name c)) (m_channels m) [] (proj1 (ky_chs _ K)) (fun k p Hin => f_equal Ok (proj1 (proj2 (ky_chs _ K) k p Hin)))) as R4.
  pose proof (rekey_id (fun e => Ok (expr_name e)) (m_exprs m) [] (proj1 (ky_exprs _ K)) (fun k p Hin => f_equal Ok (proj2 (ky_exprs _ K) k p Hin))) as R5.
  cbn [app] in R1, R2, R3, R4, R5. cbn [bind] in *. rewrite R1. cbn [bind]. rewrite R2. cbn [bind]. rewrite R3. cbn [bind]. rewrite R4. cbn [bind]. rewrite R5. cbn [bind].
  unfold finish in HF. apply bind_Ok in HF as (it & Hit & HF). inversion HF; subst m it; clear HF. pose proof (siv_idem _ _ _ Hit) as Hi.
  cbn [with_channels m_name m_descr m_pois m_nps m_aux m_channels m_exprs m_asym m_linear m_simple_sym m_lognormal m_cutoff].
  assert (Hz : set_internal_vars E (renamed (with_channels mi (i_channels I)) s) = Ok I) by exact Hi.
  unfold renamed, with_channels in Hz. cbn [m_name m_descr m_pois m_nps m_aux m_channels m_exprs m_asym m_linear m_simple_sym m_lognormal m_cutoff] in Hz.
  unfold finish. rewrite Hz. cbn [bind fst with_channels m_name m_descr m_pois m_nps m_aux m_channels m_exprs m_asym m_linear m_simple_sym m_lognormal m_cutoff].
  unfold with_channels. cbn [m_name m_descr m_pois m_nps m_aux m_channels m_exprs m_asym m_linear m_simple_sym m_lognormal m_cutoff]. rewrite Hz. reflexivity.
Qed.

(** * Removal of one entry *)
Definition others (n : string) (l : list string) : list string := filter (fun k => negb (String.eqb k n)) l.
Lemma others_none n l : ~ In n l -> others n l = l.
Proof. induction l as [|k l IH]; intros H; [reflexivity|]. unfold others in *. cbn [filter]. destruct (String.eqb_spec k n) as [->|Hn]; cbn [negb]; [exfalso; apply H; now left|]. rewrite IH; [reflexivity|]. intros X; apply H; now right. Qed.
Lemma index_cons n a l : index n (a :: l) = if String.eqb n a then Some 0%nat else option_map S (index n l).
Proof. reflexivity. Qed.
Lemma np_at_head a l x xs : np_at (a :: l) (x :: xs) a = x.
Proof. unfold np_at. rewrite index_cons, String.eqb_refl. reflexivity. Qed.
Lemma delete_spec n : forall ks i xs, NoDup ks -> index n ks = Some i -> length xs = length ks ->
  length (firstn i xs ++ skipn (S i) xs) = length (others n ks) /\ forall k, k <> n -> np_at (others n ks) (firstn i xs ++ skipn (S i) xs) k = np_at ks xs k.
Proof.
  induction ks as [|a ks IH]; intros i xs HN Hi HL; [discriminate|]. destruct xs as [|x xs]; [discriminate|]. injection HL as HL. inversion HN as [|? ? Ha HN']; subst.
  rewrite index_cons in Hi. destruct (String.eqb_spec n a) as [->|Hn].
  - injection Hi as <-. cbn [firstn skipn app others filter]. rewrite String.eqb_refl. cbn [negb]. change (filter (fun k => negb (String.eqb k a)) ks) with (others a ks). rewrite (others_none a ks Ha). split; [exact HL|].
    intros k Hk. now rewrite np_at_cons by exact Hk.
  - destruct (index n ks) as [j|] eqn:Ej; [|discriminate]. injection Hi as <-. destruct (IH j xs HN' eq_refl HL) as (A & B).
    cbn [firstn skipn app others filter]. destruct (String.eqb_spec a n) as [->|_]; [congruence|]. cbn [negb]. change (filter (fun k => negb (String.eqb k n)) ks) with (others n ks). split; [cbn [length]; f_equal; exact A|].
    intros k Hk. destruct (String.eqb_spec k a) as [->|Hka]; [now rewrite !np_at_head|]. rewrite !np_at_cons by exact Hka. now apply B.
Qed.
Lemma keys_filter_others n (d : dict NP) : keys (filter (fun kp => negb (String.eqb (fst kp) n)) d) = others n (keys d).
Proof. induction d as [|[k p] d IH]; cbn; [reflexivity|]. destruct (String.eqb k n); cbn; [exact IH|]. f_equal. exact IH. Qed.

(** * One fit *)
Lemma varied_fit_spec E rmatch cl m I d aux n p v poi mu i : usable_model E m I -> dget n (m_nps m) = Some p -> index n (keys (m_nps m)) = Some i -> d_counts d <> [] -> length (d_aux d) = length (m_nps m) ->
  delete_at i (d_aux d) = Ok aux -> varied_fit E rmatch cl m d aux n v poi = Ok mu ->
  exists m' I' d' start fit q, frozen_at E m I n v m' I' /\ same_data m m' n d d' /\ pois start = i_ref_pois I' /\ cl start = Ok fit /\ fit (m', I') d' = Ok q /\ pars_get q poi = Ok mu.
Proof.
  intros [HF K HN HT Hg Hl Hc] Hp Hi Hcn Ha Hd H. unfold varied_fit in H. apply bind_Ok in H as ([m' I'] & H1 & H). unfold remove_nps_of_clone in H1. rewrite (clone_named E m m I _ HF K Hg) in H1. cbn [bind] in H1.
  set (m1 := renamed m _) in H1. apply bind_Ok in H as (start & Hst & H). apply bind_Ok in H as (fit & Hfit & H). apply bind_Ok in H as (d' & Hd' & H). apply bind_Ok in H as (q & Hq & H). cbn [fst snd] in *.
  assert (HF1 : finish E m1 = Ok (m1, I)).
  { apply object_finish. exact (finish_object _ _ _ _ HF). }
  assert (Hst1 : stored (m_channels m1)) by exact (proj2 (ky_chs _ K)).
  destruct (C56_removes_exactly_the_designated E m1 m1 I rmatch [(n, Some v)] m' I' HF1 (proj1 (ky_chs _ K)) HN Hst1 HT H1) as (Kp & (keep & Kf) & Em).
  change (m_nps m1) with (m_nps m) in Kp, Kf. change (m_pois m1) with (m_pois m) in Em.
  assert (Hin : In n (keys (m_nps m))) by (unfold keys; apply in_map_iff; exists (n, p); split; [reflexivity|exact (dget_In _ _ _ Hp)]).
  assert (K' : forall k q, In (k, q) (m_nps m') <-> In (k, q) (m_nps m) /\ k <> n).
  { intros k r. rewrite Kp. unfold np_designated. cbn [keys map fst]. split; intros (A & B); (split; [exact A|]).
    - intros ->. apply B. exists n. split; [now left|now left].
    - intros (sp & [<-|[]] & [Hx1|(Hx1 & _)]); [congruence|contradiction]. }
  assert (Ef : m_nps m' = filter (fun kp => negb (String.eqb (fst kp) n)) (m_nps m)).
  { rewrite Kf. apply filter_ext_in. intros [k r] Hk. cbn [fst]. destruct (keep (k, r)) eqn:Ek.
    - assert (X : In (k, r) (m_nps m')) by (rewrite Kf; apply filter_In; auto). apply K' in X as (_ & X). destruct (String.eqb_spec k n); [contradiction|reflexivity].
    - destruct (String.eqb_spec k n) as [->|Hn]; [reflexivity|]. exfalso. assert (X : In (k, r) (m_nps m')) by (apply K'; auto). rewrite Kf in X. apply filter_In in X as (_ & X). congruence. }
  assert (Ek : keys (m_nps m') = others n (keys (m_nps m))) by (rewrite Ef; apply keys_filter_others).
  assert (Lk : forall d0 : dict NP, length (keys d0) = length d0) by (intros d0; unfold keys; apply map_length).
  destruct (delete_spec n (keys (m_nps m)) i (d_aux d) (proj1 (ky_nps _ K)) Hi) as (DL & DV); [rewrite Lk; exact Ha|].
  unfold delete_at in Hd. destruct (i <? length (d_aux d))%nat; [|discriminate].
  assert (Eaux : firstn i (d_aux d) ++ skipn (S i) (d_aux d) = aux) by congruence. rewrite Eaux in DL, DV.
  assert (La : length aux = length (m_nps m')) by (rewrite <- Lk, Ek; exact DL).
  exists m', I', d', start, fit, q. split; [|split; [|split; [|auto]]].
  - split; [exact K'|]. split; [rewrite Em; reflexivity|]. intros HT' Hnn ps ns ns' t t' b HL Hk Hv Ht Ht' Hb.
    eapply (C56_predictions E m1 m1 I rmatch [(n, Some v)] m' I' ps ns ns' t t' b); eauto.
    + exact (proj1 (ky_chs _ K)).
    + intros k Hkk. change (m_nps m1) with (m_nps m). rewrite Ek in Hkk. unfold others in Hkk. apply filter_In in Hkk as (A & B). apply Hk; [|exact A]. intros ->. now rewrite String.eqb_refl in B.
    + intros k r Hr Hnot. change (m_nps m1) with (m_nps m) in *. assert (k = n).
      { destruct (string_dec k n) as [->|Hne]; [reflexivity|]. exfalso. apply Hnot. unfold keys. apply in_map_iff. exists (k, r). split; [reflexivity|]. apply K'. auto. } subst k.
      unfold removed_at. cbn [dget]. rewrite String.eqb_refl. exact Hv.
    + assert (Et : tot_bin_exp m1 I ps ns None = tot_bin_exp m I ps ns None); [|now rewrite Et].
      assert (Es : m = renamed (mkModel (m_name m) (m_descr m) (m_pois m) (m_nps m) (m_aux m) (m_channels m) (m_exprs m) (m_asym m) (m_linear m) (m_simple_sym m) (m_lognormal m) 0) (m_name m)).
      { unfold renamed. cbn. destruct m; cbn in *. now rewrite Hc. }
      rewrite Es at 1. reflexivity.
  - unfold data_init in Hd'. apply bind_Ok in Hd' as (c & Hc' & Hd'). apply bind_Ok in Hd' as (a & Hax & Hd'). injection Hd' as <-. cbn [d_counts d_aux].
    assert (Ec : c = d_counts d). { unfold set_counts in Hc'. destruct (d_counts d) as [|c0 l]; [congruence|]. destruct (_ =? _)%nat; congruence. } subst c.
    assert (Ea : a = aux).
    { unfold set_aux_obs in Hax. cbv zeta in Hax. destruct (length aux =? 0)%nat eqn:E0.
      - apply Nat.eqb_eq in E0. assert (Z : length (m_nps m') = 0%nat) by lia. assert (Hp0 : m_nps m' = []) by (destruct (m_nps m'); [reflexivity|discriminate]).
        injection Hax as <-. destruct aux; [|discriminate].
        assert (Ob : exists mz, finish E mz = Ok (m', I')) by (unfold remove_nps in H1; repeat (match type of H1 with bind _ _ = _ => let Hx := fresh in apply bind_Ok in H1 as (? & Hx & H1) end); eauto). destruct Ob as (mz & Hmz).
        apply finish_object in Hmz as (HS & _). apply siv_built in HS. destruct (pmodel_names _ _ (bt_pm _ _ _ HS)) as (_ & Hnn & _). unfold np_names in Hnn. rewrite Hp0 in Hnn. cbn in Hnn.
        destruct (pm_nps (i_pm I')); [reflexivity|discriminate].
      - rewrite La, Nat.eqb_refl in Hax. congruence. }
    subst a. split; [reflexivity|]. split; [exact La|]. intros k Hk _. rewrite Ek. now apply DV.
  - unfold pars_clone, pars_init in Hst. cbn [pois nps pmod bind] in Hst. apply bind_Ok in Hst as (u & Hu & Hst). apply bind_Ok in Hst as (x & Hx & Hst). apply bind_Ok in Hst as (y & Hy & Hst). injection Hst as <-. reflexivity.
Qed.

(** * The loop *)
Lemma place_perm x l : Permutation (place x l) (x :: l).
Proof. induction l as [|y l IH]; cbn [place]; [constructor; constructor|]. destruct (Rltb _ _); [|apply Permutation_refl]. eapply Permutation_trans; [apply perm_skip, IH|apply perm_swap]. Qed.
Lemma by_size_perm l : Permutation (by_size l) l.
Proof. induction l as [|x l IH]; cbn [by_size]; [constructor|]. eapply Permutation_trans; [apply place_perm|now constructor]. Qed.
Lemma place_sorted x l : StronglySorted larger_first l -> StronglySorted larger_first (place x l).
Proof.
  induction l as [|y l IH]; intros H; cbn [place]; [repeat constructor|]. inversion H as [|? ? H1 H2]; subst. destruct (Rltb (size_of x) (size_of y)) eqn:E.
  - apply Rltb_true in E. constructor; [now apply IH|]. eapply Permutation_Forall; [apply Permutation_sym, place_perm|]. constructor; [|exact H2]. unfold larger_first, half_width. unfold size_of in E. lra.
  - apply Rltb_false in E. unfold size_of in E. constructor; [exact H|]. constructor; [unfold larger_first, half_width; lra|]. eapply Forall_impl; [|exact H2]. intros z Hz. unfold larger_first, half_width in *. lra.
Qed.
Lemma by_size_sorted l : StronglySorted larger_first (by_size l).
Proof. induction l as [|x l IH]; cbn [by_size]; [constructor|now apply place_sorted]. Qed.
Definition of_size (x : R) (i : Impact) : bool := if Req_EM_T (half_width i) x then true else false.
Lemma place_stable z x l : StronglySorted larger_first l -> filter (of_size z) (place x l) = filter (of_size z) (x :: l).
Proof.
  induction l as [|y l IH]; intros H; cbn [place]; [reflexivity|]. inversion H as [|? ? H1 H2]; subst. destruct (Rltb (size_of x) (size_of y)) eqn:E; [|reflexivity].
  apply Rltb_true in E. cbn [filter]. rewrite (IH H1). cbn [filter]. unfold of_size. change (size_of x) with (half_width x) in E. change (size_of y) with (half_width y) in E.
  destruct (Req_EM_T (half_width x) z), (Req_EM_T (half_width y) z); try reflexivity. lra.
Qed.
Lemma by_size_stable z l : filter (of_size z) (by_size l) = filter (of_size z) l.
Proof. induction l as [|x l IH]; cbn [by_size]; [reflexivity|]. rewrite place_stable by apply by_size_sorted. cbn [filter]. now rewrite IH. Qed.
Lemma dset_entries k (v : Impact) : forall d k' v', In (k', v') (dset k v d) -> (k', v') = (k, v) \/ In (k', v') d.
Proof. induction d as [|[a b] d IH]; intros k' v'; cbn [dset]; [intros [H|[]]; auto|]. destruct (String.eqb_spec k a) as [<-|Hn]; (intros [H|H]; [|]); [left; congruence|right; now right|right; now left|]. destruct (IH _ _ H); [now left|right; now right]. Qed.
Lemma dset_keys k (v : Impact) n : forall d, In n (keys (dset k v d)) <-> n = k \/ In n (keys d).
Proof. induction d as [|[a b] d IH]; cbn [dset]; [cbn; intuition congruence|]. destruct (String.eqb_spec k a) as [->|Hn]; cbn [keys map fst In] in *; [intuition congruence|]. unfold keys in IH. rewrite IH. intuition congruence. Qed.
Lemma fold_entries : forall (l : list Impact) acc, (forall n i, In (n, i) acc -> im_name i = n) ->
  (forall n i, In (n, i) (fold_left (fun acc i => dset (im_name i) i acc) l acc) -> im_name i = n /\ (In i l \/ In (n, i) acc)) /\
  (forall n, In n (keys (fold_left (fun acc i => dset (im_name i) i acc) l acc)) <-> In n (map im_name l) \/ In n (keys acc)).
Proof.
  induction l as [|x l IH]; intros acc Ha; cbn [fold_left map]. { split; [intros n i H; auto|]. intros n. split; [auto|intros [[]|H]; exact H]. }
  assert (Hs : forall n i, In (n, i) (dset (im_name x) x acc) -> (n = im_name x /\ i = x) \/ In (n, i) acc) by (intros n i H; apply dset_entries in H; destruct H as [H|H]; [inversion H; auto|auto]).
  destruct (IH (dset (im_name x) x acc)) as (A & B); [intros n i H; destruct (Hs n i H) as [(-> & ->)|H']; auto|]. split.
  - intros n i H. destruct (A n i H) as (E1 & [H1|H1]); (split; [exact E1|]); [left; now right|]. destruct (Hs n i H1) as [(-> & ->)|H']; [left; now left|now right].
  - intros n. rewrite B. assert (Hk : In n (keys (dset (im_name x) x acc)) <-> n = im_name x \/ In n (keys acc)) by apply dset_keys. rewrite Hk. cbn [In]. intuition congruence.
Qed.
Lemma fold_distinct : forall (l : list Impact) acc, NoDup (keys acc ++ map im_name l) -> fold_left (fun acc i => dset (im_name i) i acc) l acc = acc ++ map (fun i => (im_name i, i)) l.
Proof.
  induction l as [|x l IH]; intros acc H; cbn [fold_left map]; [now rewrite app_nil_r|]. cbn [map] in H. pose proof (NoDup_mid _ _ _ H) as Hk. rewrite dset_app_new by exact Hk. rewrite IH.
  - now rewrite <- app_assoc.
  - unfold keys in *. rewrite map_app, <- app_assoc. exact H.
Qed.

Lemma impact_of_spec E rmatch cl m I d best poi n i : usable_model E m I -> d_counts d <> [] -> length (d_aux d) = length (m_nps m) -> impact_of E rmatch cl m d best poi n = Ok i ->
  im_name i = n /\ pars_get best n = Ok (im_best i) /\ exists par nom, dget n (m_nps m) = Some par /\ np_nominal par = Some nom /\
  shift_at E cl m I d best poi n (unscaled_value nom (np_variation par) (im_best i + 1)) (im_pos i) /\ shift_at E cl m I d best poi n (unscaled_value nom (np_variation par) (im_best i - 1)) (im_neg i).
Proof.
  intros U Hc Ha H. unfold impact_of in H. apply bind_Ok in H as (par & Hp & H). unfold dgetE in Hp. destruct (dget n (m_nps m)) as [p0|] eqn:Hg; [|discriminate]. injection Hp as ->.
  apply bind_Ok in H as (nm & Hn & H). rewrite (proj1 (proj2 (ky_nps _ (um_keyed _ _ _ U)) n par (dget_In _ _ _ Hg))) in Hn. cbn in Hn. injection Hn as <-.
  apply bind_Ok in H as (aux & Hx & H). destruct (index n (keys (m_nps m))) as [j|] eqn:Hi; [|discriminate].
  apply bind_Ok in H as (x & Hb & H). apply bind_Ok in H as (nom & Hnom & H). destruct (np_nominal par) as [nom'|] eqn:En; [|discriminate]. injection Hnom as ->.
  apply bind_Ok in H as (up & Hu & H). apply bind_Ok in H as (dn & Hd & H). apply bind_Ok in H as (mu & Hm & H). injection H as <-. cbn [im_name im_best im_pos im_neg].
  split; [reflexivity|]. split; [exact Hb|]. exists par, nom. split; [reflexivity|]. split; [exact En|].
  destruct (varied_fit_spec _ _ _ _ _ _ _ _ _ _ _ _ _ U Hg Hi Hc Ha Hx Hu) as (m1 & I1 & d1 & s1 & f1 & q1 & A1 & A2 & A3 & A4 & A5 & A6).
  destruct (varied_fit_spec _ _ _ _ _ _ _ _ _ _ _ _ _ U Hg Hi Hc Ha Hx Hd) as (m2 & I2 & d2 & s2 & f2 & q2 & B1 & B2 & B3 & B4 & B5 & B6).
  split; [exists m1, I1, d1, s1, f1, q1, up, mu|exists m2, I2, d2, s2, f2, q2, dn, mu]; auto 10.
Qed.

(** * C114 *)
(** With a minimizer whose clone method accepts an argument: one entry for each of the parameters asked for, with the value of the parameter in the best fit, and the change of the POI in
    the fits where this parameter is kept at nominal + (value + 1) * variation and at nominal + (value - 1) * variation, these numbers being taken in units of the variation. *)
Theorem C114_impacts : forall E rmatch fit cl m I d poi pars l, usable_model E m I -> d_counts d <> [] -> length (d_aux d) = length (m_nps m) ->
  impacts E rmatch fit cl (m, I) d poi pars = Ok l ->
  exists p best, fit (m, I) d = Ok p /\ pars_clone p = Ok best /\ (forall n, In n (keys l) <-> In n (processed m pars)) /\
  forall n i, In (n, i) l -> im_name i = n /\ pars_get best n = Ok (im_best i) /\ exists par nom, dget n (m_nps m) = Some par /\ np_nominal par = Some nom /\
    shift_at E cl m I d best poi n (unscaled_value nom (np_variation par) (im_best i + 1)) (im_pos i) /\
    shift_at E cl m I d best poi n (unscaled_value nom (np_variation par) (im_best i - 1)) (im_neg i).
Proof.
  intros E rmatch fit cl m I d poi pars l U Hc Ha H. unfold impacts in H. apply bind_Ok in H as (p & Hp & H). apply bind_Ok in H as (best & Hb & H). apply bind_Ok in H as (li & Hl & H). injection H as <-. cbn [fst] in Hl.
  exists p, best. split; [exact Hp|]. split; [exact Hb|]. apply mapM_Forall2 in Hl. change (match pars with Some l => l | None => keys (m_nps m) end) with (processed m pars) in Hl.
  assert (G : forall i, In i li -> exists n, In n (processed m pars) /\ impact_of E rmatch cl m d best poi n = Ok i).
  { clear - Hl. induction Hl as [|a b la lb H1 H2 IH]; intros i Hi; [destruct Hi|]. destruct Hi as [<-|Hi]; [exists a; split; [now left|exact H1]|]. destruct (IH i Hi) as (n & A & B). exists n. split; [now right|exact B]. }
  assert (M : map im_name li = processed m pars).
  { clear - Hl U Hc Ha. induction Hl as [|a b la lb H1 H2 IH]; [reflexivity|]. cbn [map]. f_equal; [|exact IH]. exact (proj1 (impact_of_spec _ _ _ _ _ _ _ _ _ _ U Hc Ha H1)). }
  destruct (fold_entries (by_size li) []) as (A & B); [intros n i []|]. split.
  - intros n. rewrite B. cbn [keys map In]. rewrite <- M. split; [intros [X|[]]|intros X; left].
    + eapply Permutation_in; [apply Permutation_map, by_size_perm|exact X].
    + eapply Permutation_in; [apply Permutation_map, Permutation_sym, by_size_perm|exact X].
  - intros n i Hi. destruct (A n i Hi) as (En & [Hin|[]]). apply (Permutation_in _ (by_size_perm li)) in Hin. destruct (G i Hin) as (n' & _ & Hn'). pose proof (impact_of_spec _ _ _ _ _ _ _ _ _ _ U Hc Ha Hn') as S.
    assert (n' = n) by (rewrite <- En; symmetry; exact (proj1 S)). subst n'. exact S.
Qed.
Print Assumptions C114_impacts.

(** for a parameter of nominal value 0 and variation 1, these are the fits where the parameter is kept one standard unit above and below its best-fit value *)
Theorem C114_one_sigma : forall E rmatch fit cl m I d poi pars l n i par, usable_model E m I -> d_counts d <> [] -> length (d_aux d) = length (m_nps m) ->
  impacts E rmatch fit cl (m, I) d poi pars = Ok l -> In (n, i) l -> dget n (m_nps m) = Some par -> np_nominal par = Some 0 -> np_variation par = 1 ->
  exists p best, fit (m, I) d = Ok p /\ pars_clone p = Ok best /\ pars_get best n = Ok (im_best i) /\
    shift_at E cl m I d best poi n (im_best i + 1) (im_pos i) /\ shift_at E cl m I d best poi n (im_best i - 1) (im_neg i).
Proof.
  intros E rmatch fit cl m I d poi pars l n i par U Hc Ha H Hi Hp Hn Hv. destruct (C114_impacts _ _ _ _ _ _ _ _ _ _ U Hc Ha H) as (p & best & H1 & H2 & _ & H3). destruct (H3 n i Hi) as (_ & H4 & par' & nom & H5 & H6 & H7 & H8).
  assert (par' = par) by congruence. subst par'. assert (nom = 0) by congruence. subst nom. rewrite Hv in H7, H8. unfold unscaled_value in H7, H8. rewrite Rplus_0_l, Rmult_1_r in H7, H8. exists p, best. auto.
Qed.
Print Assumptions C114_one_sigma.

(** for all other parameters, at least one of the two values is not the one intended: one unit above and below the best-fit value *)
Theorem C114_units_refuted : forall E rmatch fit cl m I d poi pars l n i par nom, usable_model E m I -> d_counts d <> [] -> length (d_aux d) = length (m_nps m) ->
  impacts E rmatch fit cl (m, I) d poi pars = Ok l -> In (n, i) l -> dget n (m_nps m) = Some par -> np_nominal par = Some nom ->
  exists p best up dn, fit (m, I) d = Ok p /\ pars_clone p = Ok best /\ pars_get best n = Ok (im_best i) /\
    shift_at E cl m I d best poi n up (im_pos i) /\ shift_at E cl m I d best poi n dn (im_neg i) /\
    ((up = im_best i + 1 /\ dn = im_best i - 1) <-> (nom = 0 /\ np_variation par = 1)).
Proof.
  intros E rmatch fit cl m I d poi pars l n i par nom U Hc Ha H Hi Hp Hn. destruct (C114_impacts _ _ _ _ _ _ _ _ _ _ U Hc Ha H) as (p & best & H1 & H2 & _ & H3). destruct (H3 n i Hi) as (_ & H4 & par' & nom' & H5 & H6 & H7 & H8).
  assert (par' = par) by congruence. subst par'. assert (nom' = nom) by congruence. subst nom'.
  exists p, best, (unscaled_value nom (np_variation par) (im_best i + 1)), (unscaled_value nom (np_variation par) (im_best i - 1)). repeat (split; [assumption|]).
  unfold unscaled_value. split; [intros (A & B)|intros (-> & ->); split; ring]. assert (np_variation par = 1) by lra. rewrite H0 in A. split; [lra|exact H0].
Qed.
Print Assumptions C114_units_refuted.

(** the entries are in decreasing order of size, those of equal size in the order of the parameters *)
Theorem C114_order : forall E rmatch fit cl m I d poi pars l, usable_model E m I -> d_counts d <> [] -> length (d_aux d) = length (m_nps m) -> NoDup (processed m pars) ->
  impacts E rmatch fit cl (m, I) d poi pars = Ok l ->
  exists li, map im_name li = processed m pars /\ Permutation (values l) li /\ keys l = map im_name (values l) /\ StronglySorted larger_first (values l) /\
    forall x, filter (of_size x) (values l) = filter (of_size x) li.
Proof.
  intros E rmatch fit cl m I d poi pars l U Hc Ha HN H. unfold impacts in H. apply bind_Ok in H as (p & Hp & H). apply bind_Ok in H as (best & Hb & H). apply bind_Ok in H as (li & Hl & H). injection H as <-. cbn [fst] in Hl.
  apply mapM_Forall2 in Hl. change (match pars with Some l => l | None => keys (m_nps m) end) with (processed m pars) in Hl.
  assert (M : map im_name li = processed m pars).
  { clear - Hl U Hc Ha. induction Hl as [|a b la lb H1 H2 IH]; [reflexivity|]. cbn [map]. f_equal; [|exact IH]. exact (proj1 (impact_of_spec _ _ _ _ _ _ _ _ _ _ U Hc Ha H1)). }
  rewrite fold_distinct; [|cbn [keys map app]; eapply Permutation_NoDup; [apply Permutation_map, Permutation_sym, by_size_perm|rewrite M; exact HN]]. cbn [app].
  assert (V : values (map (fun i => (im_name i, i)) (by_size li)) = by_size li) by (unfold values; rewrite map_map; apply map_id). rewrite V.
  exists li. split; [exact M|]. split; [apply by_size_perm|]. split; [unfold keys; rewrite map_map; reflexivity|]. split; [apply by_size_sorted|]. intros x. apply by_size_stable.
Qed.
Print Assumptions C114_order.

(** the minimizers of the package: their clone method has no argument, and no impact can be computed *)
Theorem C114_package_minimizers_refuted : forall E rmatch fit mi d poi pars l, processed (fst mi) pars <> [] -> impacts E rmatch fit package_clone mi d poi pars <> Ok l.
Proof.
  intros E rmatch fit mi d poi pars l HP H. unfold impacts in H. apply bind_Ok in H as (p & Hp & H). apply bind_Ok in H as (best & Hb & H). apply bind_Ok in H as (li & Hl & H).
  change (match pars with Some l => l | None => keys (m_nps (fst mi)) end) with (processed (fst mi) pars) in Hl. destruct (processed (fst mi) pars) as [|n ns]; [congruence|]. cbn [mapM] in Hl. apply bind_Ok in Hl as (i & Hi & _).
  unfold impact_of in Hi. apply bind_Ok in Hi as (par & _ & Hi). apply bind_Ok in Hi as (nm & _ & Hi). apply bind_Ok in Hi as (aux & _ & Hi). apply bind_Ok in Hi as (x & _ & Hi). apply bind_Ok in Hi as (nom & _ & Hi). apply bind_Ok in Hi as (up & Hu & _).
  unfold varied_fit in Hu. apply bind_Ok in Hu as (mi' & _ & Hu). apply bind_Ok in Hu as (ref & _ & Hu). discriminate Hu.
Qed.
Print Assumptions C114_package_minimizers_refuted.

Lemma impacts_json_get n : forall l i, dget n l = Some i -> dget n (impacts_json l) = Some (impact_json i).
Proof.
  induction l as [|[k x] l IH]; intros i Hn; [discriminate|]. cbn [dget impacts_json map fst snd] in *. destruct (String.eqb n k); [injection Hn as <-; reflexivity|]. exact (IH i Hn).
Qed.

(** the file written by plot: an entry for each impact, in the same order, with its name, the two changes and the best-fit value *)
Theorem C114_plot_file : forall C w output l ops f, faithful C -> save_impacts C w output l = (ops, None) ->
  exists d, load_file C (run_ops ops f) (output ++ "_impacts.json") (Some "json") = Ok d /\ keys d = keys l /\ (forall q, q <> (output ++ "_impacts.json")%string -> run_ops ops f q = f q) /\
  forall n i, dget n l = Some i -> exists e, dget n d = Some (JObj e) /\ dget "name" e = Some (JStr (im_name i)) /\ dget "pos_impact" e = Some (JFlt (im_pos i)) /\ dget "neg_impact" e = Some (JFlt (im_neg i)) /\ dget "best_fit" e = Some (JFlt (im_best i)) /\ length e = 4%nat.
Proof.
  intros C w output l ops f HC H. unfold save_impacts in H. destruct (C89_saved_file_is_loaded _ _ _ _ _ _ f HC H) as (A & B). exists (impacts_json l). split; [exact A|]. split; [unfold keys, impacts_json; rewrite map_map; reflexivity|]. split; [exact B|].
  intros n i Hn. rewrite (impacts_json_get _ _ _ Hn). unfold impact_json. eexists. split; [reflexivity|]. repeat split.
Qed.
Print Assumptions C114_plot_file.

(** plot_impacts ends with an exception for every model that has a NP, before any file is written *)
Theorem C114_command_refuted : forall L E C w rmatch o f m I, model_create E C f (io_model o) = Ok (m, I) -> m_nps m <> [] -> exists e, impacts_run L E C w rmatch o f = ([], Some e).
Proof.
  intros L E C w rmatch o f m I Hm Hn. unfold impacts_run. rewrite Hm. cbn [bind]. destruct (data_create C f (m, I) (impact_source o)) as [d|e]; cbn [bind]; [|eauto].
  destruct (impacts E rmatch _ package_clone (m, I) (fst d) (io_poi o) None) as [l|e] eqn:El; [|eauto]. exfalso. revert El. apply C114_package_minimizers_refuted. cbn [processed fst]. destruct (m_nps m); [congruence|discriminate].
Qed.
Print Assumptions C114_command_refuted.

(** for a model without NPs, the file of the impacts is written, without entries; its name is the one given, without '.json' if it ends so, with '_impacts.json' appended *)
Theorem C114_command_no_nps : forall L E C w rmatch o f m I ops, faithful C -> model_create E C f (io_model o) = Ok (m, I) -> m_nps m = [] -> impacts_run L E C w rmatch o f = (ops, None) ->
  load_file C (run_ops ops f) (impact_file o) (Some "json") = Ok [] /\ forall q, q <> impact_file o -> run_ops ops f q = f q.
Proof.
  intros L E C w rmatch o f m I ops HC Hm Hn H. unfold impacts_run in H. rewrite Hm in H. cbn [bind] in H. destruct (data_create C f (m, I) (impact_source o)) as [d|e]; cbn [bind] in H; [|discriminate].
  destruct (impacts E rmatch _ package_clone (m, I) (fst d) (io_poi o) None) as [l|e] eqn:El; [|discriminate]. unfold impacts in El. cbn [fst] in El. rewrite Hn in El. apply bind_Ok in El as (p & _ & El). apply bind_Ok in El as (b & _ & El).
  cbn [keys map mapM bind by_size fold_left] in El. injection El as <-. cbn [impacts_json map] in H. unfold save_impacts in H. exact (C89_saved_file_is_loaded _ _ _ _ _ _ f HC H).
Qed.
Print Assumptions C114_command_no_nps.

Theorem C114_output_name : forall o stem, (io_out o = (stem ++ ".json")%string \/ (io_out o = stem /\ ~ exists s, stem = (s ++ ".json")%string)) -> impact_file o = (stem ++ "_impacts.json")%string.
Proof.
  intros o stem H. unfold impact_file. f_equal. unfold impact_prefix. 
  assert (Sub : forall a b, substring 0 (String.length a) (a ++ b)%string = a) by (induction a as [|c a IH]; intros b; cbn; [destruct b; reflexivity|now rewrite IH]).
  assert (Sub2 : forall a b, substring (String.length a) (String.length b) (a ++ b)%string = b).
  { induction a as [|c a IH]; intros b; cbn; [|apply IH]. rewrite <- (append_nil b) at 2. apply Sub. }
  assert (Len : forall a b, String.length (a ++ b)%string = (String.length a + String.length b)%nat) by (induction a as [|c a IH]; intros b; cbn; [reflexivity|now rewrite IH]).
  destruct H as [H|(H & Hn)]; rewrite H.
  - rewrite Len. change (String.length ".json") with 5%nat. rewrite Nat.add_sub. change 5%nat with (String.length ".json") at 1. rewrite Sub2. rewrite String.eqb_refl. apply Sub.
  - destruct (String.eqb_spec (substring (String.length stem - 5) 5 stem) ".json") as [X|]; [|reflexivity]. exfalso. apply Hn. exists (substring 0 (String.length stem - 5) stem).
    assert (Split : forall k s, (k <= String.length s)%nat -> (substring 0 k s ++ substring k (String.length s - k) s)%string = s).
    { induction k as [|k IH]; intros s Hk; [destruct s; cbn; [reflexivity|]|destruct s as [|c s]; [cbn in Hk; lia|]].
      - f_equal. pose proof (Sub s ""%string) as Z. rewrite append_nil in Z. exact Z.
      - cbn [substring String.length Nat.sub]. cbn [String.append]. f_equal. apply IH. cbn in Hk. lia. }
    assert (L5 : (5 <= String.length stem)%nat).
    { destruct (le_lt_dec 5 (String.length stem)) as [Y|Y]; [exact Y|]. exfalso. assert (Z : (String.length stem - 5 = 0)%nat) by lia. rewrite Z in X.
      assert (W : forall n s, (String.length (substring 0 n s) <= String.length s)%nat) by (induction n as [|n IHn]; intros [|c s]; cbn; try lia; specialize (IHn s); lia).
      pose proof (W 5%nat stem) as Q. rewrite X in Q. cbn in Q. lia. }
    rewrite <- (Split (String.length stem - 5)%nat stem) at 1 by lia. replace (String.length stem - (String.length stem - 5))%nat with 5%nat by lia. rewrite X. reflexivity.
Qed.
Print Assumptions C114_output_name.
Example C114_output_name_nonvacuous : map (fun s => impact_file (mkIO "m.json" None s "mu" 0)) ["a.json"; "a"; "json"; ".json"; "a.json.json"] =
  ["a_impacts.json"; "a_impacts.json"; "json_impacts.json"; "_impacts.json"; "a.json_impacts.json"].
Proof. reflexivity. Qed.
