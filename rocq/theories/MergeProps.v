(** C60: merging models. *)
From Verif Require Import Py PyFacts Base Expressions Norms Sample SampleFacts Channels ChannelFacts Params ParamsFacts Core CoreFacts CoreSpec CoreCoefs CoreYields CoreExample ModelIO ModelIOFacts ModelTools ModelToolsFacts.
Local Open Scope string_scope.
Local Open Scope list_scope.
Local Open Scope R_scope.

(** * facts *)
Lemma merge_channel_fold off nb : forall l chs offs n r, foldM (merge_channel off nb) l (chs, offs, n) = Ok r ->
  fst (fst r) = fold_left (fun d kc => dset (fst kc) (snd kc) d) l chs /\ snd r = (n + length l * nb)%nat.
Proof.
  induction l as [|kc l IH]; intros chs offs n r H; cbn [foldM] in H.
  - inversion H; subst r. cbn. split; [reflexivity|lia].
  - apply bind_Ok in H as (st & Hs & H). unfold merge_channel in Hs. apply bind_Ok in Hs as (o & _ & Hs). inversion Hs; subst st; clear Hs.
    destruct (IH _ _ _ _ H) as (A & B). split; [exact A|]. rewrite B. cbn [length]. lia.
Qed.
Lemma merge_fold : forall models chs offs n r,
  foldM (fun st mi => foldM (merge_channel (i_offsets (snd mi)) (i_nbins (snd mi))) (m_channels (fst mi)) st) models (chs, offs, n) = Ok r ->
  fst (fst r) = fold_left (fun d kc => dset (fst kc) (snd kc) d) (concat (map (fun mi : Model * Internal => m_channels (fst mi)) models)) chs /\
  snd r = (n + list_sum (map (fun mi : Model * Internal => length (m_channels (fst mi)) * i_nbins (snd mi)) models))%nat.
Proof.
  induction models as [|mi l IH]; intros chs offs n r H; cbn [foldM] in H.
  - inversion H; subst r. cbn. split; [reflexivity|lia].
  - apply bind_Ok in H as ([[c1 o1] n1] & Hs & H). apply merge_channel_fold in Hs as (A & B). cbn [fst snd] in A, B. subst c1 n1.
    destruct (IH _ _ _ _ H) as (A & B). split; [rewrite A; cbn [map concat]; now rewrite fold_left_app|]. rewrite B. unfold list_sum. cbn [map fold_right]. lia.
Qed.
Lemma merge_result target models m' offs n : merge_models target models = Ok (m', offs, n) ->
  m' = with_channels (fst target) (fold_left (fun d kc => dset (fst kc) (snd kc) d) (concat (map (fun mi : Model * Internal => m_channels (fst mi)) models)) (m_channels (fst target))) /\
  n = (i_nbins (snd target) + list_sum (map (fun mi : Model * Internal => length (m_channels (fst mi)) * i_nbins (snd mi)) models))%nat.
Proof.
  unfold merge_models. intros H. apply bind_Ok in H as ([[chs o] n1] & Hs & H). apply merge_fold in Hs as (A & B). cbn [fst snd] in A, B. subst chs n1.
  repeat match type of H with (if ?b then _ else _) = _ => destruct b; [discriminate|] end. inversion H; subst. split; reflexivity.
Qed.

Lemma fold_dset_new {V} : forall (l d : dict V), NoDup (keys d ++ keys l) -> fold_left (fun d kc => dset (fst kc) (snd kc) d) l d = d ++ l.
Proof.
  induction l as [|[k v] l IH]; intros d H; cbn [fold_left]; [now rewrite app_nil_r|]. cbn [fst snd].
  change (keys ((k, v) :: l)) with (k :: keys l) in H.
  rewrite dset_app_new; [|intros Hin; apply NoDup_remove_2 in H; apply H; apply in_or_app; now left].
  rewrite IH; [now rewrite <- app_assoc|]. unfold keys in *. rewrite map_app. cbn [map fst]. rewrite <- app_assoc. exact H.
Qed.
Lemma fold_dset_keys {V} : forall (l d : dict V) k, In k (keys (fold_left (fun d kc => dset (fst kc) (snd kc) d) l d)) <-> In k (keys d) \/ In k (keys l).
Proof.
  induction l as [|[a v] l IH]; intros d k; cbn [fold_left]; [cbn; tauto|]. rewrite IH. cbn [fst snd]. change (keys ((a, v) :: l)) with (a :: keys l).
  destruct (in_dec string_dec a (keys d)) as [Hi|Hi].
  - rewrite keys_dset by exact Hi. cbn [In]. split; intros [H|H]; auto. destruct H as [->|H]; auto.
  - rewrite dset_app_new by exact Hi. unfold keys. rewrite map_app, in_app_iff. cbn [map fst In]. tauto.
Qed.

(** * C60 *)

(** Merging changes nothing in the first model but its channels (in particular the parameters are those of the first
    model), and the channel names are those of all the models. *)
Theorem C60_every_channel_present : forall target models m' offs n, merge_models target models = Ok (m', offs, n) ->
  m' = with_channels (fst target) (m_channels m') /\
  forall k, In k (keys (m_channels m')) <-> exists mi, In mi (target :: models) /\ In k (keys (m_channels (fst mi))).
Proof.
  intros target models m' offs n H. apply merge_result in H as (-> & _). split; [reflexivity|]. intros k. cbn [with_channels m_channels]. rewrite fold_dset_keys.
  split.
  - intros [H|H]; [exists target; split; [now left|exact H]|]. unfold keys in H. apply in_map_iff in H as ([k1 c] & <- & H). apply in_concat in H as (l & Hl & Hc).
    apply in_map_iff in Hl as (mi & <- & Hm). exists mi. split; [now right|]. change (fst (k1, c)) with k1. unfold keys. apply in_map_iff. exists (k1, c). auto.
  - intros (mi & [<-|Hm] & Hk); [now left|]. right. unfold keys in *. apply in_map_iff in Hk as (kc & <- & Hk). apply in_map. apply in_concat. exists (m_channels (fst mi)).
    split; [|exact Hk]. apply in_map_iff. eauto.
Qed.
Print Assumptions C60_every_channel_present.

(** When no channel name appears twice, the channels of the merged model are those of all the models, in order, with
    their contents. *)
Theorem C60_distinct_channels_kept : forall target models m' offs n, merge_models target models = Ok (m', offs, n) ->
  NoDup (concat (map (fun mi => keys (m_channels (fst mi))) (target :: models))) ->
  m_channels m' = concat (map (fun mi => m_channels (fst mi)) (target :: models)).
Proof.
  intros target models m' offs n H HN. apply merge_result in H as (-> & _). cbn [with_channels m_channels map concat] in *.
  rewrite fold_dset_new; [reflexivity|].
  replace (keys (concat (map (fun mi => m_channels (fst mi)) models))) with (concat (map (fun mi => keys (m_channels (fst mi))) models)); [exact HN|].
  clear. induction models as [|mi l IH]; [reflexivity|]. cbn [map concat]. rewrite IH. unfold keys. now rewrite map_app.
Qed.
Print Assumptions C60_distinct_channels_kept.

(** The predictions of the merged model, once saved and loaded (its internal variables are then computed again), are
    those of the model each channel comes from: models with the same parameters, expressions and options. *)
Theorem C60_predictions : forall E target models m' offs n m2 I2 m I k c off off2 b ps ns t t2,
  (forall mi, In mi (target :: models) -> exists m0, finish E m0 = Ok mi) ->
  NoDup (concat (map (fun mi => keys (m_channels (fst mi))) (target :: models))) ->
  merge_models target models = Ok (m', offs, n) ->
  (forall mi, In mi (target :: models) -> m_nps (fst mi) = m_nps (fst target)) ->
  finish E m' = Ok (m2, I2) -> In (m, I) (target :: models) ->
  m_pois m = m_pois (fst target) -> m_exprs m = m_exprs (fst target) ->
  m_asym m = m_asym (fst target) -> m_linear m = m_linear (fst target) -> m_cutoff m = m_cutoff (fst target) ->
  names_ok m -> tables_ok E m (m_channels m) -> tables_ok E m2 (m_channels m2) -> length ps = length (m_pois m) ->
  tot_bin_exp m I ps ns None = Ok t -> tot_bin_exp m2 I2 ps ns None = Ok t2 ->
  In (k, c) (m_channels m) -> dget k (i_offsets I) = Some off -> dget k (i_offsets I2) = Some off2 -> (b < nbins c)%nat ->
  t2 (off2 + b)%nat = t (off + b)%nat.
Proof.
  intros E target models m' offs n m2 I2 m I k c off off2 b ps ns t t2 Hob Hd H Hnp HF Hin Ep Ee Ea El Ec HN HT HT2 HL Ht Ht2 Hk Ho Ho2 Hb.
  pose proof (C60_distinct_channels_kept _ _ _ _ _ H Hd) as Hch. destruct (C60_every_channel_present _ _ _ _ _ H) as (Em' & _).
  destruct (Hob _ Hin) as (m0 & Hm0). pose proof (finish_object _ _ _ _ Hm0) as (HS & HC).
  pose proof (finish_object _ _ _ _ HF) as (HS2 & HC2).
  unfold finish in HF. apply bind_Ok in HF as (it & Hit & HF). inversion HF; subst m2 it; clear HF.
  assert (Hkk : keys (m_channels m') = concat (map (fun mi => keys (m_channels (fst mi))) (target :: models))).
  { rewrite Hch. clear. induction (target :: models) as [|mi l IH]; [reflexivity|]. cbn [map concat]. rewrite <- IH. unfold keys. now rewrite map_app. }
  assert (Hd' : NoDup (keys (m_channels m'))) by (rewrite Hkk; exact Hd).
  assert (Hfix : i_channels I2 = m_channels m').
  { apply (built_fixed E m' I2 (siv_built _ _ _ Hit) Hd'). intros k1 c1 n1 s1 H1 Hs1. rewrite Hch in H1. apply in_concat in H1 as (l & Hl & H1).
    apply in_map_iff in Hl as ([m1 I1] & <- & Hm1). destruct (Hob _ Hm1) as (m01 & Hm01). pose proof (object_done E m1 I1 (finish_object _ _ _ _ Hm01) k1 c1 n1 s1 H1 Hs1) as D.
    rewrite Em'. cbn [with_channels m_nps]. rewrite <- (Hnp _ Hm1). exact D. }
  assert (Hdm : NoDup (keys (m_channels m))).
  { clear - Hd Hin. induction (target :: models) as [|x l IH]; [destruct Hin|]. cbn [map concat] in Hd. destruct Hin as [->|Hin]; [exact (NoDup_app_l _ _ Hd)|]. apply IH; [exact (NoDup_app_r _ _ Hd)|exact Hin]. }
  assert (Hi : exists i, nth_error (m_channels m) i = Some (k, c)) by (apply In_nth_error; exact Hk). destruct Hi as (i & Hi).
  assert (Hk2 : In (k, c) (m_channels m')) by (rewrite Hch; apply in_concat; exists (m_channels m); split; [apply in_map_iff; exists (m, I); auto|exact Hk]).
  assert (Hi2 : exists i2, nth_error (m_channels m') i2 = Some (k, c)) by (apply In_nth_error; exact Hk2). destruct Hi2 as (i2 & Hi2).
  pose proof (siv_built _ _ _ HS) as Bt. pose proof (siv_built _ _ _ HS2) as Bt2.
  rewrite (bt_off _ _ _ Bt), <- HC, (off_at _ _ _ _ Hdm Hi) in Ho. inversion Ho; subst off; clear Ho.
  rewrite (bt_off _ _ _ Bt2), Hfix, (off_at _ _ _ _ Hd' Hi2) in Ho2. inversion Ho2; subst off2; clear Ho2.
  cbn [with_channels m_channels] in HT2. rewrite HC in *. rewrite <- Hfix in Hi2 |- *.
  assert (Enp : m_nps m = m_nps (fst target)) by (exact (Hnp _ Hin)).
  assert (HN2 : names_ok (with_channels m' (i_channels I2))) by (unfold names_ok in *; rewrite Em'; cbn [with_channels m_pois m_nps m_exprs]; rewrite <- Ep, <- Enp, <- Ee; exact HN).
  assert (HL2 : length ps = length (m_pois (with_channels m' (i_channels I2)))) by (rewrite Em'; cbn [with_channels m_pois]; rewrite <- Ep; exact HL).
  rewrite (tot_bin_at E m I ps ns t i k c b Bt HN HT HL Ht Hi Hb).
  rewrite (tot_bin_at E (with_channels m' (i_channels I2)) I2 ps ns t2 i2 k c b Bt2 HN2 HT2 HL2 Ht2 Hi2 Hb).
  f_equal. apply map_ext. intros sm. rewrite Em'. unfold spec_yield, np_factor, model_env, par_env. cbn [with_channels m_pois m_nps m_exprs m_cutoff m_linear m_asym].
  rewrite Ep, Enp, Ee, Ea, El, Ec. reflexivity.
Qed.
Print Assumptions C60_predictions.

(** example: the model of the channel CR, with two bins, and the one of a channel VR *)
Definition ex_vr : Model := with_channels ex_model [("VR", mkChannel "VR" KSingle [("Background", ex_bkg)])].
Definition ex_two : Model := with_channels ex_model [("CR", mkChannel "CR" (KMulti ["b1"; "b2"]) [("Control", ex_cr)])].
Lemma ex_vr_finish : exists I, finish ex_env ex_vr = Ok (ex_vr, I) /\ i_nbins I = 1%nat /\ i_nvar I = 1%nat /\ i_offsets I = [("VR", 0%nat)] /\ i_channels I = m_channels ex_vr.
Proof.
  assert (X : exists it, set_internal_vars ex_env ex_vr = Ok it /\ i_channels it = m_channels ex_vr /\ i_nbins it = 1%nat /\ i_nvar it = 1%nat /\ i_offsets it = [("VR", 0%nat)]).
  { eexists. split; [unfold ex_vr, ex_model; ev; reflexivity|]. repeat split; reflexivity. }
  destruct X as (it & X & Xc & Xb & Xv & Xo). exists it. split; [unfold finish; rewrite X; cbn [bind]; rewrite Xc; reflexivity|auto].
Qed.
Lemma ex_two_finish : exists I, finish ex_env ex_two = Ok (ex_two, I) /\ i_nbins I = 2%nat /\ i_nvar I = 1%nat /\ i_offsets I = [("CR", 0%nat)] /\ i_channels I = m_channels ex_two /\ i_nsamples I = 1%nat.
Proof.
  assert (X : exists it, set_internal_vars ex_env ex_two = Ok it /\ i_channels it = m_channels ex_two /\ i_nbins it = 2%nat /\ i_nvar it = 1%nat /\ i_offsets it = [("CR", 0%nat)] /\ i_nsamples it = 1%nat).
  { eexists. split; [unfold ex_two, ex_model; ev; reflexivity|]. repeat split; reflexivity. }
  destruct X as (it & X & Xc & Xb & Xv & Xo & Xs). exists it. split; [unfold finish; rewrite X; cbn [bind]; rewrite Xc; reflexivity|auto].
Qed.
Example C60_nonvacuous : exists I Iv m' offs n m2 I2,
  finish ex_env ex_two = Ok (ex_two, I) /\ finish ex_env ex_vr = Ok (ex_vr, Iv) /\
  merge_models (ex_two, I) [(ex_vr, Iv)] = Ok (m', offs, n) /\
  m_channels m' = [("CR", mkChannel "CR" (KMulti ["b1"; "b2"]) [("Control", ex_cr)]); ("VR", mkChannel "VR" KSingle [("Background", ex_bkg)])] /\
  NoDup (keys (m_channels m')) /\ finish ex_env m' = Ok (m2, I2) /\ n = 3%nat.
Proof.
  destruct ex_two_finish as (I & HI & Hb & Hv & Ho & Hc & Hs). destruct ex_vr_finish as (Iv & HIv & Hbv & Hvv & Hov & Hcv). exists I, Iv.
  unfold merge_models. cbn [foldM fst snd with_channels m_channels ex_vr ex_two]. unfold merge_channel. cbn [fst snd]. rewrite Hov. cbn [foldM]. unfold dgetE. cbn [dget String.eqb Ascii.eqb Bool.eqb bind].
  cbn [existsb forallb fst snd]. rewrite Hb, Hbv, Hc, Hcv, Hvv, Hv. cbn [existsb forallb length m_channels ex_vr ex_two with_channels fst snd Nat.eqb orb negb andb m_nps m_asym m_lognormal ex_model dset String.eqb Ascii.eqb Bool.eqb].
  match goal with |- context [Ok (?mm, _, _) = Ok _] => set (mg := mm) end.
  assert (X : exists it, set_internal_vars ex_env mg = Ok it) by (eexists; unfold mg; ev; reflexivity).
  destruct X as (it & X). exists mg. do 4 eexists. split; [exact HI|]. split; [exact HIv|]. split; [reflexivity|]. split; [reflexivity|].
  split; [repeat constructor; cbn; intuition congruence|]. split; [unfold finish; rewrite X; reflexivity|reflexivity].
Qed.

(** C60, checks: check() cannot be passed by a list of two models or more.  Different numbers of parameters are
    reported; models with the same numbers of POIs and NPs, including compatible ones, raise AttributeError. *)
Theorem C60_check_refuted : forall target m rest,
  merger_check target (m :: rest) <> Ok true /\
  (length (m_pois m) = length (m_pois target) -> length (m_nps m) = length (m_nps target) -> merger_check target (m :: rest) = Err AttributeError).
Proof.
  intros target m rest. unfold merger_check. split.
  - destruct (negb (length (m_pois m) =? length (m_pois target))%nat), (negb (length (m_nps m) =? length (m_nps target))%nat); discriminate.
  - intros -> ->. rewrite !Nat.eqb_refl. reflexivity.
Qed.
Print Assumptions C60_check_refuted.

(** The offsets of a model are known for all its channels. *)
Lemma merge_channel_total E m I : object E m I -> forall l st, (forall k c, In (k, c) l -> In k (keys (m_channels m))) ->
  exists r, foldM (merge_channel (i_offsets I) (i_nbins I)) l st = Ok r.
Proof.
  intros (HS & HC). pose proof (siv_built _ _ _ HS) as Bt. induction l as [|[k c] l IH]; intros [[chs offs] n] Hl; cbn [foldM]; [eauto|].
  unfold merge_channel at 1. cbn [fst snd]. unfold dgetE. rewrite (bt_off _ _ _ Bt). destruct (dget k (offsets_of (i_channels I) 0)) as [o|] eqn:E0.
  - cbn [bind]. rewrite <- (bt_off _ _ _ Bt). apply IH. intros k1 c1 H1. apply (Hl k1 c1). now right.
  - exfalso. apply dget_None in E0. apply E0. rewrite keys_offsets, <- HC. apply (Hl k c). now left.
Qed.

(** C60, overlaps: two models that define a channel of the same name are merged without an error, and the channel of
    the first model is lost. *)
Theorem C60_overlap_accepted_refuted : forall E m1 I1 m2 I2 k c1 c2,
  finish E m1 = Ok (m1, I1) -> finish E m2 = Ok (m2, I2) -> NoDup (keys (m_channels m2)) ->
  length (m_nps m2) = length (m_nps m1) -> m_asym m1 = true -> m_asym m2 = true -> m_lognormal m1 = false -> i_nvar I2 = i_nvar I1 ->
  In (k, c1) (m_channels m1) -> In (k, c2) (m_channels m2) ->
  exists m' offs n, merge_models (m1, I1) [(m2, I2)] = Ok (m', offs, n) /\ dget k (m_channels m') = Some c2.
Proof.
  intros E m1 I1 m2 I2 k c1 c2 HF1 HF2 Hd Hn Ha1 Ha2 Hln Hv Hk1 Hk2.
  pose proof (finish_object _ _ _ _ HF1) as (HS1 & HC1). pose proof (finish_object _ _ _ _ HF2) as Ob2.
  destruct (merge_channel_total E m2 I2 Ob2 (m_channels m2) (m_channels m1, i_offsets I1, i_nbins I1)) as ([[chs offs] n] & Hr).
  { intros k1 c Hc. unfold keys. apply in_map_iff. exists (k1, c). auto. }
  assert (Hmm : merge_models (m1, I1) [(m2, I2)] = Ok (with_channels m1 chs, offs, n)).
  { unfold merge_models. cbn [foldM fst snd]. rewrite Hr. cbn [bind existsb forallb fst snd]. rewrite Hn, Ha1, Ha2, Hln, Hv, !Nat.eqb_refl.
    assert (L1 : (length (i_channels I1) =? 0)%nat = false) by (rewrite <- HC1; destruct (m_channels m1); [destruct Hk1|reflexivity]).
    assert (L2 : (length (i_channels I2) =? 0)%nat = false) by (destruct Ob2 as (_ & <-); destruct (m_channels m2); [destruct Hk2|reflexivity]).
    rewrite L1, L2. reflexivity. }
  do 3 eexists. split; [exact Hmm|]. cbn [with_channels m_channels]. apply merge_channel_fold in Hr as (A & _). cbn [fst] in A. subst chs.
  clear - Hd Hk2. generalize (m_channels m1). induction (m_channels m2) as [|[k0 c0] l IH]; [destruct Hk2|]. intros d. cbn [fold_left fst snd].
  change (keys ((k0, c0) :: l)) with (k0 :: keys l) in Hd. inversion Hd; subst. destruct Hk2 as [E0|Hk2]; [|now apply IH].
  inversion E0; subst k0 c0. assert (G : forall l (d : dict Channel), ~ In k (keys l) -> dget k d = Some c2 -> dget k (fold_left (fun d kc => dset (fst kc) (snd kc) d) l d) = Some c2).
  { induction l0 as [|[a v] l0 IH0]; intros d0 Hni Hg; [exact Hg|]. cbn [fold_left fst snd]. apply IH0; [intros Hi; apply Hni; now right|].
    rewrite dget_dset_neq; [exact Hg|]. intros ->. apply Hni. now left. }
  apply G; [assumption|apply dget_dset_eq].
Qed.
Print Assumptions C60_overlap_accepted_refuted.
Definition ex_vr2 : Model := with_channels ex_model [("VR", mkChannel "VR" KSingle [("Background", ex_bkg); ("Other", ex_bkg)])].
Example C60_overlap_nonvacuous : exists m1 I1 m2 I2 c1 c2, finish ex_env m1 = Ok (m1, I1) /\ finish ex_env m2 = Ok (m2, I2) /\
  In ("VR", c1) (m_channels m1) /\ In ("VR", c2) (m_channels m2) /\ c1 <> c2 /\ i_nvar I2 = i_nvar I1.
Proof.
  destruct ex_vr_finish as (I & HI & _ & Hv & _).
  assert (X : exists it, set_internal_vars ex_env ex_vr2 = Ok it /\ i_channels it = m_channels ex_vr2 /\ i_nvar it = 1%nat).
  { eexists. split; [unfold ex_vr2, ex_model; ev; reflexivity|]. split; reflexivity. }
  destruct X as (I2 & X & Xc & Xv). exists ex_vr, I, ex_vr2, I2. do 2 eexists. split; [exact HI|]. split; [unfold finish; rewrite X; cbn [bind]; rewrite Xc; reflexivity|].
  split; [left; reflexivity|]. split; [left; reflexivity|]. split; [discriminate|congruence].
Qed.

(** C60, parameters: models with different parameters are merged without an error, and those of the other models are
    lost: here the expected yields of the merged model cannot be computed when it is loaded again, at the reference
    parameters (core.py:530) or at others, as a POI of its normalizations is not defined *)
Definition one_poi (poi chan : string) : Model :=
  mkModel "m" None [(poi, mkPOI (Some poi) None None (Some 1) None None)] [] []
    [(chan, mkChannel chan KSingle [("S", mkSample "S" (ExprNorm poi) (Some 1) (Some [3]) [])])] [] true false true false 0.
Theorem C60_parameters_dropped_refuted : exists m1 I1 m2 I2 m' offs n,
  finish ex_env m1 = Ok (m1, I1) /\ finish ex_env m2 = Ok (m2, I2) /\ keys (m_pois m2) = ["nu"] /\
  merge_models (m1, I1) [(m2, I2)] = Ok (m', offs, n) /\ keys (m_pois m') = ["mu"] /\
  exists m3 I3, finish ex_env m' = Ok (m3, I3) /\ ref_yields m3 I3 = Err KeyError /\ forall mu, n_exp m3 I3 [mu] [] = Err KeyError.
Proof.
  exists (one_poi "mu" "A"). eexists. exists (one_poi "nu" "B"). eexists.
  exists (mkModel "m" None (m_pois (one_poi "mu" "A")) [] [] (m_channels (one_poi "mu" "A") ++ m_channels (one_poi "nu" "B")) [] true false true false 0). do 2 eexists.
  split; [ev; reflexivity|]. split; [ev; reflexivity|]. split; [reflexivity|]. split; [ev; reflexivity|]. split; [reflexivity|].
  do 2 eexists. split; [unfold finish; ev; reflexivity|]. split; [ev; reflexivity|]. intros mu. ev. reflexivity.
Qed.
Print Assumptions C60_parameters_dropped_refuted.

(** C60, internal variables: the number of bins of the merged object counts the bins of each other model once per
    channel of that model. *)
Theorem C60_bin_count_refuted : forall target m I m' offs n, merge_models target [(m, I)] = Ok (m', offs, n) ->
  (2 <= length (m_channels m))%nat -> (0 < i_nbins I)%nat -> n <> (i_nbins (snd target) + i_nbins I)%nat.
Proof.
  intros target m I m' offs n H H1 H2. apply merge_result in H as (_ & ->). unfold list_sum. cbn [map fold_right fst snd]. nia.
Qed.
Print Assumptions C60_bin_count_refuted.

(** C60, internal variables: the merged object cannot compute its expected yields: the samples of the channels that
    were added are not known. *)
Theorem C60_merged_object_unusable_refuted : forall target models m' offs n rv k c,
  merge_models target models = Ok (m', offs, n) -> In (k, c) (m_channels m') -> ~ In k (keys (m_channels (fst target))) ->
  (0 < length (ch_samples c))%nat -> (0 < i_nsamples (snd target))%nat ->
  exists e, merged_rows target m' rv = Err e.
Proof.
  intros target models m' offs n rv k c _ Hin Hk Hs Hn. unfold merged_rows. destruct (i_nsamples (snd target)) as [|q]; [lia|]. cbn [seq mapM].
  assert (X : forall t, table_get k 0 (samples_table t) <> None -> In k (keys t)).
  { intros t H. assert (G : forall (l : list (string * nat * Sample)), table_get k 0 l <> None -> exists s sm, In (k, s, sm) l).
    { induction l as [|[[k1 s1] sm1] l IH]; cbn [table_get]; [congruence|]. destruct (String.eqb k k1 && (0 =? s1)%nat) eqn:E0.
      - apply andb_true_iff in E0 as [E0 _]. apply String.eqb_eq in E0. subst k1. exists s1, sm1. now left.
      - intros H1. destruct (IH H1) as (s & sm & Hx). exists s, sm. now right. }
    destruct (G _ H) as (s & sm & Hx). unfold samples_table in Hx. apply in_concat in Hx as (l & Hl & Hx). apply in_map_iff in Hl as (kc & <- & Hkc).
    apply in_map_iff in Hx as (ns & Ens & _). inversion Ens. unfold keys. now apply in_map. }
  assert (Y : exists e, mapM (fun kc => if (0 <? length (ch_samples (snd kc)))%nat then match table_get (fst kc) 0 (samples_table (m_channels (fst target))) with
      | Some sm => sample_yields sm rv | None => Err KeyError end else Ok (repeat 0 (nbins (snd kc)))) (m_channels m') = Err e).
  { clear - Hin Hk Hs X. induction (m_channels m') as [|[k1 c1] l IH]; [destruct Hin|]. cbn [mapM fst snd]. destruct Hin as [E0|Hin].
    - inversion E0; subst k1 c1. apply Nat.ltb_lt in Hs. rewrite Hs. destruct (table_get k 0 (samples_table (m_channels (fst target)))) eqn:Et.
      + exfalso. apply Hk, X. congruence.
      + cbn [bind]. eauto.
    - destruct (IH Hin) as (e & He). rewrite He. destruct (if (0 <? length (ch_samples c1))%nat then _ else _); cbn [bind]; eauto. }
  destruct Y as (e & Y). rewrite Y. cbn [bind]. eauto.
Qed.
Print Assumptions C60_merged_object_unusable_refuted.
