(** C58, C79, C80: when merging channels fails or changes the model. *)
From Coq Require Import Permutation.
From Verif Require Import CoreExample Py PyFacts Base Expressions ExprSpec ExprFacts Norms RSort Sample SampleFacts Channels ChannelFacts Params ParamsFacts Core CoreFacts CoreSpec CoreCoefs CoreYields ModelIO ModelIOFacts ModelIOProps ModelTools ModelToolsFacts ReparamFacts NPPruneFacts NPPruneProps ChannelMergeFacts ChannelMergeProps.
Local Open Scope string_scope.
Local Open Scope list_scope.
Local Open Scope R_scope.

(** * refutations *)
(** C58: when a channel of several bins has a single entry of impacts for all its bins, as the code gives to the samples of which the normalization is an expression, or no sample of the
    given name, the merge fails *)
Definition mr_A : Channel := mkChannel "A" KSingle [mg_S [10] (up_down (1/5) (-1/10))].
Definition mr_B : Channel := mkChannel "B" (KMulti ["b1"; "b2"]) [mg_S [3; 4] (up_down (1/10) (-1/10))].
Theorem C58_common_impact_refuted : let m := mg_model [("A", mr_A); ("B", mr_B)] in exists I, finish ex_env m = Ok (m, I) /\ merge_channels ex_env m ["A"; "B"] "M" None None (Some "") = Err ValueError.
Proof. intros m. unfold m. eexists. split; [unfold mg_model, finish; ev; reflexivity|]. unfold mg_model. ev. reflexivity. Qed.
Print Assumptions C58_common_impact_refuted.

(** C58: samples of the same name with different normalizations get the same one: here the background of B, which does not depend on mu, becomes proportional to mu *)
Definition mr_nS (n : norm) (y : R) : Channel -> Channel := fun c => mkChannel (ch_name c) KSingle [("S", mkSample "S" n (Some 1) (Some [y]) [("a", up_down (1/5) (-1/10))])].
Theorem C58_norms_refuted : let m := mg_model [("A", mr_nS (ExprNorm "mu") 10 mr_A); ("B", mr_nS (NumberNorm (Some 1)) 20 mr_B)] in
  exists I chs' m2 I2 t t2, finish ex_env m = Ok (m, I) /\ merge_channels ex_env m ["A"; "B"] "M" None None (Some "") = Ok (Some (chs', (m2, I2))) /\
  tot_bin_exp m I [3] [0] None = Ok t /\ tot_bin_exp m2 I2 [3] [0] None = Ok t2 /\ t 1%nat = 20 /\ t2 1%nat = 60.
Proof.
  intros m. unfold m. do 6 eexists. split; [unfold mg_model, finish; ev; reflexivity|]. split; [unfold mg_model; ev; reflexivity|].
  split; [unfold mg_model; ev; reflexivity|]. split; [ev; reflexivity|]. split; evs; rewrite ?(Rmax_left 0 0), ?(Rmin_left 0 0) by lra; rewrite !pow_1, !Rmult_0_r, !Rplus_0_r, exp_0; lra.
Qed.
Print Assumptions C58_norms_refuted.

(** C58: the cutoff of the model is not kept *)
Theorem C58_cutoff_refuted : forall E m tm name ob obn obu chs' m2 I2, merge_channels E m tm name ob obn obu = Ok (Some (chs', (m2, I2))) -> m_cutoff m2 = 0.
Proof.
  intros E m tm name ob obn obu chs' m2 I2 H. unfold merge_channels in H. apply bind_Ok in H as ([[chs ow]|] & _ & H); [|discriminate]. apply bind_Ok in H as (sm & _ & H).
  apply bind_Ok in H as ([kd|] & _ & H); [|discriminate]. apply bind_Ok in H as ([m3 I3] & H1 & H). inversion H; subst m3 I3. unfold model_init in H1.
  apply bind_Ok in H1 as (? & _ & H1). apply bind_Ok in H1 as (? & _ & H1). apply bind_Ok in H1 as (? & _ & H1). apply bind_Ok in H1 as (? & _ & H1). apply bind_Ok in H1 as (? & _ & H1).
  unfold finish in H1. apply bind_Ok in H1 as (it & _ & H1). inversion H1. reflexivity.
Qed.
Print Assumptions C58_cutoff_refuted.
Example C58_cutoff_nonvacuous : exists m I chs' m2 I2, m_cutoff m = 1/2 /\ finish ex_env m = Ok (m, I) /\ merge_channels ex_env m ["A"] "M" None None (Some "") = Ok (Some (chs', (m2, I2))).
Proof.
  exists (with_cutoff (mg_model [("A", mr_A)]) (1/2)). do 4 eexists. split; [reflexivity|]. split; [unfold mg_model, with_cutoff, finish; ev; reflexivity|]. unfold mg_model, with_cutoff; ev; reflexivity.
Qed.

(** C58: an unknown channel gives None, except when it is the first of the list *)
Theorem C58_unknown_channel : forall E m k l name ob obn obu,
  ((exists x, In x l /\ ~ In x (keys (m_channels m))) -> merge_channels E m (k :: l) name ob obn obu = Ok None) /\
  ((forall x, In x l -> In x (keys (m_channels m))) -> ~ In k (keys (m_channels m)) -> merge_channels E m (k :: l) name ob obn obu = Err KeyError).
Proof.
  intros E m k l name ob obn obu. unfold merge_channels, cmerger_check. split.
  - intros (x & Hx & Hn). assert (X : forallb (fun k => dmem k (m_channels m)) l = false).
    { apply not_true_is_false. intros X. rewrite forallb_forall in X. apply Hn, dmem_spec, X, Hx. }
    rewrite X. reflexivity.
  - intros Hl Hn. assert (X : forallb (fun k => dmem k (m_channels m)) l = true) by (apply forallb_forall; intros x Hx; apply dmem_spec, Hl, Hx). rewrite X. cbn [negb longest_channel].
    unfold dgetE. destruct (dget k (m_channels m)) eqn:Ek; [|reflexivity]. exfalso. apply Hn, dmem_spec. unfold dmem. now rewrite Ek.
Qed.
Print Assumptions C58_unknown_channel.
Example C58_unknown_nonvacuous : (exists x, In x ["A"; "X"] /\ ~ In x (keys (m_channels mg0))) /\ ~ In "Y" (keys (m_channels mg0)).
Proof. split; [exists "X"; split; [cbn; auto|]|]; cbn; intuition discriminate. Qed.

(** C79: the markup of a merged model cannot be read back: its description is a number *)
Theorem C79_merged_markup_refuted : forall E E' m v sdict d m0, merged_fill E m v sdict = Ok d -> model_load E' m0 d = Err TypeError.
Proof.
  intros E E' m v sdict d m0 H. unfold merged_fill in H. apply bind_Ok in H as (d0 & H0 & H). unfold model_fill in H0. apply bind_Ok in H0 as (chs & _ & H0).
  cbn [m_descr m_name app] in H0. inversion H0; subst d0; clear H0. rewrite dget_dset_eq in H. inversion H; subst d; clear H.
  unfold model_load, model_read, dgetE at 1. rewrite dget_dset_eq. cbn [bind]. unfold dgetE. cbn [dget String.eqb Ascii.eqb Bool.eqb bind jlist]. reflexivity.
Qed.
Print Assumptions C79_merged_markup_refuted.
Example C79_nonvacuous : exists chs' m2 I2 d, merge_channels ex_env (mg_model [("A", mr_A)]) ["A"] "M" None None (Some "") = Ok (Some (chs', (m2, I2))) /\ merged_fill ex_env m2 0 [] = Ok d.
Proof. do 4 eexists. split; [unfold mg_model; ev; reflexivity|]. ev. reflexivity. Qed.

(** C80: the merge changes the original model: its impacts become those of the merged channel, and its internal variables can no longer be computed *)
Theorem C80_merge_changes_original_refuted : let m := mg_model [("A", mr_A); ("B", mr_nS (ExprNorm "mu") 20 mr_B)] in
  exists I chs' m2 I2, finish ex_env m = Ok (m, I) /\ merge_channels ex_env m ["A"; "B"] "M" None None (Some "") = Ok (Some (chs', (m2, I2))) /\
  chs' <> m_channels m /\ finish ex_env (with_channels m chs') = Err ValueError.
Proof.
  intros m. unfold m. do 4 eexists. split; [unfold mg_model, finish; ev; reflexivity|]. split; [unfold mg_model; ev; reflexivity|]. split; [intros X; inversion X|]. unfold mg_model, finish. ev. reflexivity.
Qed.
Print Assumptions C80_merge_changes_original_refuted.

(** C80: apart from that, the original model is unchanged: the channels that were not merged, and the normalizations and yields of the samples of the others *)
Theorem C80_rest_unchanged : forall E m tm name ob obn obu chs' m2 I2, NoDup (keys (m_channels m)) -> merge_channels E m tm name ob obn obu = Ok (Some (chs', (m2, I2))) ->
  keys chs' = keys (m_channels m) /\ (forall k, ~ In k tm -> dget k chs' = dget k (m_channels m)) /\
  forall k n s, sample_of (m_channels m) k n = Some s -> exists s', sample_of chs' k n = Some s' /\
    s_name s' = s_name s /\ s_norm s' = s_norm s /\ s_nominal_norm s' = s_nominal_norm s /\ s_yields s' = s_yields s.
Proof.
  intros E m tm name ob obn obu chs' m2 I2 Hd H. unfold merge_channels in H. apply bind_Ok in H as (ck & Hck & H). destruct ck as [[chs owners]|]; [|discriminate].
  destruct (cmerger_spec _ _ _ _ Hck) as (_ & _ & past & Hco & _). pose proof (beside_collected _ _ _ _ Hd Hco) as HB. cbn [fst] in HB.
  pose proof (co_nodup _ _ _ _ Hco) as Hon. cbn [snd] in Hon. pose proof (co_grown _ _ _ _ Hco) as Hg. cbn [fst] in Hg.
  apply bind_Ok in H as (sm & Hsm & H). set (chs2 := fold_left _ owners chs) in H. apply bind_Ok in H as (kind & Hkind & H). destruct kind as [kd|]; [|discriminate].
  apply bind_Ok in H as ([m3 I3] & Hin & H). inversion H; subst chs' m3 I3; clear H.
  set (P := fun s s' => s_name s' = s_name s /\ s_norm s' = s_norm s /\ s_nominal_norm s' = s_nominal_norm s /\ s_yields s' = s_yields s).
  assert (Ho : forall n o, In (n, o) owners -> In o tm) by (intros n o X; apply (co_owner _ _ _ _ Hco n o); cbn [snd]; now apply In_dget).
  assert (Hg' : chans P (m_channels m) chs).
  { apply (chans_trans grown (fun a b => a = b) P _ chs _); [|exact Hg|now apply chans_refl']. intros a b c (A1 & A2 & A3 & A4 & _) <-. unfold P. auto. }
  assert (X : Forall2 (beside tm) (m_channels m) chs2 /\ chans P (m_channels m) chs2).
  { unfold chs2. clear -HB Ho Hg'. revert chs HB Hg'. induction owners as [|[n o] r IH]; intros chs HB Hg; [split; assumption|]. cbn [fold_left fst snd].
    assert (Ho' : forall n0 o0, In (n0, o0) r -> In o0 tm) by (intros n0 o0 Y; apply (Ho n0 o0); now right).
    destruct (sample_of chs o n) as [so|] eqn:Eso; [|now apply IH]. destruct (dget n sm) as [s1|]; [|now apply IH]. apply IH; [exact Ho'| |].
    - eapply beside_trans; [exact HB|]. apply beside_set. apply (Ho n o). now left.
    - eapply (chans_trans P P P); [|exact Hg|eapply chans_set_sample; [|exact Eso|]].
      + unfold P. intros a b c (A1 & A2 & A3 & A4) (B1 & B2 & B3 & B4). repeat split; congruence.
      + unfold P. auto.
      + unfold P. destruct so; cbn. auto. }
  destruct X as (X & Y). assert (Ek : keys chs2 = keys (m_channels m)) by (eapply Forall2_keys; [|exact X]; cbn; intros a b Z; apply Z). split; [exact Ek|]. split.
  - intros k Hk. destruct (dget k (m_channels m)) as [c|] eqn:Ec.
    + apply dget_In, In_nth_error in Ec as (i & Hi). destruct (Forall2_nth _ _ _ _ _ X Hi) as ([k' c'] & Hi' & B1 & _ & B3). cbn [fst snd] in *. subst k'. rewrite (B3 Hk) in Hi'. apply In_dget; [now rewrite Ek|eapply nth_error_In; eauto].
    + destruct (dget k chs2) as [c|] eqn:E2; [|reflexivity]. exfalso. assert (Z : In k (keys (m_channels m))) by (rewrite <- Ek; apply dmem_spec; unfold dmem; now rewrite E2). apply dmem_spec in Z. unfold dmem in Z. now rewrite Ec in Z.
  - intros k n s Hs. exact (chans_sample_of P _ _ _ _ _ Y Hs).
Qed.
Print Assumptions C80_rest_unchanged.
Example C80_nonvacuous : exists chs' m2 I2, NoDup (keys (m_channels (mg_model [("A", mr_A)]))) /\ merge_channels ex_env (mg_model [("A", mr_A)]) ["A"] "M" None None (Some "") = Ok (Some (chs', (m2, I2))).
Proof. do 3 eexists. split; [repeat constructor; cbn; tauto|]. unfold mg_model; ev; reflexivity. Qed.
