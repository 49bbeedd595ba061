(** Lemmas on the model of the command-line programs: what is loaded from a file, pruned or merged can be saved. *)
From Verif Require Import Py PyFacts Base BaseFacts Expressions ExprProps Norms Sample SampleFacts Channels ChannelFacts Params Core CoreFacts CoreSpec ModelIO ModelIOFacts ModelIOProps
  ModelTools ModelToolsFacts NPPruneFacts SamplePruneProps UtilTools FileIO FileIOProps ToolsMoreProps MergeProps Commands.
Local Open Scope string_scope.
Local Open Scope list_scope.
Local Open Scope R_scope.

(** ** names in dictionaries *)
Lemma NoDup_keys_filter {V} (f : string * V -> bool) d : NoDup (keys d) -> NoDup (keys (filter f d)).
Proof.
  unfold keys. induction d as [|a d IH]; cbn; [auto|]. intros H. inversion H as [|? ? Hn Hd]; subst. destruct (f a); cbn; [|auto]. constructor; [|auto].
  intros Hin. apply Hn. apply in_map_iff in Hin as (b & Hb & Hin). apply filter_In in Hin as (Hin & _). rewrite <- Hb. now apply in_map.
Qed.

(** ** samples and channels that can be written and read back *)
Definition norm_ok (E : Env) (n : norm) : Prop := forall x, n = ExprNorm x -> e_float E x = None.
Definition sample_okE (E : Env) (k : string) (s : Sample) : Prop := s_name s = k /\ norm_ok E (s_norm s).
Definition chan_okE (E : Env) (k : string) (c : Channel) : Prop :=
  ch_name c = k /\ is_gaussian c = false /\ NoDup (keys (ch_samples c)) /\ forall k' s, In (k', s) (ch_samples c) -> sample_okE E k' s.
Definition chans_okE (E : Env) (chs : dict Channel) : Prop := NoDup (keys chs) /\ forall k c, In (k, c) chs -> chan_okE E k c.
(** the number of yields of each sample is the number of bins of its channel *)
Definition sized (chs : dict Channel) : Prop :=
  forall k c k' s y, In (k, c) chs -> In (k', s) (ch_samples c) -> s_yields s = Some y -> length y = nbins c.

Lemma sv_chs_iff E m : chans_okE E (m_channels m) -> sized (m_channels m) ->
  NoDup (keys (m_channels m)) /\ forall k c, In (k, c) (m_channels m) -> ch_name c = k /\ is_gaussian c = false /\
     NoDup (keys (ch_samples c)) /\ forall k' s, In (k', s) (ch_samples c) -> s_name s = k' /\ (forall n, s_norm s = ExprNorm n -> e_float E n = None) /\
       forall y, s_yields s = Some y -> length y = nbins c.
Proof.
  intros (N & H) F. split; [exact N|]. intros k c Hc. destruct (H k c Hc) as (A & B & C & D). split; [exact A|]. split; [exact B|]. split; [exact C|].
  intros k' s Hs. destruct (D k' s Hs) as (X & Y). split; [exact X|]. split; [exact Y|]. intros y Hy. exact (F k c k' s y Hc Hs Hy).
Qed.
Lemma savable_chans E m : savable E m -> chans_okE E (m_channels m) /\ sized (m_channels m).
Proof.
  intros S. destruct (sv_chs _ _ S) as (N & H). split; [split; [exact N|]|].
  - intros k c Hc. destruct (H k c Hc) as (A & B & C & D). split; [exact A|]. split; [exact B|]. split; [exact C|]. intros k' s Hs. destruct (D k' s Hs) as (X & Y & _). split; assumption.
  - intros k c k' s y Hc Hs Hy. destruct (H k c Hc) as (_ & _ & _ & D). exact (proj2 (proj2 (D k' s Hs)) y Hy).
Qed.

Lemma set_np_data_same fuel fmt nps rls rv v s s' : set_np_data fuel fmt nps rls rv v s = Ok s' ->
  s_name s' = s_name s /\ s_norm s' = s_norm s /\ (forall y, s_yields s = Some y -> s_yields s' = Some y).
Proof.
  unfold set_np_data. intros H. apply bind_Ok in H as (y & Hy & H). apply bind_Ok in H as (im & _ & H). inversion H; subst s'; clear H. cbn.
  split; [reflexivity|]. split; [reflexivity|]. intros y0 E0. rewrite E0 in Hy. now inversion Hy.
Qed.
Lemma update_channel_keys E pm rls rv c c' : update_channel E pm rls rv c = Ok c' ->
  ch_name c' = ch_name c /\ ch_kind c' = ch_kind c /\
  Forall2 (fun ks ks' => fst ks' = fst ks /\ s_name (snd ks') = s_name (snd ks) /\ s_norm (snd ks') = s_norm (snd ks) /\
                         (forall y, s_yields (snd ks) = Some y -> s_yields (snd ks') = Some y)) (ch_samples c) (ch_samples c').
Proof.
  unfold update_channel. intros H. apply bind_Ok in H as (sm & Hsm & H). inversion H; subst c'; clear H. cbn [ch_name ch_kind ch_samples].
  split; [reflexivity|]. split; [reflexivity|]. apply mapM_Forall2 in Hsm. eapply Forall2_impl_in; [|exact Hsm].
  intros a b _ Hx. apply bind_Ok in Hx as (s & Hs & Hx). inversion Hx; subst b; clear Hx. cbn [fst snd]. split; [reflexivity|]. exact (set_np_data_same _ _ _ _ _ _ _ _ Hs).
Qed.
Lemma finish_chans E m m' I : NoDup (keys (m_channels m)) -> finish E m = Ok (m', I) ->
  m' = with_channels m (m_channels m') /\
  Forall2 (fun kc kc' => fst kc' = fst kc /\ ch_name (snd kc') = ch_name (snd kc) /\ ch_kind (snd kc') = ch_kind (snd kc) /\
    Forall2 (fun ks ks' => fst ks' = fst ks /\ s_name (snd ks') = s_name (snd ks) /\ s_norm (snd ks') = s_norm (snd ks) /\
                         (forall y, s_yields (snd ks) = Some y -> s_yields (snd ks') = Some y)) (ch_samples (snd kc)) (ch_samples (snd kc')))
    (m_channels m) (m_channels m').
Proof.
  intros HN H. unfold finish in H. apply bind_Ok in H as (it & Hit & H). inversion H; subst m' it; clear H. split; [reflexivity|].
  cbn [with_channels m_channels]. pose proof (siv_built _ _ _ Hit) as Bt. destruct (bt_chs _ _ _ Bt) as (rv & _ & HF).
  rewrite (built_poisson_first _ _ _ HN Bt) in HF. eapply Forall2_impl_in; [|exact HF]. intros [k c] [k' c'] _ (E1 & E2). cbn [fst snd] in *.
  split; [exact E1|]. exact (update_channel_keys _ _ _ _ _ _ E2).
Qed.
Lemma finish_chans_ok E m m' I : chans_okE E (m_channels m) -> finish E m = Ok (m', I) -> chans_okE E (m_channels m').
Proof.
  intros (HN & HC) H. destruct (finish_chans _ _ _ _ HN H) as (_ & HF). split.
  - rewrite (Forall2_keys _ _ _ (fun a b (X : _ /\ _) => proj1 X) HF). exact HN.
  - intros k c' Hc'. destruct (Forall2_in_right _ _ _ _ HF Hc') as ([k0 c] & Hc & E1 & E2 & E3 & HFs). cbn [fst snd] in *. subst k0.
    destruct (HC k c Hc) as (A & B & C & D). split; [congruence|]. split; [rewrite <- B; unfold is_gaussian; now rewrite E3|].
    split; [rewrite (Forall2_keys _ _ _ (fun a b (X : _ /\ _) => proj1 X) HFs); exact C|].
    intros k' s' Hs'. destruct (Forall2_in_right _ _ _ _ HFs Hs') as ([k0 s] & Hs & F1 & F2 & F3 & _). cbn [fst snd] in *. subst k0.
    destruct (D k' s Hs) as (X & Y). split; [congruence|]. unfold norm_ok in *. intros x. rewrite F3. apply Y.
Qed.
(** the yields keep their sizes when every sample has its yields *)
Definition all_yields (chs : dict Channel) : Prop := forall k c k' s, In (k, c) chs -> In (k', s) (ch_samples c) -> s_yields s <> None.
Lemma finish_fits E m m' I : NoDup (keys (m_channels m)) -> finish E m = Ok (m', I) -> all_yields (m_channels m) -> sized (m_channels m) -> sized (m_channels m').
Proof.
  intros HN H HY HFt. destruct (finish_chans _ _ _ _ HN H) as (_ & HF). intros k c' k' s' y Hc' Hs' Hy.
  destruct (Forall2_in_right _ _ _ _ HF Hc') as ([k0 c] & Hc & E1 & E2 & E3 & HFs). cbn [fst snd] in *.
  destruct (Forall2_in_right _ _ _ _ HFs Hs') as ([k1 s] & Hs & F1 & F2 & F3 & F4). cbn [fst snd] in *.
  rewrite (nbins_kind _ _ E3). destruct (s_yields s) as [y0|] eqn:Ey; [|exfalso; exact (HY _ _ _ _ Hc Hs Ey)].
  pose proof (HFt _ _ _ _ _ Hc Hs Ey) as L. rewrite (F4 y0 eq_refl) in Hy. congruence.
Qed.
Lemma object_yields E m I : object E m I -> all_yields (m_channels m).
Proof. intros Ob k c k' s Hc Hs. exact (proj1 (proj2 (object_done E m I Ob k c k' s Hc Hs))). Qed.

(** ** loaded models *)
Lemma norm_instantiate_ok E d n : norm_instantiate (e_float E) d = Ok n -> norm_ok E n.
Proof.
  unfold norm_instantiate, norm_ok, load_field. intros H x ->. destruct (dget "norm" d) as [[]|]; cbn in H; try discriminate.
  all: try (destruct (e_float E s) eqn:Es; cbn in H; [destruct (String.eqb s ""); discriminate|inversion H; subst; exact Es]).
Qed.
Lemma sample_load_ok E d s : sample_load (e_float E) d = Ok s -> norm_ok E (s_norm s).
Proof.
  unfold sample_load. intros H. apply bind_Ok in H as (nm & _ & H). apply bind_Ok in H as (nr & Hn & H). apply bind_Ok in H as (nn & _ & H). apply bind_Ok in H as (y & _ & H).
  apply bind_Ok in H as (yy & _ & H). apply bind_Ok in H as (im & _ & H). apply bind_Ok in H as (imp & _ & H). inversion H; subst s; cbn. exact (norm_instantiate_ok _ _ _ Hn).
Qed.
Lemma dset_samples_ok E s acc : norm_ok E (s_norm s) -> (forall k x, In (k, x) acc -> sample_okE E k x) ->
  forall k x, In (k, x) (dset (s_name s) s acc) -> sample_okE E k x.
Proof.
  intros Hs Ha. induction acc as [|[k0 x0] acc IH]; cbn [dset]; intros k x Hin.
  - destruct Hin as [E0|[]]. inversion E0; subst. split; [reflexivity|exact Hs].
  - destruct (String.eqb_spec (s_name s) k0) as [Heq|Hne].
    + destruct Hin as [E0|Hin]; [inversion E0; subst; split; [|exact Hs]|apply Ha; now right]. congruence.
    + destruct Hin as [E0|Hin]; [apply Ha; now left|]. apply IH; [intros; apply Ha; now right|exact Hin].
Qed.
Lemma samples_load_ok E d sm : samples_load (e_float E) d = Ok sm -> NoDup (keys sm) /\ forall k s, In (k, s) sm -> sample_okE E k s.
Proof.
  unfold samples_load. intros H. apply bind_Ok in H as (sl & _ & H).
  assert (G : forall l acc r, foldM (fun acc v => match v with JObj d => let! s := sample_load (e_float E) d in Ok (dset (s_name s) s acc) | _ => Err TypeError end) l acc = Ok r ->
     NoDup (keys acc) -> (forall k s, In (k, s) acc -> sample_okE E k s) -> NoDup (keys r) /\ forall k s, In (k, s) r -> sample_okE E k s).
  { induction l as [|v l IH]; intros acc r Hr Hd Ha; cbn [foldM] in Hr; [inversion Hr; subst; auto|]. apply bind_Ok in Hr as (a1 & H1 & Hr).
    destruct v as [| | | | | |dd]; try discriminate. apply bind_Ok in H1 as (s & Hs & H1). inversion H1; subst a1; clear H1. apply (IH _ _ Hr).
    - now apply NoDup_keys_dset.
    - apply dset_samples_ok; [exact (sample_load_ok _ _ _ Hs)|exact Ha]. }
  apply (G sl [] sm H); [constructor|intros ? ? []].
Qed.
Lemma channel_load_samples E d c : channel_load (e_float E) (e_inv E) d = Ok c -> samples_load (e_float E) d = Ok (ch_samples c).
Proof.
  unfold channel_load. cbn zeta. intros H.
  assert (B : forall b, (let! name := bind (dgetE "name" d) jstr in let! sm := samples_load (e_float E) d in Ok (name, sm)) = Ok b -> samples_load (e_float E) d = Ok (snd b)).
  { intros b Hb. apply bind_Ok in Hb as (nm & _ & Hb). apply bind_Ok in Hb as (sm & Hsm & Hb). inversion Hb; subst b. exact Hsm. }
  destruct (dget "type" d) as [[]|]; try discriminate.
  - destruct (String.eqb s "bin"); [apply bind_Ok in H as (b & Hb & H); inversion H; subst c; exact (B b Hb)|].
    destruct (String.eqb s "binned_range"); [apply bind_Ok in H as (b & Hb & H); apply bind_Ok in H as (? & _ & H); apply bind_Ok in H as (? & _ & H); apply bind_Ok in H as (? & _ & H); apply bind_Ok in H as (? & _ & H); inversion H; subst c; exact (B b Hb)|].
    destruct (String.eqb s "multi_bin"); [apply bind_Ok in H as (b & Hb & H); apply bind_Ok in H as (? & _ & H); apply bind_Ok in H as (? & _ & H); inversion H; subst c; exact (B b Hb)|].
    destruct (String.eqb s "gaussian"); [apply bind_Ok in H as (b & Hb & H); apply bind_Ok in H as (? & _ & H); apply bind_Ok in H as (? & _ & H); apply bind_Ok in H as (? & _ & H); apply bind_Ok in H as (? & _ & H); inversion H; subst c; exact (B b Hb)|].
    discriminate.
  - apply bind_Ok in H as (b & Hb & H). inversion H; subst c. exact (B b Hb).
Qed.
Lemma expr_instantiate_not_formula d e : expr_instantiate d = Ok e -> forall n f, e <> EFormula n f.
Proof.
  unfold expr_instantiate. intros H n f ->.
  repeat first
  [ discriminate
  | match type of H with bind _ _ = Ok _ => apply bind_Ok in H as (? & _ & H) end
  | match type of H with (match ?x with _ => _ end) = Ok _ => destruct x end ].
Qed.

(** what markup can hold, of a model just loaded *)
Record writable_model (m : Model) : Prop := mkWM {
  wm_pois : forall k p, In (k, p) (m_pois m) -> poi_min p <> None /\ poi_max p <> None /\ poi_initial p <> None;
  wm_nps : forall k p, In (k, p) (m_nps m) -> np_aux_obs p <> None -> np_constraint p <> None;
  wm_chs : forall k c, In (k, c) (m_channels m) -> is_gaussian c = false;
  wm_fit : sized (m_channels m) }.

Lemma load_nps_aux : forall l st r, foldM (fun st v => load_np v st) l st = Ok r ->
  (forall k a, In (k, a) (snd st) -> aux_name a = Some k) -> forall k a, In (k, a) (snd r) -> aux_name a = Some k.
Proof.
  induction l as [|v l IH]; intros st r H Ha; cbn [foldM] in H; [inversion H; subst; exact Ha|]. apply bind_Ok in H as (a1 & H1 & H). apply (IH _ _ H).
  unfold load_np in H1. destruct v as [| | | | | |d]; try discriminate. apply bind_Ok in H1 as (x & _ & H1). apply bind_Ok in H1 as (n & _ & H1). destruct (dmem n (fst st)); [discriminate|].
  inversion H1; subst a1; clear H1. cbn [snd]. destruct (np_aux_obs x) as [o|]; [|exact Ha]. destruct (dmem o (snd st)) eqn:Ed; [exact Ha|].
  rewrite dset_app_new by (intros X; apply dmem_spec in X; congruence). intros k a Hin. apply in_app_or in Hin as [Hin|[E0|[]]]; [now apply Ha|]. inversion E0; reflexivity.
Qed.

Lemma loads_Forall_name {V} (load : dict jv -> res V) (nm : V -> option string) l r : Forall2 (loads load nm) l r -> forall k v, In (k, v) r -> nm v = Some k /\ exists d, load d = Ok v.
Proof. intros HF k v Hin. destruct (Forall2_in_right _ _ _ _ HF Hin) as (x & _ & d & _ & H1 & H2). cbn in *. eauto. Qed.

Lemma model_read_parts E m0 sd m : m_exprs m0 = [] -> model_read E m0 sd = Ok m ->
  (forall k a, In (k, a) (m_aux m) -> aux_name a = Some k) /\
  (NoDup (keys (m_exprs m)) /\ forall k e, In (k, e) (m_exprs m) -> expr_name e = k /\ forall n f, e <> EFormula n f) /\
  (NoDup (keys (m_nps m)) /\ forall k p, In (k, p) (m_nps m) -> np_name p = Some k).
Proof.
  intros Hex H. unfold model_read in H. apply bind_Ok in H as (mv & Hm & H). destruct mv as [| | | | | |md]; try discriminate.
  apply bind_Ok in H as (poil & _ & H). apply bind_Ok in H as (chl & _ & H). apply bind_Ok in H as (nm & _ & H). apply bind_Ok in H as (ds & _ & H).
  apply bind_Ok in H as (ps & _ & H). apply bind_Ok in H as (auxl & _ & H). apply bind_Ok in H as (aux & Ha & H). apply bind_Ok in H as (npl & _ & H). apply bind_Ok in H as (na & Hn & H).
  apply bind_Ok in H as (exl & _ & H). apply bind_Ok in H as (ex & He & H). apply bind_Ok in H as (chs & _ & H). inversion H; subst m; clear H. cbn [m_aux m_exprs m_nps].
  assert (Nm : forall (o : option string) n, name_of o = Ok n -> o = Some n) by (intros [x|] n Hx; now inversion Hx).
  destruct (load_named_declared _ _ aux_name (fun x n => Nm (aux_name x) n) _ _ _ Ha) as ((ax & -> & Fa) & _). cbn [app] in *.
  destruct (load_named_declared expr_instantiate (fun e => Ok (expr_name e)) (fun e => Some (expr_name e)) ltac:(intros x n [= <-]; reflexivity) _ _ _ He) as ((ae & -> & Fe) & Ne).
  rewrite Hex in *. specialize (Ne (NoDup_nil _)). cbn [app] in *.
  destruct (load_nps_all _ _ _ Hn) as ((an & En & Fn) & Nn & _). cbn [fst app] in *. specialize (Nn (NoDup_nil _)).
  split; [|split; split].
  - apply (load_nps_aux _ _ _ Hn). cbn [snd]. intros k a Hin. exact (proj1 (loads_Forall_name _ _ _ _ Fa k a Hin)).
  - exact Ne.
  - intros k e Hin. destruct (loads_Forall_name _ _ _ _ Fe k e Hin) as (E1 & d & Hd). split; [now inversion E1|exact (expr_instantiate_not_formula _ _ Hd)].
  - exact Nn.
  - intros k p Hin. rewrite En in Hin. exact (proj1 (loads_Forall_name _ _ _ _ Fn k p Hin)).
Qed.

Lemma loaded_savable E m0 sd m I : m_exprs m0 = [] -> model_load E m0 sd = Ok (m, I) -> writable_model m -> savable E m.
Proof.
  intros Hex H W. unfold model_load in H. apply bind_Ok in H as (mr & Hr & HF).
  destruct (C17_everything_declared_is_loaded E m0 sd mr Hr) as (md & pl & cl & _ & _ & _ & Fp & Np & Fc & Nc & _ & _ & Nn & _ & Ne & _ & Na & Aux); [rewrite Hex; constructor|].
  destruct (model_read_parts E m0 sd mr Hex Hr) as (Ax & (_ & Ex) & (_ & Nnm)).
  destruct (finish_chans E mr m I Nc HF) as (Em & _).
  assert (Ep : m_pois m = m_pois mr) by (rewrite Em; reflexivity). assert (En : m_nps m = m_nps mr) by (rewrite Em; reflexivity).
  assert (Ea : m_aux m = m_aux mr) by (rewrite Em; reflexivity). assert (Ee : m_exprs m = m_exprs mr) by (rewrite Em; reflexivity). 
  constructor.
  - rewrite Ep. split; [exact Np|]. intros k p Hin. split; [exact (proj1 (loads_Forall_name _ _ _ _ Fp k p Hin))|]. apply (wm_pois _ W k). now rewrite Ep.
  - rewrite En, Ea. split; [exact Nn|]. intros k p Hin. split; [exact (Nnm k p Hin)|]. split; [apply (wm_nps _ W k p); now rewrite En|intros a; exact (Aux k p a Hin)].
  - rewrite Ea. split; [exact Na|exact Ax].
  - rewrite Ee. split; [exact Ne|exact Ex].
  - apply sv_chs_iff; [|exact (wm_fit _ W)]. destruct (finish_chans E mr m I Nc HF) as (_ & HFc).
    assert (K : keys (m_channels m) = keys (m_channels mr)) by exact (Forall2_keys _ _ _ (fun a b (X : _ /\ _) => proj1 X) HFc).
    split; [rewrite K; exact Nc|]. intros k c' Hc'. destruct (Forall2_in_right _ _ _ _ HFc Hc') as ([k0 c] & Hc & E1 & E2 & E3 & HFs). cbn [fst snd] in *. subst k0.
    destruct (loads_Forall_name _ _ _ _ Fc k c Hc) as (X1 & d & Hd). inversion X1 as [X2]. split; [congruence|]. split; [exact (wm_chs _ W k c' Hc')|].
    destruct (samples_load_ok E d _ (channel_load_samples _ _ _ Hd)) as (Ns & Hs). split; [rewrite (Forall2_keys _ _ _ (fun a b (X : _ /\ _) => proj1 X) HFs); exact Ns|].
    intros k' s' Hs'. destruct (Forall2_in_right _ _ _ _ HFs Hs') as ([k0 s] & Hs0 & F1 & F2 & F3 & _). cbn [fst snd] in *. subst k0.
    destruct (Hs k' s Hs0) as (Y1 & Y2). split; [congruence|]. unfold norm_ok. rewrite F3. exact Y2.
Qed.

(** ** pruning of samples *)
Lemma prune_samples_savable E m I thr m' I' : object E m I -> savable E m -> prune_samples E (m, I) thr = Ok (m', I') -> object E m' I' /\ savable E m'.
Proof.
  intros Ob S H. destruct (savable_chans _ _ S) as ((HN & HC) & HFt). destruct (prune_result E m I thr m' I' Ob HN H) as (Em & Ob' & HF). split; [exact Ob'|].
  assert (Ep : m_pois m' = m_pois m) by (rewrite Em; reflexivity). assert (En : m_nps m' = m_nps m) by (rewrite Em; reflexivity).
  assert (Ea : m_aux m' = m_aux m) by (rewrite Em; reflexivity). assert (Ee : m_exprs m' = m_exprs m) by (rewrite Em; reflexivity).
  assert (G : chans_okE E (m_channels m') /\ sized (m_channels m')).
  { split; [split|].
    - rewrite (Forall2_keys _ _ _ (fun a b (X : _ /\ _) => proj1 X) HF). exact HN.
    - intros k c' Hc'. destruct (Forall2_in_right _ _ _ _ HF Hc') as ([k0 c] & Hc & E1 & E2 & E3 & keep & E4 & _). cbn [fst snd] in *. subst k0. destruct (HC k c Hc) as (A & B & C & D).
      split; [congruence|]. split; [rewrite <- B; unfold is_gaussian; now rewrite E3|]. rewrite E4. split; [now apply NoDup_keys_filter|]. intros k' s Hs. apply filter_In in Hs as (Hs & _). now apply D.
    - intros k c' k' s y Hc' Hs Hy. destruct (Forall2_in_right _ _ _ _ HF Hc') as ([k0 c] & Hc & E1 & E2 & E3 & keep & E4 & _). cbn [fst snd] in *. rewrite E4 in Hs. apply filter_In in Hs as (Hs & _).
      rewrite (nbins_kind _ _ E3). exact (HFt _ _ _ _ _ Hc Hs Hy). }
  constructor; rewrite ?Ep, ?En, ?Ea, ?Ee; try apply S. apply sv_chs_iff; apply G.
Qed.

(** ** removal of NPs *)
Definition keeps (E : Env) (s s' : Sample) : Prop := s_name s' = s_name s /\ (s_norm s' = s_norm s \/ exists v, s_norm s' = NumberNorm v).
Lemma keeps_refl E s : keeps E s s. Proof. split; auto. Qed.
Lemma keeps_trans E a b c : keeps E a b -> keeps E b c -> keeps E a c.
Proof. intros (A & B) (C & D). split; [congruence|]. destruct D as [D|D]; [|now right]. destruct B as [B|(v & B)]; [left; congruence|right; exists v; congruence]. Qed.
Lemma keeps_ok E k s s' : keeps E s s' -> sample_okE E k s -> sample_okE E k s'.
Proof. intros (A & B) (C & D). split; [congruence|]. intros x Hx. destruct B as [B|(v & B)]; [apply D; congruence|congruence]. Qed.
(** channels and samples of the same names, each sample kept up to a number as norm *)
Definition kept (E : Env) (l r : dict Channel) : Prop :=
  Forall2 (fun kc kc' => fst kc' = fst kc /\ ch_name (snd kc') = ch_name (snd kc) /\ ch_kind (snd kc') = ch_kind (snd kc) /\
    Forall2 (fun ks ks' => fst ks' = fst ks /\ keeps E (snd ks) (snd ks')) (ch_samples (snd kc)) (ch_samples (snd kc'))) l r.
Lemma Forall2_diag {A} (P : A -> A -> Prop) l : (forall a, In a l -> P a a) -> Forall2 P l l.
Proof. induction l as [|a l IH]; intros H; constructor; [apply H; now left|apply IH; intros b Hb; apply H; now right]. Qed.
Lemma Forall2_map_r {A B} (P : A -> B -> Prop) f l : (forall a, In a l -> P a (f a)) -> Forall2 P l (map f l).
Proof. induction l as [|a l IH]; intros H; constructor; [apply H; now left|apply IH; intros b Hb; apply H; now right]. Qed.
Lemma Forall2_comp {A B C} (P : A -> B -> Prop) (Q : B -> C -> Prop) (S : A -> C -> Prop) : (forall a b c, P a b -> Q b c -> S a c) -> forall l r t, Forall2 P l r -> Forall2 Q r t -> Forall2 S l t.
Proof. intros H l r t F. revert t. induction F as [|a b l r H1 F IH]; intros t G; inversion G; subst; constructor; eauto. Qed.
Lemma kept_refl E l : kept E l l.
Proof. apply Forall2_diag. intros kc _. repeat split. apply Forall2_diag. intros ks _. split; [reflexivity|apply keeps_refl]. Qed.
Lemma kept_trans E a b c : kept E a b -> kept E b c -> kept E a c.
Proof.
  apply Forall2_comp. intros x y z (A1 & A2 & A3 & A4) (B1 & B2 & B3 & B4). repeat split; try congruence. revert A4 B4. apply Forall2_comp.
  intros s t u (C1 & C2) (D1 & D2). split; [congruence|exact (keeps_trans _ _ _ _ C2 D2)].
Qed.
Lemma kept_ok E l r : kept E l r -> chans_okE E l -> chans_okE E r.
Proof.
  intros HF (HN & HC). split; [rewrite (Forall2_keys _ _ _ (fun a b (X : _ /\ _) => proj1 X) HF); exact HN|].
  intros k c' Hc'. destruct (Forall2_in_right _ _ _ _ HF Hc') as ([k0 c] & Hc & E1 & E2 & E3 & HFs). cbn [fst snd] in *. subst k0. destruct (HC k c Hc) as (A & B & C & D).
  split; [congruence|]. split; [rewrite <- B; unfold is_gaussian; now rewrite E3|]. split; [rewrite (Forall2_keys _ _ _ (fun a b (X : _ /\ _) => proj1 X) HFs); exact C|].
  intros k' s' Hs'. destruct (Forall2_in_right _ _ _ _ HFs Hs') as ([k0 s] & Hs & F1 & F2). cbn [fst snd] in *. subst k0. exact (keeps_ok _ _ _ _ F2 (D k' s Hs)).
Qed.
Lemma drop_np_keeps E n s : keeps E s (drop_np n s).
Proof. unfold drop_np, keeps. destruct (s_norm s) as [v|e] eqn:En; [cbn; rewrite En; auto|]. destruct (String.eqb e n); cbn; [eauto|rewrite En; auto]. Qed.
Lemma on_samples_kept E f l : (forall s, keeps E s (f s)) -> kept E l (on_samples f l).
Proof.
  intros Hf. unfold on_samples, kept. apply Forall2_map_r. intros kc _. cbn [fst snd with_samples ch_name ch_kind ch_samples]. repeat split.
  apply Forall2_map_r. intros ks _. cbn. auto.
Qed.
Lemma drop_all_kept E sel : forall l, kept E l (fold_left (fun chs n => on_samples (drop_np n) chs) sel l).
Proof.
  induction sel as [|n sel IH]; intros l; cbn [fold_left]; [apply kept_refl|]. eapply kept_trans; [|apply IH]. apply on_samples_kept. apply drop_np_keeps.
Qed.

Definition one_owner (m : Model) : Prop := NoDup (flat_map (fun p => match np_aux_obs p with Some a => [a] | None => [] end) (values (m_nps m))).
Lemma one_owner_unique (d : dict NP) n p n' p' a : NoDup (flat_map (fun p => match np_aux_obs p with Some a => [a] | None => [] end) (values d)) ->
  In (n, p) d -> In (n', p') d -> np_aux_obs p = Some a -> np_aux_obs p' = Some a -> (n, p) = (n', p').
Proof.
  assert (G : forall l (q : NP) (x : string), In q l -> np_aux_obs q = Some a -> In a (flat_map (fun p => match np_aux_obs p with Some a => [a] | None => [] end) l)).
  { intros l q _ Hq Ha. apply in_flat_map. exists q. split; [exact Hq|]. rewrite Ha. now left. }
  induction d as [|[k q] d IH]; intros HN Hp Hp' Ha Ha'; [destruct Hp|]. cbn [values map snd flat_map] in HN. fold (values d) in HN.
  assert (V : forall m r, In (m, r) d -> In r (values d)) by (intros m r Hr; unfold values; apply in_map_iff; exists (m, r); auto).
  destruct Hp as [E1|Hp], Hp' as [E2|Hp'].
  - congruence.
  - inversion E1; subst k q. rewrite Ha in HN. exfalso. cbn [app] in HN. inversion HN as [|? ? Hnot _]; subst. apply Hnot. exact (G _ p' "" (V _ _ Hp') Ha').
  - inversion E2; subst k q. rewrite Ha' in HN. exfalso. cbn [app] in HN. inversion HN as [|? ? Hnot _]; subst. apply Hnot. exact (G _ p "" (V _ _ Hp) Ha).
  - apply IH; auto. apply NoDup_app_r in HN. exact HN.
Qed.
Lemma flat_filter_NoDup {A B} (f : A -> list B) (keep : A -> bool) l : NoDup (flat_map f l) -> NoDup (flat_map f (filter keep l)).
Proof.
  induction l as [|a l IH]; cbn; [auto|]. intros H. destruct (keep a); cbn; [|apply IH; now apply NoDup_app_r in H].
  assert (I : incl (flat_map f (filter keep l)) (flat_map f l)).
  { intros x Hx. apply in_flat_map in Hx as (y & Hy & Hx). apply in_flat_map. exists y. split; [now apply filter_In in Hy|exact Hx]. }
  revert H. generalize (f a) as u. induction u as [|x u IHu]; cbn; intros H; [apply IH; exact H|]. inversion H; subst. constructor; [|now apply IHu].
  intros X. apply H2. apply in_app_iff in X as [X|X]; apply in_app_iff; [now left|right; now apply I].
Qed.

Lemma remove_nps_savable E rmatch m I0 pv m' I' : savable E m -> one_owner m -> (forall k p, In (k, p) (m_nps m) -> np_aux_obs p <> Some "") ->
  remove_nps E rmatch (m, I0) pv = Ok (m', I') ->
  object E m' I' /\ savable E m' /\ one_owner m' /\ (forall k p, In (k, p) (m_nps m') -> np_aux_obs p <> Some "") /\
  m' = mkModel (m_name m) (m_descr m) (m_pois m) (m_nps m') (m_aux m') (m_channels m') (m_exprs m) (m_asym m) (m_linear m) (m_simple_sym m) (m_lognormal m) (m_cutoff m) /\
  incl (m_nps m') (m_nps m).
Proof.
  intros S Ow Em0 H. destruct (savable_chans _ _ S) as ((HN & HC) & HFt).
  unfold remove_nps in H. apply bind_Ok in H as (sel & _ & H). apply bind_Ok in H as (p0 & _ & H). apply bind_Ok in H as (pars & _ & H).
  set (chs := fold_left (fun chs n => on_samples (drop_np n) chs) sel (m_channels m)) in *.
  apply bind_Ok in H as (n & _ & H). apply bind_Ok in H as (rv & _ & H). apply bind_Ok in H as (chs' & Hchs & H). apply bind_Ok in H as ([d' aux] & Hpop & H). cbn [fst snd] in H.
  pose proof (drop_all_kept E sel (m_channels m)) as K1. fold chs in K1. destruct (kept_ok _ _ _ K1 (conj HN HC)) as (HN1 & HC1).
  apply mapM_Forall2 in Hchs.
  assert (K2 : kept E chs chs').
  { unfold kept. eapply Forall2_impl_in; [|exact Hchs]. intros [k c] [k' c'] _ Hx. cbn [fst snd] in *. apply bind_Ok in Hx as (l & Hl & Hx). inversion Hx; subst k' c'; clear Hx.
    cbn [with_samples ch_name ch_kind ch_samples]. repeat split. apply mapM_Forall2 in Hl. eapply Forall2_impl_in; [|exact Hl]. intros [a s] [a' s'] _ Hy. cbn [fst snd] in *. apply bind_Ok in Hy as (s2 & Hs2 & Hy). inversion Hy; subst a' s2; clear Hy. split; [reflexivity|].
    unfold absorb in Hs2. apply bind_Ok in Hs2 as (y & _ & Hs2). apply bind_Ok in Hs2 as (v & _ & Hs2). inversion Hs2; subst s'. split; [reflexivity|now left]. }
  pose proof (kept_ok _ _ _ K2 (conj HN1 HC1)) as HO2.
  assert (Y2 : all_yields chs' /\ sized chs').
  { assert (G : forall k c' k' s', In (k, c') chs' -> In (k', s') (ch_samples c') -> exists y, s_yields s' = Some y /\ length y = nbins c').
    { intros k c' k' s' Hc' Hs'. destruct (Forall2_in_right _ _ _ _ Hchs Hc') as ([k0 c] & Hc & Hx). cbn [fst snd] in Hx. apply bind_Ok in Hx as (l & Hl & Hx). inversion Hx; subst k0 c'; clear Hx.
      cbn [with_samples ch_samples] in Hs'. apply mapM_Forall2 in Hl. destruct (Forall2_in_right _ _ _ _ Hl Hs') as ([a s] & _ & Hy). cbn [fst snd] in Hy. apply bind_Ok in Hy as (s2 & Hs2 & Hy). inversion Hy; subst a s2; clear Hy.
      unfold absorb in Hs2. apply bind_Ok in Hs2 as (y & Hsl & Hs2). apply bind_Ok in Hs2 as (v & _ & Hs2). inversion Hs2; subst s'; clear Hs2. cbn [s_yields]. exists y. split; [reflexivity|].
      unfold sample_slice in Hsl. apply bind_Ok in Hsl as (off & _ & Hsl). apply bind_Ok in Hsl as (c2 & Hc2 & Hsl). cbn [with_ichannels i_channels] in Hc2.
      rewrite (proj1 (HC1 k c Hc)) in Hc2. unfold dgetE in Hc2. rewrite (In_dget _ _ _ HN1 Hc) in Hc2. inversion Hc2; subst c2.
      destruct (index (s_name s) (keys (ch_samples c))); [|discriminate]. inversion Hsl; subst y. rewrite map_length, seq_length. reflexivity. }
    split; [intros k c k' s Hc Hs E0; destruct (G k c k' s Hc Hs) as (y & Hy & _); congruence|]. intros k c k' s y Hc Hs Hy. destruct (G k c k' s Hc Hs) as (y' & Hy' & L). congruence. }
  pose proof (finish_object _ _ _ _ H) as Ob. split; [exact Ob|].
  match type of H with finish E ?mm = _ =>
    pose proof (finish_chans_ok E mm m' I' HO2 H) as C3; pose proof (finish_fits E mm m' I' (proj1 HO2) H (proj1 Y2) (proj2 Y2)) as F3; destruct (finish_chans E mm m' I' (proj1 HO2) H) as (Em & _) end.
  cbn [with_channels m_name m_descr m_pois m_nps m_aux m_exprs m_asym m_linear m_simple_sym m_lognormal m_cutoff] in Em.
  destruct (sv_nps _ _ S) as (Nn & Hnp). destruct (sv_aux _ _ S) as (Na & Hax).
  destruct (pop_loop _ _ _ _ _ Hpop Nn) as (_ & Isel & Ed). destruct (pop_aux _ _ _ _ _ Hpop Nn Na) as (PA & (keep & Ek)).
  assert (Ep : m_pois m' = m_pois m) by (rewrite Em; reflexivity). assert (En : m_nps m' = d') by (rewrite Em; reflexivity).
  assert (Ea : m_aux m' = aux) by (rewrite Em; reflexivity). assert (Ee : m_exprs m' = m_exprs m) by (rewrite Em; reflexivity).
  assert (Inc : incl d' (m_nps m)) by (rewrite Ed; intros x Hx; now apply filter_In in Hx).
  split; [|split; [|split; [|split]]].
  - constructor; rewrite ?Ep, ?En, ?Ea, ?Ee.
    + apply S.
    + split; [rewrite Ed; now apply NoDup_keys_filter|]. intros k p Hin. destruct (Hnp k p (Inc _ Hin)) as (A & B & C). split; [exact A|]. split; [exact B|].
      intros a Ha. pose proof (C a Ha) as Hia. unfold keys in Hia. apply in_map_iff in Hia as ([a0 x] & E0 & Hia). cbn in E0; subst a0.
      unfold keys. apply in_map_iff. exists (a, x). split; [reflexivity|]. apply PA. split; [exact Hia|]. intros q pq Hq Hpq (Ho & _).
      assert (Hq2 : In (q, pq) (m_nps m)) by (apply dget_In; exact Hpq). pose proof (one_owner_unique _ _ _ _ _ a Ow (Inc _ Hin) Hq2 Ha Ho) as E1. inversion E1; subst q pq.
      rewrite Ed in Hin. apply filter_In in Hin as (_ & Hk). cbn [fst] in Hk. apply negb_true_iff, memb_false in Hk. contradiction.
    + split; [rewrite Ek; now apply NoDup_keys_filter|]. intros k a Hin. apply Hax. rewrite Ek in Hin. now apply filter_In in Hin.
    + apply S.
    + apply sv_chs_iff; assumption.
  - unfold one_owner in *. rewrite En, Ed. clear - Ow. unfold values in *.
    assert (G : forall l : dict NP, map snd (filter (fun kp => negb (memb sel (fst kp))) l) = map snd (filter (fun kp => negb (memb sel (fst kp))) l)) by reflexivity.
    rewrite flat_map_concat_map, map_map, <- flat_map_concat_map in *. now apply flat_filter_NoDup.
  - rewrite En. intros k p Hin. exact (Em0 k p (Inc _ Hin)).
  - rewrite En, Ea. exact Em.
  - rewrite En. exact Inc.
Qed.

Lemma prune_nps_savable E rmatch m I thr m' I' : savable E m -> one_owner m -> (forall k p, In (k, p) (m_nps m) -> np_aux_obs p <> Some "") ->
  prune_nps E rmatch (m, I) thr = Ok (m', I') ->
  object E m' I' /\ savable E m' /\ one_owner m' /\ (forall k p, In (k, p) (m_nps m') -> np_aux_obs p <> Some "") /\
  m' = mkModel (m_name m) (m_descr m) (m_pois m) (m_nps m') (m_aux m') (m_channels m') (m_exprs m) (m_asym m) (m_linear m) (m_simple_sym m) (m_lognormal m) (m_cutoff m) /\
  incl (m_nps m') (m_nps m).
Proof.
  intros S Ow Em0 H. unfold prune_nps in H. cbn [fst snd] in H. apply bind_Ok in H as (chs & Hchs & H). apply mapM_Forall2 in Hchs.
  destruct (savable_chans _ _ S) as ((HN & HC) & HFt).
  set (l := pruned_nps m I thr) in *.
  assert (K : Forall2 (fun kc kc' => fst kc' = fst kc /\ ch_name (snd kc') = ch_name (snd kc) /\ ch_kind (snd kc') = ch_kind (snd kc) /\
    Forall2 (fun ks ks' => fst ks' = fst ks /\ keeps E (snd ks) (snd ks') /\ s_yields (snd ks') = s_yields (snd ks)) (ch_samples (snd kc)) (ch_samples (snd kc'))) (m_channels m) chs).
  { eapply Forall2_impl_in; [|exact Hchs]. intros [k c] [k' c'] _ Hx. cbn [fst snd] in *. apply bind_Ok in Hx as (ss & Hss & Hx). inversion Hx; subst k' c'; clear Hx.
    cbn [with_samples ch_name ch_kind ch_samples]. repeat split. apply mapM_Forall2 in Hss. eapply Forall2_impl_in; [|exact Hss]. intros [a s] [a' s'] _ Hy. cbn [fst snd] in *. apply bind_Ok in Hy as (s2 & Hs2 & Hy). inversion Hy; subst a' s2; clear Hy.
    unfold pop_impacts in Hs2. apply bind_Ok in Hs2 as (im & _ & Hs2). inversion Hs2; subst s'. cbn. repeat split. now left. }
  assert (K1 : kept E (m_channels m) chs).
  { eapply Forall2_impl_in; [|exact K]. intros a b _ (A1 & A2 & A3 & A4). split; [exact A1|]. split; [exact A2|]. split; [exact A3|]. eapply Forall2_impl_in; [|exact A4]. cbn. tauto. }
  assert (S' : savable E (with_channels m chs)).
  { constructor; cbn [with_channels m_pois m_nps m_aux m_exprs]; try apply S. apply sv_chs_iff; cbn [with_channels m_channels]; [exact (kept_ok _ _ _ K1 (conj HN HC))|].
    intros k c' k' s' y Hc' Hs' Hy. destruct (Forall2_in_right _ _ _ _ K Hc') as ([k0 c] & Hc & E1 & E2 & E3 & HFs). cbn [fst snd] in *.
    destruct (Forall2_in_right _ _ _ _ HFs Hs') as ([k1 s] & Hs & F1 & F2 & F3). cbn [fst snd] in *. rewrite (nbins_kind _ _ E3). apply (HFt k0 c k1 s y Hc Hs). congruence. }
  exact (remove_nps_savable E rmatch (with_channels m chs) _ _ m' I' S' Ow Em0 H).
Qed.
