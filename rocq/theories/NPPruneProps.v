(** C56: removing nuisance parameters. *)
From Verif Require Import Py PyFacts Base Expressions ExprSpec ExprFacts ExprGrad ExprReplace Norms RSort Sample SampleFacts Channels ChannelFacts Params ParamsFacts Core CoreFacts CoreSpec CoreCoefs CoreYields CoreExample ModelIO ModelIOFacts ModelTools ModelToolsFacts ReparamFacts NPPruneFacts.
Local Open Scope string_scope.
Local Open Scope list_scope.
Local Open Scope R_scope.

(** * Specification *)
(** NP [n] is designated by a list of names and patterns; rmatch is re.match *)
Definition np_designated (rmatch : string -> string -> bool) (specs : list string) (nps : list string) (n : string) : Prop :=
  exists sp, In sp specs /\ (sp = n \/ (~ In sp nps /\ rmatch (sp ++ "$")%string n = true)).
(** the value at which NP [n] is removed: the one given under its name, otherwise its nominal value *)
Definition removed_at (pv : dict (option R)) (n : string) (p : NP) (v : R) : Prop :=
  match dget n pv with Some (Some x) => v = x | _ => np_nominal p = Some v end.
(** the samples normalized to a NP that is not kept have its nominal value as nominal normalization *)
Definition norms_at_nominal (m : Model) (kept : list string) : Prop :=
  forall k c n s x p, In (k, c) (m_channels m) -> In (n, s) (ch_samples c) -> s_norm s = ExprNorm x -> In (x, p) (m_nps m) -> ~ In x kept ->
    x <> "" /\ s_nominal_norm s = np_nominal p.

Lemma kept_keys sel (d : dict NP) n : In n (keys (filter (fun kp => negb (memb sel (fst kp))) d)) <-> In n (keys d) /\ ~ In n sel.
Proof.
  unfold keys. rewrite !in_map_iff. split.
  - intros (x & <- & Hx). apply filter_In in Hx as (Hx & Hm). apply negb_true_iff, memb_false in Hm. split; [exists x; auto|exact Hm].
  - intros ((x & <- & Hx) & Hm). exists x. split; [reflexivity|]. apply filter_In. split; [exact Hx|]. now apply negb_true_iff, memb_false.
Qed.
Lemma keys_filter sel (d : dict NP) : keys (filter (fun kp => negb (memb sel (fst kp))) d) = filter (fun n => negb (memb sel n)) (keys d).
Proof. unfold keys. induction d as [|x d IH]; cbn [filter map]; [reflexivity|]. destruct (negb (memb sel (fst x))); cbn [map]; now rewrite IH. Qed.

(** normalization and nominal yields of the samples are usable when the yields are computed *)
Lemma n_exp_samples m I ps ns n k c ks sm : i_nsamples I = max_samples (i_channels I) -> n_exp m I ps ns = Ok n -> In (k, c) (i_channels I) -> In (ks, sm) (ch_samples c) ->
  exists rv y nn, model_real_vals m (i_pm I) ps = Ok rv /\ norm_value (s_norm sm) rv = Ok y /\ s_nominal_norm sm = Some nn /\ nn <> 0.
Proof.
  intros Bt H Hk Hs. unfold n_exp in H. apply bind_Ok in H as (rv & Hrv & H). apply bind_Ok in H as (rows & Hrows & _).
  assert (X : exists s, nth_error (values (ch_samples c)) s = Some sm).
  { apply In_nth_error. unfold values. apply in_map_iff. exists (ks, sm). auto. }
  destruct X as (s & X). pose proof (sample_at_lt c s sm X) as Hlt. pose proof (max_samples_le _ _ _ Hk) as Hle. rewrite <- Bt in Hle.
  pose proof (mapM_nth _ _ _ s 0%nat ([] : list R) Hrows) as Hrow. rewrite seq_length in Hrow. specialize (Hrow ltac:(lia)). rewrite seq_nth in Hrow by lia. cbn [Nat.add] in Hrow.
  unfold nominal_row in Hrow. apply bind_Ok in Hrow as (bl & Hbl & _). apply mapM_Forall2 in Hbl. destruct (Forall2_in_l _ _ _ _ Hbl Hk) as (x & _ & Hx).
  cbn [snd] in Hx. unfold sample_at in Hx. rewrite X in Hx. unfold sample_yields, normalization in Hx. apply bind_Ok in Hx as (w & Hw & _). apply bind_Ok in Hw as (y & Hy & Hw).
  destruct (s_nominal_norm sm) as [nn|] eqn:En; [|discriminate]. destruct (Reqb nn 0) eqn:E0; [discriminate|]. apply Reqb_false in E0. exists rv, y, nn. auto.
Qed.

Lemma predictions_core E m I chsA rmatch pv m' I' sel ps ns ns' t t' b :
  object E m I -> NoDup (keys (m_channels m)) -> names_ok m -> stored (m_channels m) -> tables_ok E m (m_channels m) ->
  m_linear m = false -> m_cutoff m = 0 ->
  select_names rmatch "$" (keys (m_nps m)) (keys pv) = Ok sel -> chans (pre sel) (m_channels m) chsA ->
  remove_nps E rmatch (with_channels m chsA, with_ichannels I chsA) pv = Ok (m', I') -> tables_ok E m' (m_channels m') ->
  norms_at_nominal m (keys (m_nps m')) -> length ps = length (m_pois m) ->
  (forall n, In n (keys (m_nps m')) -> np_at (keys (m_nps m')) ns' n = np_at (keys (m_nps m)) ns n) ->
  (forall n p, In (n, p) (m_nps m) -> ~ In n (keys (m_nps m')) -> removed_at pv n p (np_at (keys (m_nps m)) ns n)) ->
  tot_bin_exp m I ps ns None = Ok t -> tot_bin_exp m' I' ps ns' None = Ok t' -> (b < i_nbins I)%nat -> t' b = t b.
Proof.
  intros Ob Hd HN HSt HT Hlin Hcut Hsel HA H HT' HNn HL Hkeep Hrem Ht Ht' Hb.
  destruct (remove_core E m I chsA rmatch pv m' I' sel Ob Hd HN HSt HT Hsel HA H) as (Ns & nv & aux & Val & Zero & Em & Ob' & HF).
  assert (Ob1 := Ob). destruct Ob1 as (HS & HC). assert (Ob1' := Ob'). destruct Ob1' as (HS' & HC').
  pose proof (siv_built _ _ _ HS) as Bt. pose proof (siv_built _ _ _ HS') as Bt'.
  assert (Enp : m_nps m' = filter (fun kp => negb (memb sel (fst kp))) (m_nps m)) by (rewrite Em; reflexivity).
  assert (Epo : m_pois m' = m_pois m) by (rewrite Em; reflexivity). assert (Eex : m_exprs m' = m_exprs m) by (rewrite Em; reflexivity).
  assert (Eas : m_asym m' = m_asym m) by (rewrite Em; reflexivity). assert (Eli : m_linear m' = m_linear m) by (rewrite Em; reflexivity).
  assert (Ecu : m_cutoff m' = 0) by (rewrite Em; exact Hcut).
  pose proof (names_ok_base _ HN) as HNb. assert (HNk : NoDup (keys (m_nps m))) by (apply (NoDup_app_r _ _ HNb)).
  assert (HNk' : NoDup (keys (m_nps m'))) by (rewrite Enp, keys_filter; now apply filter_NoDup).
  assert (Hin' : forall x, In x (keys (m_nps m')) <-> In x (keys (m_nps m)) /\ ~ In x sel) by (intros x; rewrite Enp; apply kept_keys).
  assert (HN' : names_ok m').
  { unfold names_ok in *. rewrite Epo, Eex.
    assert (HD : forall l1 l2 : list string, NoDup l1 -> NoDup l2 -> (forall x, In x l1 -> ~ In x l2) -> NoDup (l1 ++ l2)).
    { induction l1 as [|x l1 IH]; intros l2 Ha Hb' H3; [exact Hb'|]. inversion Ha; subst. cbn. constructor.
      - intros Hx. apply in_app_or in Hx as [Hx|Hx]; [contradiction|]. apply (H3 x); [now left|exact Hx].
      - apply IH; auto. intros y Hy. apply H3. now right. }
    apply HD; [apply (NoDup_app_l _ _ HN)| |].
    - apply HD; [exact HNk'|apply (NoDup_app_r _ _ (NoDup_app_r _ _ HN))|]. intros x Hx. apply (NoDup_app_disj _ _ x (NoDup_app_r _ _ HN)). now apply Hin'.
    - intros x Hx Hx'. apply (NoDup_app_disj _ _ x HN Hx). apply in_or_app. apply in_app_or in Hx' as [Hx'|Hx']; [left; now apply Hin'|now right]. }
  assert (HL' : length ps = length (m_pois m')) by (rewrite Epo; exact HL).
  (* expressions *)
  assert (Hn : exists n, n_exp m I ps ns = Ok n) by (unfold tot_bin_exp in Ht; apply bind_Ok in Ht as (n & Hn & _); eauto). destruct Hn as (n & Hn).
  assert (Hn2 : exists n2, n_exp m' I' ps ns' = Ok n2) by (unfold tot_bin_exp in Ht'; apply bind_Ok in Ht' as (n2 & Hn2 & _); eauto). destruct Hn2 as (n2 & Hn2).
  set (F := model_env m ps).
  destruct (base_dict m (i_pm I) ps (bt_pm _ _ _ Bt) HNb HL) as (d & Hdd & Hdk & Hde).
  assert (Hrv : exists rv, real_vals (values (m_exprs m)) d = Ok rv).
  { unfold n_exp in Hn. apply bind_Ok in Hn as (rv & Hrv & _). unfold model_real_vals in Hrv. rewrite Hdd in Hrv. cbn [bind] in Hrv. eauto. }
  destruct Hrv as (rv & Hrv).
  assert (Hord : ordered (keys d) (values (m_exprs m))) by (apply (real_vals_ok _ _ _ Hrv); rewrite Hdk, <- app_assoc; exact HN).
  assert (Fbase : forall x, In x (keys d) -> F x = par_env m ps x) by (intros x Hx; exact (env_den_avail _ _ _ _ Hord Hx)).
  assert (Ffix : forall e, In e (values (m_exprs m)) -> F (expr_name e) = expr_den e F) by (intros e He; apply (env_den_fix _ _ _ _ Hord), He).
  destruct (base_dict m' (i_pm I') ps (bt_pm _ _ _ Bt') (names_ok_base _ HN') HL') as (d2 & Hd2 & Hd2k & Hd2e).
  assert (Ag2 : agrees d2 F).
  { intros x v Hx. assert (Hxk : In x (keys d2)) by (apply dmem_spec; unfold dmem; now rewrite Hx).
    assert (Ev : v = par_env m' ps x) by (rewrite <- Hd2e; unfold env_of; now rewrite Hx). subst v. rewrite Hd2k, Epo in Hxk.
    assert (Hxd : In x (keys d)) by (rewrite Hdk; apply in_or_app; apply in_app_or in Hxk as [Hxk|Hxk]; [now left|right; now apply Hin']). rewrite (Fbase x Hxd).
    unfold par_env. rewrite Epo. destruct (index x (keys (m_pois m))) as [j|] eqn:Ej; [reflexivity|]. apply index_None in Ej. apply in_app_or in Hxk as [Hxk|Hxk]; [contradiction|].
    apply Hin' in Hxk as (Hx1 & Hx2). unfold keys in Hx1. apply in_map_iff in Hx1 as ([x1 p] & <- & Hx1). cbn [fst] in *.
    rewrite (In_dget x1 p (m_nps m) HNk Hx1). rewrite (In_dget x1 p (m_nps m')); [reflexivity|exact HNk'|]. rewrite Enp. apply filter_In. split; [exact Hx1|]. cbn. now apply negb_true_iff, memb_false. }
  assert (Norm' : forall k c ks sm, In (k, c) (m_channels m') -> In (ks, sm) (ch_samples c) -> norm_den (s_norm sm) (model_env m' ps) = norm_den (s_norm sm) F /\ exists nn, s_nominal_norm sm = Some nn /\ nn <> 0).
  { intros k c ks sm Hkc Hsm. rewrite HC' in Hkc. destruct (n_exp_samples m' I' ps ns' n2 k c ks sm (bt_ns _ _ _ Bt') Hn2 Hkc Hsm) as (rv2 & y & nn & Hrv2 & Hy & Hnn & Hnz).
    split; [|eauto]. rewrite <- (norm_value_den _ _ _ _ (real_vals_spec m' (i_pm I') ps rv2 HN' (bt_pm _ _ _ Bt') HL' Hrv2) Hy).
    apply (norm_value_den _ rv2); [|exact Hy]. unfold model_real_vals in Hrv2. rewrite Hd2 in Hrv2. cbn [bind] in Hrv2. rewrite Eex in Hrv2.
    intros x v Hx. symmetry. exact (real_vals_agree F _ _ _ Hrv2 Ag2 Ffix x v Hx). }
  (* bins *)
  rewrite (bt_nb _ _ _ Bt) in Hb. destruct (range_cover (i_channels I) 0 b) as (k & off & c & Ho & Hc & Hlt); [rewrite <- HC; exact Hd|lia|].
  assert (Hi : exists i, nth_error (i_channels I) i = Some (k, c)) by (apply In_nth_error; now apply dget_In). destruct Hi as (i & Hi).
  rewrite (off_at (i_channels I) i k c) in Ho; [|rewrite <- HC; exact Hd|exact Hi]. inversion Ho; subst off; clear Ho.
  replace b with (total_bins (firstn i (i_channels I)) + (b - total_bins (firstn i (i_channels I))))%nat by lia.
  set (b' := (b - total_bins (firstn i (i_channels I)))%nat) in *. assert (Hb' : (b' < nbins c)%nat) by lia. clearbody b'. clear Hlt Hb.
  assert (HTI := HT). rewrite HC in HTI. assert (HTI' := HT'). rewrite HC' in HTI'.
  assert (Hi0 : nth_error (m_channels m) i = Some (k, c)) by (rewrite HC; exact Hi).
  destruct (Forall2_nth _ _ _ _ _ HF Hi0) as ([k' c'] & Hi' & Ek & _ & Ekd & HFs). cbn [fst snd] in *. subst k'.
  assert (Htb : total_bins (firstn i (m_channels m')) = total_bins (firstn i (m_channels m))).
  { apply total_bins_kind. clear - HF. revert i. induction HF as [|x y l r (_ & _ & H2 & _) B IH]; intros [|i]; cbn; constructor; auto. }
  rewrite (tot_bin_at E m I ps ns t i k c b' Bt HN HTI HL Ht Hi Hb'). rewrite <- HC, <- Htb, HC'.
  rewrite (tot_bin_at E m' I' ps ns' t' i k c' b' Bt' HN' HTI' HL' Ht'); [|rewrite <- HC'; exact Hi'|rewrite (nbins_kind _ _ Ekd); exact Hb'].
  (* samples *)
  assert (HFs' : Forall2 (fun s s' => spec_yield m' ps s' b' * cut (m_cutoff m') (np_factor E m' s' b' ns') = spec_yield m ps s b' * cut (m_cutoff m) (np_factor E m s b' ns)) (values (ch_samples c)) (values (ch_samples c'))).
  2:{ clear - HFs'. induction HFs' as [|s s' l r H1 F IH]; cbn [map lsum]; [reflexivity|]. rewrite H1, IH. reflexivity. }
  assert (Gen : forall x y, In x (ch_samples c) -> In y (ch_samples c') -> fst y = fst x /\ absorbed E m (i_ref_pois I) nv sel (nbins c) (snd x) (snd y) ->
     spec_yield m' ps (snd y) b' * cut (m_cutoff m') (np_factor E m' (snd y) b' ns') = spec_yield m ps (snd x) b' * cut (m_cutoff m) (np_factor E m (snd x) b' ns)).
  2:{ unfold values. clear - HFs Gen. induction HFs as [|x y l r H1 F IH]; cbn [map]; constructor; [apply Gen; [now left|now left|exact H1]|]. apply IH. intros a a' Ha Ha'. apply Gen; now right. }
  intros [ks s0] [ks2 s2] Hs0 Hs2 (_ & s1 & (D1 & D2 & D3 & D4 & D5) & A1 & A2 & A3 & A4 & y & A5 & A6 & A7). cbn [fst snd] in *.
  destruct (Norm' k c' ks2 s2 (nth_error_In _ _ Hi') Hs2) as (Nd & nn2 & Hnn2 & Hnz). rewrite A4 in Hnn2. inversion Hnn2; subst nn2; clear Hnn2.
  destruct (proj1 HT k c ks s0 (nth_error_In _ _ Hi0) Hs0) as ((y0 & Hy0 & Ly0) & _).
  destruct (n_exp_samples m I ps ns n k c ks s0 (bt_ns _ _ _ Bt) Hn (nth_error_In _ _ Hi) Hs0) as (_ & _ & nn & _ & _ & Hnn & Hnnz).
  (* NP factors *)
  rewrite Ecu, Hcut. unfold cut. rewrite (proj2 (Reqb_true 0 0) eq_refl).
  rewrite (np_factor_by_name E m s0 b' ns HNk), (np_factor_by_name E m' s2 b' ns' HNk'). rewrite Eli, Hlin. unfold factor.
  assert (Eff : lsum (map (fun q => effect E m s0 b' q (np_at (keys (m_nps m)) ns q)) (keys (m_nps m))) =
     lsum (map (fun q => effect E m s0 b' q (np_at (keys (m_nps m)) nv q)) (keys (m_nps m))) + lsum (map (fun q => effect E m' s2 b' q (np_at (keys (m_nps m')) ns' q)) (keys (m_nps m')))).
  { rewrite (lsum_split (fun q => negb (memb sel q)) (fun q => effect E m s0 b' q (np_at (keys (m_nps m)) ns q))).
    rewrite (lsum_split (fun q => negb (memb sel q)) (fun q => effect E m s0 b' q (np_at (keys (m_nps m)) nv q))).
    rewrite (lsum_zero (fun q => effect E m s0 b' q (np_at (keys (m_nps m)) nv q)) (filter (fun q => negb (memb sel q)) (keys (m_nps m)))).
    2:{ intros q Hq. apply filter_In in Hq as (_ & Hq). apply negb_true_iff, memb_false in Hq. rewrite (Zero q Hq). apply effect_0. }
    rewrite Rplus_0_l, Rplus_comm. f_equal.
    - apply lsum_ext_in. intros q Hq. apply filter_In in Hq as (Hq1 & Hq). rewrite negb_involutive in Hq. apply memb_spec in Hq. f_equal.
      unfold keys in Hq1. apply in_map_iff in Hq1 as ([q1 p] & <- & Hq1). cbn [fst] in *.
      assert (Hnk : ~ In q1 (keys (m_nps m'))) by (rewrite Hin'; tauto). pose proof (Hrem q1 p Hq1 Hnk) as R. unfold removed_at in R. symmetry. apply (Val q1 p _ Hq Hq1).
      unfold removal_value. destruct (dget q1 pv) as [[v|]|]; [now rewrite R|now rewrite R|now rewrite R].
    - rewrite <- keys_filter, <- Enp. apply lsum_ext_in. intros q Hq. rewrite <- (Hkeep q Hq). symmetry. apply effect_ext; auto.
      + rewrite A3. apply D5. now apply Hin'.
      + unfold nyields. rewrite A5, Hy0. f_equal. lia. }
  rewrite Eff, exp_plus. unfold spec_yield. rewrite A4, A5, Nd, (A7 b' Hb'), Hnn, Hy0. rewrite Hcut. unfold cut. rewrite (proj2 (Reqb_true 0 0) eq_refl).
  rewrite (np_factor_by_name E m s0 b' nv HNk), Hlin. unfold factor. unfold spec_yield. rewrite D3, D4, Hnn, Hy0, A2.
  assert (Nn : norm_den (s_norm s1) F = norm_den (s_norm s0) F).
  { rewrite D2. unfold norm_without. destruct (s_norm s0) as [v|x] eqn:Es; [reflexivity|]. destruct (memb sel x) eqn:Em1; [|reflexivity]. apply memb_spec in Em1.
    destruct (proj1 (select_names_spec _ _ _ _ _ Hsel x) Em1) as (Hx & _).
    assert (Hx' := Hx). unfold keys in Hx. apply in_map_iff in Hx as ([x1 p] & <- & Hx). cbn [fst] in *.
    destruct (HNn k c ks s0 x1 p (nth_error_In _ _ Hi0) Hs0 Es Hx) as (Hne & Hnom); [rewrite Hin'; tauto|]. rewrite Hnn in *. cbn [norm_den].
    apply String.eqb_neq in Hne. rewrite Hne. rewrite Fbase by (rewrite Hdk; apply in_or_app; now right). unfold par_env.
    destruct (index x1 (keys (m_pois m))) as [j|] eqn:Ej.
    - exfalso. apply (NoDup_app_disj _ _ x1 HNb); [apply index_In; eauto|exact Hx'].
    - rewrite (In_dget x1 p (m_nps m) HNk Hx). rewrite <- Hnom. reflexivity. }
  rewrite Nn. fold F. field. split; assumption.
Qed.

Lemma chans_refl (P : Sample -> Sample -> Prop) l : (forall s, P s s) -> chans P l l.
Proof.
  intros H. unfold chans. induction l as [|[k c] l IH]; constructor; [|exact IH]. split; [reflexivity|]. split; [reflexivity|]. split; [reflexivity|].
  induction (ch_samples (snd (k, c))) as [|x r IHr]; constructor; auto.
Qed.
Lemma pre_refl sel s : pre sel s s. Proof. repeat split; auto. Qed.
Lemma with_ichannels_same I : with_ichannels I (i_channels I) = I. Proof. now destruct I. Qed.

(** * C56 *)

(** The NPs that are removed are exactly those that are designated; the others are kept, in the same order, and the
    POIs, the expressions and the options of the model do not change. *)
Theorem C56_removes_exactly_the_designated : forall E m0 m I rmatch pv m' I', finish E m0 = Ok (m, I) ->
  NoDup (keys (m_channels m)) -> names_ok m -> stored (m_channels m) -> tables_ok E m (m_channels m) ->
  remove_nps E rmatch (m, I) pv = Ok (m', I') ->
  (forall n p, In (n, p) (m_nps m') <-> In (n, p) (m_nps m) /\ ~ np_designated rmatch (keys pv) (keys (m_nps m)) n) /\
  (exists keep, m_nps m' = filter keep (m_nps m)) /\
  m' = mkModel (m_name m) (m_descr m) (m_pois m) (m_nps m') (m_aux m') (m_channels m') (m_exprs m) (m_asym m) (m_linear m) (m_simple_sym m) (m_lognormal m) (m_cutoff m).
Proof.
  intros E m0 m I rmatch pv m' I' HF Hd HN HSt HT H. pose proof (finish_object _ _ _ _ HF) as Ob. assert (Ob1 := Ob). destruct Ob1 as (HS & HC).
  assert (Hs : exists sel, select_names rmatch "$" (keys (m_nps m)) (keys pv) = Ok sel) by (unfold remove_nps in H; apply bind_Ok in H as (sel & Hsel & _); eauto). destruct Hs as (sel & Hsel).
  assert (H' : remove_nps E rmatch (with_channels m (m_channels m), with_ichannels I (m_channels m)) pv = Ok (m', I')) by (rewrite with_channels_same; rewrite HC, with_ichannels_same; exact H).
  destruct (remove_core E m I (m_channels m) rmatch pv m' I' sel Ob Hd HN HSt HT Hsel (chans_refl _ _ (pre_refl sel)) H') as (_ & ns & aux & _ & _ & Em & _).
  pose proof (select_names_spec _ _ _ _ _ Hsel) as Sp.
  split; [|split].
  - intros n p. assert (En : m_nps m' = filter (fun kp => negb (memb sel (fst kp))) (m_nps m)) by (rewrite Em; reflexivity). rewrite En, filter_In. cbn [fst].
    rewrite negb_true_iff, memb_false, Sp. unfold np_designated. split; intros (Hin & Hx); (split; [exact Hin|]).
    + intros D. apply Hx. split; [unfold keys; apply in_map_iff; exists (n, p); auto|exact D].
    + intros (_ & D). contradiction.
  - eexists. rewrite Em at 1. reflexivity.
  - rewrite Em at 1. f_equal; rewrite Em; reflexivity.
Qed.
Print Assumptions C56_removes_exactly_the_designated.

(** The expected yields of the reduced model at any values of the parameters are those of the original model at the
    same values, with the removed NPs at their removal values (in units of their variations), when the yields vary
    exponentially with the NPs and without cutoff, for tables of impacts that the code handles, and if the samples
    normalized to a removed NP are given at its nominal value.  Missing: the linear form and the cutoff (see
    C56_linear_refuted), and the cases in which the call or the evaluation of the new model fails. *)
Theorem C56_predictions : forall E m0 m I rmatch pv m' I' ps ns ns' t t' b, finish E m0 = Ok (m, I) ->
  NoDup (keys (m_channels m)) -> names_ok m -> stored (m_channels m) -> tables_ok E m (m_channels m) -> m_linear m = false -> m_cutoff m = 0 ->
  remove_nps E rmatch (m, I) pv = Ok (m', I') -> tables_ok E m' (m_channels m') -> norms_at_nominal m (keys (m_nps m')) ->
  length ps = length (m_pois m) ->
  (forall n, In n (keys (m_nps m')) -> np_at (keys (m_nps m')) ns' n = np_at (keys (m_nps m)) ns n) ->
  (forall n p, In (n, p) (m_nps m) -> ~ In n (keys (m_nps m')) -> removed_at pv n p (np_at (keys (m_nps m)) ns n)) ->
  tot_bin_exp m I ps ns None = Ok t -> tot_bin_exp m' I' ps ns' None = Ok t' -> (b < i_nbins I)%nat -> t' b = t b.
Proof.
  intros E m0 m I rmatch pv m' I' ps ns ns' t t' b HF Hd HN HSt HT Hl Hc H HT' Hnn HL Hk Hr Ht Ht' Hb.
  pose proof (finish_object _ _ _ _ HF) as Ob. assert (Ob1 := Ob). destruct Ob1 as (HS & HC).
  assert (Hs : exists sel, select_names rmatch "$" (keys (m_nps m)) (keys pv) = Ok sel) by (unfold remove_nps in H; apply bind_Ok in H as (sel & Hsel & _); eauto). destruct Hs as (sel & Hsel).
  assert (H' : remove_nps E rmatch (with_channels m (m_channels m), with_ichannels I (m_channels m)) pv = Ok (m', I')) by (rewrite with_channels_same; rewrite HC, with_ichannels_same; exact H).
  eapply (predictions_core E m I (m_channels m) rmatch pv m' I' sel ps ns ns' t t' b); eauto. apply chans_refl, pre_refl.
Qed.
Print Assumptions C56_predictions.

(** ** prune *)
Lemma pop_impacts_pre l s s' sel : pop_impacts l s = Ok s' -> incl l sel -> pre sel s s'.
Proof.
  unfold pop_impacts. intros H Hi. apply bind_Ok in H as (im & Him & H). inversion H; subst s'; clear H. unfold pre. cbn [with_impacts s_name s_norm s_nominal_norm s_yields s_impacts].
  repeat split. intros n Hn. revert im Him. generalize (s_impacts s) as d. induction l as [|a l IH]; intros d im Him; cbn [foldM] in Him; [congruence|].
  apply bind_Ok in Him as (d1 & H1 & Him). rewrite (IH ltac:(intros x Hx; apply Hi; now right) d1 im Him). unfold dpopE in H1. destruct (dmem a d); inversion H1; subst d1.
  apply dget_dremove_neq. intros ->. apply Hn, Hi. now left.
Qed.
Lemma keys_dset_in {V} k v (d : dict V) x : In x (keys (dset k v d)) <-> In x (keys d) \/ x = k.
Proof.
  induction d as [|[a w] d IH]; unfold keys in *; cbn [dset map fst]; [cbn; intuition congruence|]. destruct (String.eqb k a) eqn:E.
  - apply String.eqb_eq in E. subst. cbn [map fst In]. intuition congruence.
  - cbn [map fst In]. rewrite IH. tauto.
Qed.
Lemma fold_None_keys l : forall (d : dict (option R)) x, In x (keys (fold_left (fun d n => dset n None d) l d)) <-> In x (keys d) \/ In x l.
Proof. induction l as [|a l IH]; intros d x; cbn [fold_left]; [cbn; tauto|]. rewrite IH, keys_dset_in. cbn [In]. intuition congruence. Qed.
Lemma fold_None_get l n : forall (d : dict (option R)), (dget n d = None \/ dget n d = Some None) -> dget n (fold_left (fun d n => dset n None d) l d) = None \/ dget n (fold_left (fun d n => dset n None d) l d) = Some None.
Proof.
  induction l as [|a l IH]; intros d H; cbn [fold_left]; [exact H|]. apply IH. destruct (string_dec n a) as [->|Hne]; [right; apply dget_dset_eq|]. rewrite dget_dset_neq by exact Hne. exact H.
Qed.

(** Pruning removes only NPs whose impact (half the difference of the impacts at +1 and -1) is below the threshold in
    every bin of every sample; the new model predicts the yields of the original one with the pruned NPs at 0, when
    this is their nominal value. *)
Theorem C56_prune : forall E m0 m I rmatch thr m' I' ps ns ns' t t' b, finish E m0 = Ok (m, I) ->
  NoDup (keys (m_channels m)) -> names_ok m -> stored (m_channels m) -> tables_ok E m (m_channels m) -> m_linear m = false -> m_cutoff m = 0 ->
  prune_nps E rmatch (m, I) thr = Ok (m', I') -> tables_ok E m' (m_channels m') -> norms_at_nominal m (keys (m_nps m')) ->
  length ps = length (m_pois m) ->
  (forall n, In n (keys (m_nps m')) -> np_at (keys (m_nps m')) ns' n = np_at (keys (m_nps m)) ns n) ->
  (forall n p, In (n, p) (m_nps m) -> ~ In n (keys (m_nps m')) -> np_nominal p = Some 0 /\ np_at (keys (m_nps m)) ns n = 0) ->
  tot_bin_exp m I ps ns None = Ok t -> tot_bin_exp m' I' ps ns' None = Ok t' -> (b < i_nbins I)%nat -> t' b = t b.
Proof.
  intros E m0 m I rmatch thr m' I' ps ns ns' t t' b HF Hd HN HSt HT Hl Hc H HT' Hnn HL Hk Hr Ht Ht' Hb.
  pose proof (finish_object _ _ _ _ HF) as Ob. unfold prune_nps in H. cbn [fst snd] in H. apply bind_Ok in H as (chs & Hchs & H).
  set (l := pruned_nps m I thr) in *. set (pv := fold_left (fun d n => dset n None d) l ([] : dict (option R))) in *.
  assert (Hs : exists sel, select_names rmatch "$" (keys (m_nps m)) (keys pv) = Ok sel) by (unfold remove_nps in H; apply bind_Ok in H as (sel & Hsel & _); eauto). destruct Hs as (sel & Hsel).
  assert (Hin : forall n, In n l -> In n (keys (m_nps m))).
  { intros n Hn. unfold l, pruned_nps in Hn. apply in_map_iff in Hn as ([i x] & <- & Hn). apply filter_In in Hn as (Hn & _). unfold enumerate in Hn. apply in_combine_r in Hn. exact Hn. }
  assert (Il : incl l sel).
  { intros n Hn. apply (select_names_spec _ _ _ _ _ Hsel). split; [now apply Hin|]. exists n. split; [|now left]. unfold pv. apply fold_None_keys. now right. }
  eapply (predictions_core E m I chs rmatch pv m' I' sel ps ns ns' t t' b); eauto.
  - apply mapM_Forall2 in Hchs. unfold chans. eapply Forall2_impl_in; [|exact Hchs]. intros [k c] [k' c'] _ Hx. cbn [fst snd] in Hx |- *. apply bind_Ok in Hx as (ss & Hss & Hx). inversion Hx; subst k' c'; clear Hx.
    cbn [with_samples ch_name ch_kind ch_samples]. split; [reflexivity|]. split; [reflexivity|]. split; [reflexivity|]. apply mapM_Forall2 in Hss. eapply Forall2_impl_in; [|exact Hss].
    intros [n s] [n' s'] _ Hx. cbn [fst snd] in Hx |- *. apply bind_Ok in Hx as (s2 & Hs2 & Hx). inversion Hx; subst n' s2; clear Hx. split; [reflexivity|]. eapply pop_impacts_pre; eauto.
  - intros n p Hp Hnk. destruct (Hr n p Hp Hnk) as (R1 & R2). unfold removed_at. rewrite R2. destruct (fold_None_get l n [] (or_introl eq_refl)) as [X|X]; fold pv in X; rewrite X; exact R1.
Qed.
Print Assumptions C56_prune.
Theorem C56_pruned_are_small : forall E m0 m I rmatch thr m' I' n k c ks s im b, finish E m0 = Ok (m, I) ->
  NoDup (keys (m_channels m)) -> names_ok m -> stored (m_channels m) -> tables_ok E m (m_channels m) ->
  prune_nps E rmatch (m, I) thr = Ok (m', I') -> In n (keys (m_nps m)) -> ~ In n (keys (m_nps m')) ->
  In (k, c) (m_channels m) -> In (ks, s) (ch_samples c) -> sym_impact (e_fmt E) s n = Ok (Some im) -> (b < nbins c)%nat -> Rabs (nth b im 0) < thr.
Proof.
  intros E m0 m I rmatch thr m' I' n k c ks s im b HF Hd HN HSt HT H Hn Hn' Hk Hs Him Hb.
  pose proof (finish_object _ _ _ _ HF) as Ob. assert (Ob1 := Ob). destruct Ob1 as (HS & HC). pose proof (siv_built _ _ _ HS) as Bt.
  unfold prune_nps in H. cbn [fst snd] in H. apply bind_Ok in H as (chs & Hchs & H).
  set (l := pruned_nps m I thr) in *. set (pv := fold_left (fun d n => dset n None d) l ([] : dict (option R))) in *.
  assert (Hsl : exists sel, select_names rmatch "$" (keys (m_nps m)) (keys pv) = Ok sel) by (unfold remove_nps in H; apply bind_Ok in H as (sel & Hsel & _); eauto). destruct Hsl as (sel & Hsel).
  assert (Hin : forall n, In n l -> In n (keys (m_nps m))).
  { intros x Hx. unfold l, pruned_nps in Hx. apply in_map_iff in Hx as ([i y] & <- & Hx). apply filter_In in Hx as (Hx & _). unfold enumerate in Hx. apply in_combine_r in Hx. exact Hx. }
  pose proof (select_names_spec _ _ _ _ _ Hsel) as Sp.
  assert (Il : incl l sel).
  { intros x Hx. apply Sp. split; [now apply Hin|]. exists x. split; [|now left]. unfold pv. apply fold_None_keys. now right. }
  assert (HA : chans (pre sel) (m_channels m) chs).
  { apply mapM_Forall2 in Hchs. unfold chans. eapply Forall2_impl_in; [|exact Hchs]. intros [k1 c1] [k' c'] _ Hx. cbn [fst snd] in Hx |- *. apply bind_Ok in Hx as (ss & Hss & Hx). inversion Hx; subst k' c'; clear Hx.
    cbn [with_samples ch_name ch_kind ch_samples]. split; [reflexivity|]. split; [reflexivity|]. split; [reflexivity|]. apply mapM_Forall2 in Hss. eapply Forall2_impl_in; [|exact Hss].
    intros [n1 s1] [n' s'] _ Hx. cbn [fst snd] in Hx |- *. apply bind_Ok in Hx as (s2 & Hs2 & Hx). inversion Hx; subst n' s2; clear Hx. split; [reflexivity|]. eapply pop_impacts_pre; eauto. }
  destruct (remove_core E m I chs rmatch pv m' I' sel Ob Hd HN HSt HT Hsel HA H) as (_ & nsv & aux & _ & _ & Em & _).
  assert (Hsel_n : In n sel).
  { destruct (in_dec string_dec n sel) as [X|X]; [exact X|]. exfalso. apply Hn'. rewrite Em. cbn [m_nps]. apply kept_keys. auto. }
  assert (Hl : In n l).
  { apply Sp in Hsel_n as (_ & sp & Hsp & Hc). unfold pv in Hsp. apply fold_None_keys in Hsp as [[]|Hsp]. destruct Hc as [<-|(Hc & _)]; [exact Hsp|]. exfalso. apply Hc, Hin, Hsp. }
  unfold l, pruned_nps in Hl. apply in_map_iff in Hl as ([p x] & Ex & Hl). cbn [snd] in Ex. subst x. apply filter_In in Hl as (Hpe & Hbel). cbn [fst] in Hbel.
  destruct (pmodel_names _ _ (bt_pm _ _ _ Bt)) as (_ & Hnn & _).
  assert (Hp : nth_error (np_names (i_pm I)) p = Some n).
  { rewrite Hnn. apply (in_list_prod_enum (keys (m_nps m)) 1 p n 0). apply in_prod; [exact Hpe|]. apply in_seq. lia. }
  assert (Hi : exists i, nth_error (i_channels I) i = Some (k, c)) by (apply In_nth_error; rewrite <- HC; exact Hk). destruct Hi as (i & Hi).
  assert (Hsa : exists j, sample_at c j = Some s) by (unfold sample_at; apply In_nth_error; unfold values; apply in_map_iff; exists (ks, s); auto). destruct Hsa as (j & Hj).
  assert (HFit : all_fit (i_channels I)) by (rewrite <- HC; exact (proj1 HT)).
  destruct (sym_at E m I i k c j s p n b Bt HFit Hi Hj Hb Hp) as (im' & Him' & Hsym). rewrite Him in Him'. inversion Him'; subst im'.
  unfold below in Hbel. rewrite forallb_forall in Hbel. specialize (Hbel j). rewrite forallb_forall in Hbel.
  assert (Hj2 : In j (seq 0 (i_nsamples I))).
  { apply in_seq. rewrite (bt_ns _ _ _ Bt). pose proof (sample_at_lt _ _ _ Hj). pose proof (max_samples_le _ _ _ (nth_error_In _ _ Hi)). lia. }
  assert (Hb2 : In (total_bins (firstn i (i_channels I)) + b)%nat (seq 0 (i_nbins I))).
  { apply in_seq. rewrite (bt_nb _ _ _ Bt). pose proof (total_bins_firstn _ _ _ _ Hi). lia. }
  specialize (Hbel Hj2 _ Hb2). rewrite Hsym in Hbel. apply andb_true_iff in Hbel as (B1 & B2). apply Rltb_true in B1, B2. apply Rabs_def1; lra.
Qed.
Print Assumptions C56_pruned_are_small.

(** * Examples *)
Definition np1 (n : string) (nominal : R) : string * NP := (n, mkNP (Some n) (Some nominal) 1 None None None None).
Definition up_down (x y : R) : jv := JObj [("+1", JFlt x); ("-1", JFlt y)].
Definition pr_sample (n : norm) (im : dict jv) : Sample := mkSample "S" n (Some 1) (Some [10]) im.
Definition pr_model (mu0 : R) (ex : dict expr) (nps : dict NP) (s : Sample) (linear : bool) : Model :=
  mkModel "pr" None [("mu", mkPOI (Some "mu") None None (Some mu0) None None)] nps [] [("SR", mkChannel "SR" KSingle [("S", s)])] ex true linear true false 0.
Definition never (_ _ : string) : bool := false.
Definition pr_imps : dict jv := [("a", up_down (1/5) (-1/5)); ("b", up_down (1/10) (-1/10))].
Definition pr0 : Model := pr_model 1 [] [np1 "a" 0; np1 "b" 0] (pr_sample (ExprNorm "mu") pr_imps) false.

(** a is removed at 1/2 (in units of its variation): all the hypotheses of C56_predictions hold *)
Example C56_nonvacuous : exists I m' I', finish ex_env pr0 = Ok (pr0, I) /\ NoDup (keys (m_channels pr0)) /\ names_ok pr0 /\ stored (m_channels pr0) /\ tables_ok ex_env pr0 (m_channels pr0) /\
  remove_nps ex_env never (pr0, I) [("a", Some (1/2))] = Ok (m', I') /\ keys (m_nps m') = ["b"] /\ tables_ok ex_env m' (m_channels m') /\ norms_at_nominal pr0 (keys (m_nps m')) /\
  forall mu x, (exists t, tot_bin_exp pr0 I [mu] [1/2; x] None = Ok t) /\ exists t', tot_bin_exp m' I' [mu] [x] None = Ok t'.
Proof.
  assert (X : exists it m' I', set_internal_vars ex_env pr0 = Ok it /\ i_channels it = m_channels pr0 /\ remove_nps ex_env never (pr0, it) [("a", Some (1/2))] = Ok (m', I') /\
     keys (m_nps m') = ["b"] /\ m_asym m' = true /\ (exists y, m_channels m' = [("SR", mkChannel "SR" KSingle [("S", mkSample "S" (ExprNorm "mu") (Some 1) (Some [y]) [("b", up_down (1/10) (-1/10))])])]) /\
     (forall mu x, exists t, tot_bin_exp pr0 it [mu] [1/2; x] None = Ok t) /\ forall mu x, exists t', tot_bin_exp m' I' [mu] [x] None = Ok t').
  { do 3 eexists. split; [unfold pr0, pr_model; ev; reflexivity|]. split; [reflexivity|]. split; [unfold pr0, pr_model; ev; reflexivity|].
    split; [reflexivity|]. split; [reflexivity|]. split; [eexists; reflexivity|]. split; intros mu x; eexists; unfold pr0, pr_model; ev; reflexivity. }
  destruct X as (I & m' & I' & X & Xc & Y & Yk & Ya & (y & Yc) & T1 & T2). exists I, m', I'.
  assert (HB : forall y0 im ks sm par, In (ks, sm) [("S", mkSample "S" (ExprNorm "mu") (Some 1) (Some [y0]) im)] ->
     available_variations (e_float ex_env) sm par = Ok [1; -1] -> balanced ex_env sm par /\ (norders ex_env sm par <= 1)%nat).
  { intros y0 im ks sm par _ HB. unfold balanced, norders. rewrite HB. split; [intros av [= <-]|]; cbn [filter]; rdec; cbn; lia. }
  split; [unfold finish; rewrite X; cbn [bind]; rewrite Xc; reflexivity|]. split; [repeat constructor; cbn; intuition congruence|]. split; [repeat constructor; cbn; intuition congruence|].
  split. { intros k c [E|[]]; inversion E; subst. split; [reflexivity|]. split; [repeat constructor; cbn; intuition congruence|]. intros n s [E2|[]]; inversion E2; reflexivity. }
  split.
  { split; [|intros _; split; intros k c ks sm par [E|[]] Hs Hp; inversion E; subst].
    - intros k c ks sm [E|[]] Hs; inversion E; subst. destruct Hs as [E2|[]]; inversion E2; subst. split; [exists [10]; split; reflexivity|].
      intros par l Hl. cbn in Hl. repeat match type of Hl with context [String.eqb ?a ?b] => destruct (String.eqb a b) end; discriminate.
    - apply (HB 10 pr_imps ks); [exact Hs|]. destruct Hs as [E2|[]]; inversion E2; subst. cbn in Hp. destruct Hp as [<-|[<-|[]]]; reflexivity.
    - left. apply (HB 10 pr_imps ks); [exact Hs|]. destruct Hs as [E2|[]]; inversion E2; subst. cbn in Hp. destruct Hp as [<-|[<-|[]]]; reflexivity. }
  split; [exact Y|]. split; [exact Yk|]. split.
  { rewrite Yc. split; [|intros _; rewrite Yk; split; intros k c ks sm par [E|[]] Hs Hp; inversion E; subst].
    - intros k c ks sm [E|[]] Hs; inversion E; subst. destruct Hs as [E2|[]]; inversion E2; subst. split; [exists [y]; split; reflexivity|].
      intros par l Hl. cbn in Hl. repeat match type of Hl with context [String.eqb ?a ?b] => destruct (String.eqb a b) end; discriminate.
    - eapply HB; [exact Hs|]. destruct Hs as [E2|[]]; inversion E2; subst. cbn in Hp. destruct Hp as [<-|[]]; reflexivity.
    - left. eapply HB; [exact Hs|]. destruct Hs as [E2|[]]; inversion E2; subst. cbn in Hp. destruct Hp as [<-|[]]; reflexivity. }
  split.
  { intros k c n s x p [E|[]] Hs En Hx; inversion E; subst. destruct Hs as [E2|[]]; inversion E2; subst. inversion En; subst. cbn in Hx. destruct Hx as [E3|[E3|[]]]; inversion E3. }
  intros mu x. split; [apply T1|apply T2].
Qed.

Ltac evs := repeat (progress (lazy -[Reqb Rltb Rleb IZR Rplus Rminus Rmult Rdiv Ropp Rinv Rmax Rmin pow exp ln]; rdec)).
(** C56: with the linear form, the effects of the NPs add up in the original model but the effect of the removed NP
    multiplies the others in the reduced one *)
Theorem C56_linear_refuted : let m := pr_model 1 [] [np1 "a" 0; np1 "b" 0] (pr_sample (ExprNorm "mu") pr_imps) true in
  exists I m' I' t t', finish ex_env m = Ok (m, I) /\ remove_nps ex_env never (m, I) [("a", Some 1)] = Ok (m', I') /\ keys (m_nps m') = ["b"] /\
  tot_bin_exp m I [1] [1; 1] None = Ok t /\ tot_bin_exp m' I' [1] [1] None = Ok t' /\ t 0%nat = 13 /\ t' 0%nat = 13 + 1/5.
Proof.
  intros m. unfold m, pr_model. do 5 eexists. split; [unfold finish; ev; reflexivity|]. split; [ev; reflexivity|]. split; [reflexivity|].
  split; [ev; reflexivity|]. split; [ev; reflexivity|]. split.
  - evs. rewrite ?(Rmax_left 1 0), ?(Rmin_right 1 0) by lra. lra.
  - evs. rewrite ?(Rmax_left 1 0), ?(Rmin_right 1 0), ?(Rmax_left 0 0), ?(Rmin_left 0 0) by lra. lra.
Qed.
Print Assumptions C56_linear_refuted.

(** C56: without a value, the NP is removed at its nominal value, taken as a value in units of its variation: for a NP
    of nominal value 1 with an impact of 20%, the yields are changed by 20% *)
Theorem C56_default_value_refuted : let m := pr_model 1 [] [np1 "a" 1] (pr_sample (ExprNorm "mu") [("a", up_down (1/5) (-1/5))]) true in
  exists I m' I' t t', finish ex_env m = Ok (m, I) /\ remove_nps ex_env never (m, I) [("a", None)] = Ok (m', I') /\
  tot_bin_exp m I [1] [0] None = Ok t /\ tot_bin_exp m' I' [1] [] None = Ok t' /\ t 0%nat = 10 /\ t' 0%nat = 12.
Proof.
  intros m. unfold m, pr_model. do 5 eexists. split; [unfold finish; ev; reflexivity|]. split; [ev; reflexivity|].
  split; [ev; reflexivity|]. split; [ev; reflexivity|]. split.
  - evs. rewrite ?(Rmax_left 0 0), ?(Rmin_left 0 0) by lra. lra.
  - evs. rewrite ?(Rmax_left 1 0), ?(Rmin_right 1 0), ?(Rmax_left 0 0), ?(Rmin_left 0 0) by lra. lra.
Qed.
Print Assumptions C56_default_value_refuted.

(** C56: the value given with a pattern is not used *)
Theorem C56_pattern_value_refuted : forall E rmatch m I sp v, ~ In sp (keys (m_nps m)) ->
  remove_nps E rmatch (m, I) [(sp, Some v)] = remove_nps E rmatch (m, I) [(sp, None)].
Proof.
  intros E rmatch m I sp v Hn. unfold remove_nps. change (keys [(sp, Some v)]) with [sp]. change (keys [(sp, @None R)]) with [sp].
  destruct (select_names rmatch "$" (keys (m_nps m)) [sp]) as [sel|e] eqn:Es; cbn [bind]; [|reflexivity].
  destruct (pars_clone _) as [p0|e]; cbn [bind]; [|reflexivity].
  assert (G : forall p, foldM (fun p n => let! np := dgetE n (m_nps m) in let! v0 := removal_value [(sp, Some v)] n np in pars_set p n v0 false) sel p =
                        foldM (fun p n => let! np := dgetE n (m_nps m) in let! v0 := removal_value [(sp, None)] n np in pars_set p n v0 false) sel p); [|rewrite G; reflexivity].
  assert (Hs : forall n, In n sel -> n <> sp) by (intros n X ->; apply (select_names_spec _ _ _ _ _ Es) in X as (X & _); contradiction).
  clear Es. induction sel as [|n sel IH]; intros p; cbn [foldM]; [reflexivity|].
  assert (R : forall np, removal_value [(sp, Some v)] n np = removal_value [(sp, None)] n np).
  { intros np. unfold removal_value. cbn [dget]. assert (String.eqb n sp = false) as -> by (apply String.eqb_neq, Hs; now left). reflexivity. }
  destruct (dgetE n (m_nps m)) as [np|e]; cbn [bind]; [|reflexivity]. rewrite R. destruct (removal_value _ n np); cbn [bind]; [|reflexivity].
  destruct (pars_set p n a false); cbn [bind]; [|reflexivity]. apply IH. intros x Hx. apply Hs. now right.
Qed.
Print Assumptions C56_pattern_value_refuted.
Example C56_pattern_value_nonvacuous : exists I m' I', finish ex_env pr0 = Ok (pr0, I) /\ ~ In "a.*" (keys (m_nps pr0)) /\
  remove_nps ex_env (fun _ n => String.eqb n "a") (pr0, I) [("a.*", Some (1/2))] = Ok (m', I') /\ keys (m_nps m') = ["b"].
Proof.
  unfold pr0, pr_model. do 3 eexists. split; [unfold finish; ev; reflexivity|]. split; [cbn; intuition discriminate|]. split; [ev; reflexivity|reflexivity].
Qed.

(** C56: the reduced model takes the initial values of the POIs as reference: if this makes the normalization of a
    sample vanish, the reduced model cannot be evaluated, whatever the parameter values *)
Theorem C56_zero_norm_refuted : let m := pr_model 0 [] [np1 "a" 0; np1 "b" 0] (pr_sample (ExprNorm "mu") pr_imps) false in
  exists I m' I', finish ex_env m = Ok (m, I) /\ remove_nps ex_env never (m, I) [("a", Some 0)] = Ok (m', I') /\
  (forall mu x, exists t, tot_bin_exp m I [mu] [0; x] None = Ok t) /\ forall mu x, tot_bin_exp m' I' [mu] [x] None = Err NonFinite.
Proof.
  intros m. unfold m, pr_model. do 3 eexists. split; [unfold finish; ev; reflexivity|]. split; [ev; reflexivity|].
  split; intros mu x; [eexists|]; ev; reflexivity.
Qed.
Print Assumptions C56_zero_norm_refuted.

(** C56: a NP that enters an expression cannot be removed *)
Theorem C56_expression_refuted : let m := pr_model 1 [("sig", ELinComb "sig" 0 [("mu", 1); ("a", 1)])] [np1 "a" 0; np1 "b" 0] (pr_sample (ExprNorm "sig") pr_imps) false in
  exists I, finish ex_env m = Ok (m, I) /\ remove_nps ex_env never (m, I) [("a", Some 0)] = Err KeyError.
Proof.
  intros m. unfold m, pr_model. eexists. split; [unfold finish; ev; reflexivity|]. ev. reflexivity.
Qed.
Print Assumptions C56_expression_refuted.

(** C56: pruning fails as soon as a NP to prune has no impact listed in some sample *)
Lemma foldM_pop_err (l : list string) : forall (d : dict jv) n, In n l -> dmem n d = false -> foldM (fun d n => dpopE n d) l d = Err KeyError.
Proof.
  induction l as [|a l IH]; intros d n Hn Hd; [destruct Hn|]. cbn [foldM]. unfold dpopE at 1. destruct (dmem a d) eqn:Ea; cbn [bind]; [|reflexivity].
  destruct Hn as [->|Hn]; [congruence|]. apply (IH _ n Hn). unfold dmem in *. rewrite dget_dremove_neq; [exact Hd|]. intros ->. rewrite Hd in Ea. discriminate.
Qed.
Lemma mapM_key_err {A B} (f : A -> res B) l x : In x l -> f x = Err KeyError -> (forall y e, In y l -> f y = Err e -> e = KeyError) -> mapM f l = Err KeyError.
Proof.
  induction l as [|a l IH]; intros Hx Hf Ho; [destruct Hx|]. cbn [mapM]. destruct (f a) as [b|e] eqn:Ea; cbn [bind].
  - destruct Hx as [->|Hx]; [congruence|]. rewrite (IH Hx Hf); [reflexivity|]. intros y e Hy. apply Ho. now right.
  - f_equal. apply (Ho a e); [now left|exact Ea].
Qed.
Lemma mapM_err_in {A B} (f : A -> res B) l e : mapM f l = Err e -> exists y, In y l /\ f y = Err e.
Proof.
  induction l as [|a l IH]; cbn [mapM]; [discriminate|]. destruct (f a) eqn:Ea; cbn [bind]; [|intros [= <-]; exists a; split; [now left|exact Ea]].
  destruct (mapM f l); cbn [bind]; [discriminate|]. intros [= <-]. destruct (IH eq_refl) as (y & Hy & Ey). exists y. split; [now right|exact Ey].
Qed.
Lemma pop_impacts_err l s e : pop_impacts l s = Err e -> e = KeyError.
Proof.
  unfold pop_impacts. generalize (s_impacts s) as d. induction l as [|a l IH]; intros d; cbn [foldM bind]; [discriminate|]. unfold dpopE. destruct (dmem a d); cbn [bind]; [apply IH|congruence].
Qed.
Theorem C56_prune_missing_impact_refuted : forall E rmatch m I thr n k c ks s, In n (pruned_nps m I thr) -> In (k, c) (m_channels m) -> In (ks, s) (ch_samples c) ->
  dmem n (s_impacts s) = false -> prune_nps E rmatch (m, I) thr = Err KeyError.
Proof.
  intros E rmatch m I thr n k c ks s Hn Hk Hs Hd. unfold prune_nps. cbn [fst snd].
  assert (G : forall (kc : string * Channel) e, (let! ss := mapM (fun ks : string * Sample => let! s := pop_impacts (pruned_nps m I thr) (snd ks) in Ok (fst ks, s)) (ch_samples (snd kc)) in Ok (fst kc, with_samples (snd kc) ss)) = Err e -> e = KeyError).
  { intros kc e H. destruct (mapM _ _) as [ss|e'] eqn:Em in H; cbn [bind] in H; [discriminate|]. inversion H; subst e'. apply mapM_err_in in Em as (y & _ & Ey).
    destruct (pop_impacts (pruned_nps m I thr) (snd y)) eqn:Ep; cbn [bind] in Ey; [discriminate|]. inversion Ey; subst. eapply pop_impacts_err; eauto. }
  rewrite (mapM_key_err _ _ (k, c) Hk); [reflexivity| |intros y e _; apply G]. cbn [fst snd].
  rewrite (mapM_key_err _ _ (ks, s) Hs); [reflexivity| |].
  - cbn [snd fst]. unfold pop_impacts. rewrite (foldM_pop_err _ _ n Hn Hd). reflexivity.
  - intros y e _ Ey. destruct (pop_impacts (pruned_nps m I thr) (snd y)) eqn:Ep; cbn [bind] in Ey; [discriminate|]. inversion Ey; subst. eapply pop_impacts_err; eauto.
Qed.
Print Assumptions C56_prune_missing_impact_refuted.
Example C56_prune_missing_impact_nonvacuous : let m := pr_model 1 [] [np1 "a" 0] (pr_sample (NumberNorm (Some 1)) []) false in
  exists I, finish ex_env m = Ok (m, I) /\ In "a" (pruned_nps m I (1/1000)) /\ dmem "a" (s_impacts (pr_sample (NumberNorm (Some 1)) [])) = false.
Proof.
  intros m. unfold m, pr_model. eexists. split; [unfold finish; ev; reflexivity|]. split; [evs; left; reflexivity|reflexivity].
Qed.

(** C56: only the difference between the impacts at +1 and -1 is compared to the threshold: a NP that changes the
    yields by 50% in the same direction on both sides is pruned at any positive threshold *)
Theorem C56_prune_same_sign_refuted : let m := pr_model 1 [] [np1 "a" 0] (pr_sample (ExprNorm "mu") [("a", up_down (1/2) (1/2))]) true in
  exists I t, finish ex_env m = Ok (m, I) /\ tot_bin_exp m I [1] [1] None = Ok t /\ t 0%nat = 15 /\
  forall thr, 0 < thr -> exists m' I' t', prune_nps ex_env never (m, I) thr = Ok (m', I') /\ m_nps m' = [] /\ tot_bin_exp m' I' [1] [] None = Ok t' /\ t' 0%nat = 10.
Proof.
  intros m. unfold m, pr_model. do 2 eexists. split; [unfold finish; ev; reflexivity|]. split; [ev; reflexivity|]. split.
  - evs. rewrite ?(Rmax_left 1 0), ?(Rmin_right 1 0) by lra. lra.
  - intros thr Hthr. match goal with |- exists m' I' t', prune_nps ex_env never (?a, ?b) thr = _ /\ _ => assert (Hp : pruned_nps a b thr = ["a"]) end.
    { unfold pruned_nps, below. cbn [m_nps keys map fst np1 enumerate length seq combine filter snd i_nbins i_nsamples forallb].
      match goal with |- context [Rltb ?v thr] => replace v with 0 by (evs; lra) end. rdec. reflexivity. }
    unfold prune_nps. cbn [fst snd]. rewrite Hp. do 3 eexists. split; [ev; reflexivity|]. split; [reflexivity|]. split; [ev; reflexivity|].
    evs. rewrite ?(Rmax_left 0 0), ?(Rmin_left 0 0) by lra. lra.
Qed.
Print Assumptions C56_prune_same_sign_refuted.
