(** C94: removing expressions from a model (model_tools.py 427-451). *)
From Verif Require Import Py PyFacts Base Expressions ExprSpec ExprFacts ExprGrad ExprReplace Norms Sample SampleFacts Channels ChannelFacts Params ParamsFacts Core CoreFacts CoreSpec CoreCoefs CoreYields CoreExample ModelIO ModelIOFacts ModelTools ModelToolsFacts ReparamFacts ReparamProps.
Local Open Scope string_scope.
Local Open Scope list_scope.
Local Open Scope R_scope.

(** * Specification *)
(** expression [n] is designated by a list of names and patterns: its own name, or a pattern that is not the name of an
    expression and matches the beginning of its name; rmatch is re.match *)
Definition expr_designated (rmatch : string -> string -> bool) (specs exprs : list string) (n : string) : Prop :=
  exists sp, In sp specs /\ (sp = n \/ (~ In sp exprs /\ rmatch sp n = true)).
(** no sample is normalized to [n] *)
Definition not_a_norm (m : Model) (n : string) : Prop :=
  forall k c ks s, In (k, c) (m_channels m) -> In (ks, s) (ch_samples c) -> s_norm s <> ExprNorm n.

Lemma expr_loop_keeps vals : forall sel m m',
  foldM (fun m n => match dget n (m_exprs m) with
                    | None => Err KeyError
                    | Some e => let! _ := remove_from_norms (m_channels m) (expr_name e) vals in
                                Ok (with_exprs m (dremove n (m_exprs m)))
                    end) sel m = Ok m' ->
  NoDup (keys (m_exprs m)) -> forall x, In x (m_exprs m') <-> In x (m_exprs m) /\ ~ In (fst x) sel.
Proof.
  induction sel as [|n sel IH]; intros m m' H HN x; cbn [foldM] in H.
  - inversion H; subst. cbn. tauto.
  - apply bind_Ok in H as (m1 & H1 & H). destruct (dget n (m_exprs m)) as [e|] eqn:En; [|discriminate]. apply bind_Ok in H1 as (u & Hu & H1). inversion H1; subst m1; clear H1.
    assert (HN1 : NoDup (keys (m_exprs (with_exprs m (dremove n (m_exprs m)))))) by (cbn; now apply NoDup_keys_dremove).
    rewrite (IH _ _ H HN1 x). cbn [with_exprs m_exprs]. split.
    + intros (Hin & Hs). split; [now apply (dremove_incl n (m_exprs m))|]. intros [E|E]; [|contradiction].
      destruct x as [k e0]. cbn [fst] in *. subst k. pose proof (dget_dremove_eq n (m_exprs m) HN) as G. rewrite (In_dget _ _ _ (NoDup_keys_dremove n _ HN) Hin) in G. discriminate.
    + intros (Hin & Hs). cbn [In] in Hs. split; [|tauto]. destruct x as [k e0]. cbn [fst] in *. apply dremove_keeps; auto.
Qed.

Lemma dremove_filter {V} n (d : dict V) : NoDup (keys d) -> dremove n d = filter (fun kv => negb (String.eqb (fst kv) n)) d.
Proof.
  induction d as [|[k v] d IH]; intros HN; [reflexivity|]. cbn [dremove filter fst]. inversion HN as [|a b Hn Hd]; subst. rewrite String.eqb_sym.
  destruct (String.eqb k n) eqn:E; cbn [negb]; [|now rewrite IH]. apply String.eqb_eq in E. subst k. symmetry. clear -Hn.
  induction d as [|[k v] d IH]; [reflexivity|]. cbn [filter fst]. cbn [keys map fst In] in Hn. destruct (String.eqb k n) eqn:E; [apply String.eqb_eq in E; subst; tauto|].
  cbn [negb]. f_equal. apply IH. tauto.
Qed.
Lemma append_empty_r (s : string) : (s ++ "")%string = s.
Proof. induction s as [|a s IH]; [reflexivity|]. cbn. now rewrite IH. Qed.
Lemma expr_loop_filter vals : forall sel m m',
  foldM (fun m n => match dget n (m_exprs m) with
                    | None => Err KeyError
                    | Some e => let! _ := remove_from_norms (m_channels m) (expr_name e) vals in
                                Ok (with_exprs m (dremove n (m_exprs m)))
                    end) sel m = Ok m' -> NoDup (keys (m_exprs m)) ->
  m_exprs m' = filter (fun kv => negb (existsb (String.eqb (fst kv)) sel)) (m_exprs m).
Proof.
  induction sel as [|n sel IH]; intros m m' H HN; cbn [foldM] in H.
  - inversion H; subst. cbn [existsb negb]. symmetry. clear. induction (m_exprs m') as [|x l IH]; [reflexivity|]. cbn [filter]. now rewrite IH.
  - apply bind_Ok in H as (m1 & H1 & H). destruct (dget n (m_exprs m)) as [e|] eqn:En; [|discriminate]. apply bind_Ok in H1 as (u & Hu & H1). inversion H1; subst m1; clear H1.
    rewrite (IH _ _ H) by (cbn; now apply NoDup_keys_dremove). cbn [with_exprs m_exprs]. rewrite (dremove_filter n _ HN). clear.
    induction (m_exprs m) as [|[k v] l IH]; [reflexivity|]. cbn [filter fst existsb]. destruct (String.eqb k n); cbn [negb orb filter fst]; [exact IH|].
    destruct (existsb (String.eqb k) sel); cbn [negb]; [exact IH|now rewrite IH].
Qed.

(** fewer expressions, and the same predictions wherever both models can be evaluated *)
Lemma fewer_exprs_predictions E m0 m I m' m2 I2 ps ns t t2 b :
  finish E m0 = Ok (m, I) -> NoDup (keys (m_channels m)) -> names_ok m -> stored_by_name (m_exprs m) -> tables_ok E m (m_channels m) ->
  m' = with_exprs m (m_exprs m') -> NoDup (keys (m_exprs m')) -> incl (m_exprs m') (m_exprs m) -> finish E m' = Ok (m2, I2) ->
  length ps = length (m_pois m) ->
  tot_bin_exp m I ps ns None = Ok t -> tot_bin_exp m2 I2 ps ns None = Ok t2 ->
  (b < i_nbins I)%nat -> t2 b = t b.
Proof.
  intros HF Hd HN HB HT A D Inc HF2 HL Ht Ht2 Hb. set (ps2 := ps) in *.
  pose proof (by_name_keys _ HB) as Hk. assert (HN0 := HN). unfold names_ok in HN0. rewrite Hk in HN0.
  assert (C : NoDup (keys (m_pois m'))) by (rewrite A; exact (NoDup_app_l _ _ HN0)).
  assert (Ek : stored_by_name (m_exprs m')) by (intros k e He; apply HB, Inc, He).
  assert (Ei : incl (keys (m_exprs m')) (keys (m_exprs m))) by (unfold keys; intros k Hx; apply in_map_iff in Hx as (x & <- & Hx); apply in_map, Inc, Hx).
  assert (HL2 : length ps2 = length (m_pois m')) by (rewrite A; exact HL).
  assert (Hv : forall n, In n (keys (m_pois m')) -> value_of (keys (m_pois m')) ps2 n = value_of (keys (m_pois m)) ps n) by (intros n _; rewrite A; reflexivity).
  pose proof (finish_object _ _ _ _ HF) as Ob. assert (Ob' := Ob). destruct Ob' as (HS & HC). pose proof (finish_object _ _ _ _ HF2) as (HS2 & HC2).
  unfold finish in HF2. apply bind_Ok in HF2 as (it & Hit & HF2). inversion HF2; subst m2 it; clear HF2.
  assert (Ech : m_channels m' = m_channels m) by (rewrite A; reflexivity). assert (Enp : m_nps m' = m_nps m) by (rewrite A; reflexivity).
  assert (Hfix : i_channels I2 = m_channels m).
  { rewrite <- Ech. apply (built_fixed E m' I2 (siv_built _ _ _ Hit)); [rewrite Ech; exact Hd|]. rewrite Enp, Ech. exact (object_done E m I Ob). }
  set (m2 := with_channels m' (i_channels I2)) in *.
  assert (Ip : incl (keys (m_pois m')) (keys (m_pois m))).
  { rewrite A. cbn. apply incl_refl. }
  assert (HN2 : names_ok m2).
  { unfold names_ok. cbn [m2 with_channels m_pois m_nps m_exprs]. rewrite (by_name_keys _ Ek), Enp. exact (NoDup_app3_incl _ _ _ _ _ HN0 C D Ip Ei). }
  pose proof (siv_built _ _ _ HS) as Bt. pose proof (siv_built _ _ _ HS2) as Bt2.
  (* values of the original model *)
  assert (Hn : exists n, n_exp m I ps ns = Ok n) by (unfold tot_bin_exp in Ht; apply bind_Ok in Ht as (n & Hn & _); eauto). destruct Hn as (n & Hn).
  assert (Hn2 : exists n2, n_exp m2 I2 ps2 ns = Ok n2) by (unfold tot_bin_exp in Ht2; apply bind_Ok in Ht2 as (n2 & Hn2 & _); eauto). destruct Hn2 as (n2 & Hn2).
  set (F := model_env m ps).
  destruct (base_dict m (i_pm I) ps (bt_pm _ _ _ Bt) (names_ok_base _ HN) HL) as (d & Hdd & Hdk & Hde).
  assert (Hrv : exists rv, real_vals (values (m_exprs m)) d = Ok rv).
  { unfold n_exp in Hn. apply bind_Ok in Hn as (rv & Hrv & _). unfold model_real_vals in Hrv. rewrite Hdd in Hrv. cbn [bind] in Hrv. eauto. }
  destruct Hrv as (rv & Hrv).
  assert (Hord : ordered (keys d) (values (m_exprs m))) by (apply (real_vals_ok _ _ _ Hrv); rewrite Hdk, <- app_assoc; exact HN).
  assert (Fbase : forall x, In x (keys d) -> F x = par_env m ps x) by (intros x Hx; exact (env_den_avail _ _ _ _ Hord Hx)).
  assert (Fsat : sat F (m_exprs m)).
  { intros k e He. apply dget_In in He. rewrite <- (HB k e He). apply (env_den_fix _ _ _ _ Hord). unfold values. apply in_map_iff. exists (k, e). auto. }
  assert (Fsat' : sat F (m_exprs m')).
  { intros k e He. apply Fsat. apply In_dget; [exact (NoDup_app_r _ _ (NoDup_app_r _ _ HN0))|]. apply Inc. now apply dget_In. }

  (* values of the new model *)
  assert (Hpm2 : pmodel_of m2 = Ok (i_pm I2)) by exact (bt_pm _ _ _ Bt2).
  destruct (base_dict m2 (i_pm I2) ps2 Hpm2 (names_ok_base _ HN2) HL2) as (d2 & Hd2 & Hd2k & Hd2e).
  assert (Ag2 : agrees d2 F).
  { intros x v Hx. assert (Hxk : In x (keys d2)) by (apply dmem_spec; unfold dmem; now rewrite Hx).
    assert (Ev : v = par_env m2 ps2 x) by (rewrite <- Hd2e; unfold env_of; now rewrite Hx). subst v. rewrite Hd2k in Hxk. cbn [m2 with_channels m_pois m_nps] in Hxk. rewrite Enp in Hxk.
    assert (Hxd : In x (keys d)) by (rewrite Hdk; apply in_or_app; apply in_app_or in Hxk as [Hxk|Hxk]; [left; now apply Ip|now right]). rewrite (Fbase x Hxd).
    unfold par_env. cbn [m2 with_channels m_pois m_nps]. rewrite Enp. destruct (index x (keys (m_pois m'))) as [j|] eqn:Ej.
    - assert (Hj : In x (keys (m_pois m'))) by (apply index_In; eauto). pose proof (Hv x Hj) as V. unfold value_of in V. rewrite Ej in V.
      destruct (index x (keys (m_pois m))) eqn:Ej2; [now symmetry|]. apply index_None in Ej2. exfalso. apply Ej2. now apply Ip.
    - apply index_None in Ej. apply in_app_or in Hxk as [Hxk|Hxk]; [contradiction|]. destruct (index x (keys (m_pois m))) eqn:Ej2; [|reflexivity].
      exfalso. apply (NoDup_app_disj _ _ x HN0 (proj1 (index_In _ _) (ex_intro _ _ Ej2))). apply in_or_app. now left. }
  assert (Norm : forall k c ks sm, In (k, c) (m_channels m) -> In (ks, sm) (ch_samples c) -> norm_den (s_norm sm) (model_env m2 ps2) = norm_den (s_norm sm) F).
  { intros k c ks sm Hkc Hsm. rewrite <- Hfix in Hkc. destruct (n_exp_norms E m2 I2 ps2 ns n2 k c ks sm Bt2 Hn2 Hkc Hsm) as (rv2 & y & Hrv2 & Hy).
    rewrite <- (norm_value_den _ _ _ _ (real_vals_spec m2 (i_pm I2) ps2 rv2 HN2 Hpm2 HL2 Hrv2) Hy).
    apply (norm_value_den _ rv2); [|exact Hy]. unfold model_real_vals in Hrv2. rewrite Hd2 in Hrv2. cbn [bind] in Hrv2.
    intros x v Hx. symmetry. revert x v Hx. apply (real_vals_agree F _ _ _ Hrv2 Ag2). intros e He. cbn [m2 with_channels m_exprs] in He. unfold values in He. apply in_map_iff in He as ([k1 e1] & <- & He). cbn [snd].
    rewrite (Ek k1 e1 He). apply Fsat'. apply In_dget; [exact D|exact He]. }
  (* bins *)
  rewrite (bt_nb _ _ _ Bt) in Hb. destruct (range_cover (i_channels I) 0 b) as (k & off & c & Ho & Hc & Hlt); [rewrite <- HC; exact Hd|lia|].
  assert (Hi : exists i, nth_error (i_channels I) i = Some (k, c)) by (apply In_nth_error; now apply dget_In). destruct Hi as (i & Hi).
  rewrite (off_at (i_channels I) i k c) in Ho; [|rewrite <- HC; exact Hd|exact Hi]. inversion Ho; subst off; clear Ho.
  replace b with (total_bins (firstn i (i_channels I)) + (b - total_bins (firstn i (i_channels I))))%nat by lia.
  rewrite HC in HT. rewrite (tot_bin_at E m I ps ns t i k c _ Bt HN HT HL Ht Hi) by lia.
  assert (Hi2 : nth_error (i_channels I2) i = Some (k, c)) by (rewrite Hfix, HC; exact Hi).
  assert (HT2 : tables_ok E m2 (i_channels I2)).
  { rewrite Hfix, HC. unfold tables_ok in *. cbn [m2 with_channels m_asym m_nps]. rewrite Enp. assert (Ea : m_asym m' = m_asym m) by (rewrite A; reflexivity). rewrite Ea. exact HT. }
  replace (total_bins (firstn i (i_channels I))) with (total_bins (firstn i (i_channels I2))) by (rewrite Hfix, HC; reflexivity).
  rewrite (tot_bin_at E m2 I2 ps2 ns t2 i k c _ Bt2 HN2 HT2 HL2 Ht2 Hi2) by (rewrite Hfix, HC; lia).
  replace (total_bins (firstn i (i_channels I2))) with (total_bins (firstn i (i_channels I))) by (rewrite Hfix, HC; reflexivity).
  f_equal. apply map_ext_in. intros sm Hsm. unfold values in Hsm. apply in_map_iff in Hsm as ([ks s] & <- & Hsm). cbn [snd].
  assert (Ef : np_factor E m2 s = np_factor E m s) by (unfold np_factor; cbn [m2 with_channels m_linear m_asym m_nps]; rewrite A; reflexivity).
  assert (Ecut : m_cutoff m2 = m_cutoff m) by (cbn [m2 with_channels m_cutoff]; rewrite A; reflexivity).
  rewrite Ef, Ecut. f_equal. unfold spec_yield. rewrite (Norm k c ks s); [reflexivity|rewrite HC; exact (nth_error_In _ _ Hi)|exact Hsm].
Qed.

(** * C94 *)

(** When the call succeeds: exactly the designated expressions are removed, none of them is the normalization of a
    sample, everything else, the other expressions and their order included, is unchanged. *)
Theorem C94_removed_expressions : forall rmatch m specs vals m', NoDup (keys (m_exprs m)) -> stored_by_name (m_exprs m) ->
  remove_expressions rmatch m specs vals = Ok m' ->
  m' = with_exprs m (m_exprs m') /\
  (forall n e, In (n, e) (m_exprs m') <-> In (n, e) (m_exprs m) /\ ~ expr_designated rmatch specs (keys (m_exprs m)) n) /\
  (exists keep, m_exprs m' = filter keep (m_exprs m)) /\
  (forall n, In n (keys (m_exprs m)) -> expr_designated rmatch specs (keys (m_exprs m)) n -> not_a_norm m n).
Proof.
  intros rmatch m specs vals m' HN HB H. unfold remove_expressions in H. apply bind_Ok in H as (sel & Hsel & H).
  pose proof (expr_loop_keeps _ _ _ _ H HN) as K. pose proof (ex_intro (fun f => m_exprs m' = filter f (m_exprs m)) _ (expr_loop_filter _ _ _ _ H HN)) as Fl. apply remove_expr_loop in H as (A & B & C & D).
  pose proof (select_names_spec _ _ _ _ _ Hsel) as Sp. split; [exact A|]. split; [|split; [exact Fl|]].
  - intros n e. rewrite K. cbn [fst]. rewrite Sp. unfold expr_designated. split; intros (H1 & H2); (split; [exact H1|]).
    + intros (sp & Hi & Hm). apply H2. split; [unfold keys; apply in_map_iff; exists (n, e); auto|]. exists sp. split; [exact Hi|]. rewrite append_empty_r. exact Hm.
    + intros (_ & sp & Hi & Hm). apply H2. exists sp. split; [exact Hi|]. rewrite append_empty_r in Hm. exact Hm.
  - intros n Hn (sp & Hi & Hm). unfold keys in Hn. apply in_map_iff in Hn as ([k e] & <- & Hin). cbn [fst] in *.
    intros a c ks s Hc Hs. refine (D HN HB k e Hin _ a c ks s Hc Hs). rewrite K. cbn [fst]. rewrite Sp. intros (_ & X). apply X.
    split; [unfold keys; apply in_map_iff; exists (k, e); auto|]. exists sp. rewrite append_empty_r. auto.
Qed.
Print Assumptions C94_removed_expressions.

(** The predictions are those of the original model, wherever both can be evaluated. *)
Theorem C94_predictions : forall rmatch E m0 m I specs vals m' m2 I2 ps ns t t2 b,
  finish E m0 = Ok (m, I) -> NoDup (keys (m_channels m)) -> names_ok m -> stored_by_name (m_exprs m) -> tables_ok E m (m_channels m) ->
  remove_expressions rmatch m specs vals = Ok m' -> finish E m' = Ok (m2, I2) -> length ps = length (m_pois m) ->
  tot_bin_exp m I ps ns None = Ok t -> tot_bin_exp m2 I2 ps ns None = Ok t2 -> (b < i_nbins I)%nat -> t2 b = t b.
Proof.
  intros rmatch E m0 m I specs vals m' m2 I2 ps ns t t2 b HF Hd HN HB HT H HF2 HL Ht Ht2 Hb.
  assert (HN0 := HN). unfold names_ok in HN0. rewrite (by_name_keys _ HB) in HN0.
  unfold remove_expressions in H. apply bind_Ok in H as (sel & Hsel & H). apply remove_expr_loop in H as (A & B & C & _).
  exact (fewer_exprs_predictions E m0 m I m' m2 I2 ps ns t t2 b HF Hd HN HB HT A (C (NoDup_app_r _ _ (NoDup_app_r _ _ HN0))) B HF2 HL Ht Ht2 Hb).
Qed.
Print Assumptions C94_predictions.

(** A specification that designates nothing is refused, and so is the removal of an expression to which a sample is
    normalized, although the documentation promises to replace it by the value given. *)
Theorem C94_unknown_refused : forall rmatch m specs vals sp, In sp specs -> ~ In sp (keys (m_exprs m)) ->
  (forall n, In n (keys (m_exprs m)) -> rmatch sp n = false) -> remove_expressions rmatch m specs vals = Err KeyError.
Proof.
  intros rmatch m specs vals sp Hi Hn Hm. unfold remove_expressions, select_names.
  match goal with |- context [mapM ?f specs] => set (g := f) end.
  assert (HE : g sp = Err KeyError).
  { unfold g. destruct (existsb (String.eqb sp) (keys (m_exprs m))) eqn:Ex.
    - apply existsb_exists in Ex as (x & Hx & Ex). apply String.eqb_eq in Ex. subst. contradiction.
    - rewrite append_empty_r. destruct (filter (rmatch sp) (keys (m_exprs m))) as [|a l] eqn:Ef; [reflexivity|].
      assert (X : In a (filter (rmatch sp) (keys (m_exprs m)))) by (rewrite Ef; now left). apply filter_In in X as (Xa & Xb). rewrite (Hm _ Xa) in Xb. discriminate. }
  assert (HA : forall x e, g x = Err e -> e = KeyError).
  { intros x e. unfold g. destruct (existsb _ _); [discriminate|]. destruct (filter _ _); congruence. }
  assert (HM : mapM g specs = Err KeyError).
  { clear -Hi HE HA. induction specs as [|x r IH]; [contradiction|]. cbn [mapM]. destruct (g x) as [y|e] eqn:Ex; cbn [bind].
    - destruct Hi as [->|Hi]; [congruence|]. now rewrite (IH Hi).
    - now rewrite (HA _ _ Ex). }
  rewrite HM. reflexivity.
Qed.
Print Assumptions C94_unknown_refused.

Theorem C94_norm_refuted : forall rmatch m name e vals k c ks s, In name (keys (m_exprs m)) -> dget name (m_exprs m) = Some e -> expr_name e = name ->
  In (k, c) (m_channels m) -> In (ks, s) (ch_samples c) -> s_norm s = ExprNorm name ->
  remove_expressions rmatch m [name] vals = Err (if dmem name vals then NameError else KeyError).
Proof.
  intros rmatch m name e vals k c ks s Hn He Hen Hc Hs Hnm. unfold remove_expressions, select_names. cbn [mapM].
  replace (existsb (String.eqb name) (keys (m_exprs m))) with true by (symmetry; apply existsb_exists; exists name; split; [exact Hn|apply String.eqb_refl]).
  cbn [bind concat app foldM]. rewrite He, Hen. unfold remove_from_norms.
  match goal with |- context [existsb ?f (m_channels m)] => replace (existsb f (m_channels m)) with true end.
  - destruct (dmem name vals); reflexivity.
  - symmetry. apply existsb_exists. exists (k, c). split; [exact Hc|]. apply existsb_exists. exists (ks, s). split; [exact Hs|]. cbn [snd]. rewrite Hnm. apply String.eqb_refl.
Qed.
Print Assumptions C94_norm_refuted.

(** The documentation also promises to remove the expression from the other expressions; they are left as they are, and
    a model where another one refers to a removed expression can no longer be completed. *)
Definition re_model : Model := rp_model [poi1 "mu" 1] [("e", ELinComb "e" 0 [("mu", 2)]); ("eff", ELinComb "eff" 1 [("mu", 1)]); ("sig", ELinComb "sig" 0 [("e", 1)])] "sig".
Theorem C94_other_expressions_refuted : forall v, exists m', remove_expressions no_match re_model ["e"] [("e", v)] = Ok m' /\
  dget "sig" (m_exprs m') = dget "sig" (m_exprs re_model) /\ keys (m_exprs m') = ["eff"; "sig"] /\
  (exists m I t, finish ex_env re_model = Ok (m, I) /\ tot_bin_exp m I [3] [] None = Ok t /\ t 0%nat = 24) /\
  finish ex_env m' = Err KeyError.
Proof.
  intros v. eexists. split; [reflexivity|]. split; [reflexivity|]. split; [reflexivity|]. split.
  - assert (X : exists it, set_internal_vars ex_env re_model = Ok it /\ i_channels it = m_channels re_model /\ exists t, tot_bin_exp re_model it [3] [] None = Ok t /\ t 0%nat = 24).
    { eexists. split; [unfold re_model, rp_model; ev; reflexivity|]. split; [reflexivity|]. eexists. split; [unfold re_model; ev; reflexivity|]. ev. replace (0 + 0)%R with 0%R by lra; rewrite exp_0. lra. }
    destruct X as (I & X & Xc & t & Xt & Xv). exists re_model, I, t. split; [unfold finish; rewrite X; cbn [bind]; rewrite Xc; reflexivity|]. auto.
  - unfold finish. ev. reflexivity.
Qed.
Print Assumptions C94_other_expressions_refuted.

(** example: a pattern removes every expression whose name begins with it *)
Definition re_prefix (p n : string) : bool := prefix p n.
Definition re_model2 : Model := rp_model [poi1 "mu" 1] [("eff1", ELinComb "eff1" 0 [("mu", 2)]); ("sig", ELinComb "sig" 0 [("mu", 1)]); ("eff2", ELinComb "eff2" 1 [("mu", 1)])] "sig".
Example C94_nonvacuous : exists I I2 m' t t2, finish ex_env re_model2 = Ok (re_model2, I) /\ names_ok re_model2 /\ stored_by_name (m_exprs re_model2) /\ tables_ok ex_env re_model2 (m_channels re_model2) /\
  remove_expressions re_prefix re_model2 ["eff"] [] = Ok m' /\ keys (m_exprs m') = ["sig"] /\ finish ex_env m' = Ok (m', I2) /\ i_nbins I = 1%nat /\
  tot_bin_exp re_model2 I [3] [] None = Ok t /\ tot_bin_exp m' I2 [3] [] None = Ok t2 /\
  remove_expressions re_prefix re_model2 ["nope"] [] = Err KeyError /\ remove_expressions re_prefix re_model2 ["sig"] [("sig", 1)] = Err NameError.
Proof.
  assert (X : exists it, set_internal_vars ex_env re_model2 = Ok it /\ i_channels it = m_channels re_model2 /\ i_nbins it = 1%nat /\ exists t, tot_bin_exp re_model2 it [3] [] None = Ok t).
  { eexists. split; [unfold re_model2, rp_model; ev; reflexivity|]. split; [reflexivity|]. split; [reflexivity|]. eexists. unfold re_model2; ev; reflexivity. }
  set (m' := rp_model [poi1 "mu" 1] [("sig", ELinComb "sig" 0 [("mu", 1)])] "sig").
  assert (Y : exists it, set_internal_vars ex_env m' = Ok it /\ i_channels it = m_channels m' /\ exists t, tot_bin_exp m' it [3] [] None = Ok t).
  { eexists. split; [unfold m', rp_model; ev; reflexivity|]. split; [reflexivity|]. eexists. ev. reflexivity. }
  destruct X as (I & X & Xc & Xn & t & Xt), Y as (I2 & Y & Yc & t2 & Yt). exists I, I2, m', t, t2.
  split; [unfold finish; rewrite X; cbn [bind]; rewrite Xc; reflexivity|]. split; [repeat constructor; cbn; intuition congruence|].
  split; [intros k e [E|[E|[E|[]]]]; inversion E; reflexivity|].
  split.
  { split; [|intros _; split].
    - intros k c ks sm [E|[]] Hs; inversion E; subst. destruct Hs as [E2|[]]; inversion E2; subst. split; [exists [4]; split; reflexivity|]. cbn. discriminate.
    - intros k c ks sm par _ _ [].
    - intros k c ks sm par _ _ []. }
  split; [reflexivity|]. split; [reflexivity|]. split; [unfold finish; rewrite Y; cbn [bind]; rewrite Yc; reflexivity|]. repeat split; auto.
Qed.
