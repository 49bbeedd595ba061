(** C59: removing POIs. *)
From Verif Require Import Py PyFacts Base Expressions ExprSpec ExprFacts ExprGrad ExprReplace Norms Sample SampleFacts Channels ChannelFacts Params ParamsFacts Core CoreFacts CoreSpec CoreCoefs CoreYields CoreExample ModelIO ModelIOFacts ModelTools ModelToolsFacts ReparamFacts.
Local Open Scope string_scope.
Local Open Scope list_scope.
Local Open Scope R_scope.

(** * Specification *)
(** the value of POI [n] in a list of values in the order of [names] *)
Definition value_of (names : list string) (ps : list R) (n : string) : R := match index n names with Some i => nth i ps 0 | None => 0 end.
(** POI [n] is designated by a list of names and patterns; rmatch is re.match *)
Definition designated (rmatch : string -> string -> bool) (specs : list string) (pois : list string) (n : string) : Prop :=
  exists sp, In sp specs /\ (sp = n \/ (~ In sp pois /\ rmatch (sp ++ "$")%string n = true)).
(** expressions are stored under their names *)
Definition stored_by_name (ex : dict expr) : Prop := forall k e, In (k, e) ex -> expr_name e = k.

Lemma by_name_keys ex : stored_by_name ex -> map expr_name (values ex) = keys ex.
Proof. intros H. unfold values, keys. rewrite map_map. apply map_ext_in. intros [k e] Hin. exact (H k e Hin). Qed.

(** * C59 *)

(** Exactly the designated POIs are removed; nothing else changes in the model but its expressions, and no sample was
    normalized to a removed POI or expression. *)
Theorem C59_removes_exactly_the_designated : forall fuel rmatch m specs vals m', names_ok m -> stored_by_name (m_exprs m) ->
  remove_pois fuel rmatch m specs vals = Ok m' ->
  m' = with_pois (with_exprs m (m_exprs m')) (m_pois m') /\ incl (keys (m_exprs m')) (keys (m_exprs m)) /\
  (forall n p, In (n, p) (m_pois m') <-> In (n, p) (m_pois m) /\ ~ designated rmatch specs (keys (m_pois m)) n) /\
  (forall k c n s x, In (k, c) (m_channels m) -> In (n, s) (ch_samples c) -> s_norm s = ExprNorm x ->
     In x (keys (m_pois m)) -> In x (keys (m_pois m'))) /\
  (forall k c n s x, In (k, c) (m_channels m) -> In (n, s) (ch_samples c) -> s_norm s = ExprNorm x ->
     In x (keys (m_exprs m)) -> In x (keys (m_exprs m'))).
Proof.
  intros fuel rmatch m specs vals m' HN HB H. pose proof (by_name_keys _ HB) as Hk. unfold names_ok in HN. rewrite Hk in HN.
  destruct (remove_pois_spec fuel rmatch m specs vals m' (NoDup_app_l _ _ HN) (NoDup_app_r _ _ (NoDup_app_r _ _ HN)) HB H) as (sel & Hsel & A & B & C & D & Ek & Ei & U & V & _).
  split; [exact A|]. split; [exact Ei|]. split; [|split].
  - intros n p. rewrite B, Hsel. unfold designated. split; intros (H1 & H2); (split; [exact H1|]).
    + intros Hd. apply H2. split; [unfold keys; apply in_map_iff; exists (n, p); auto|exact Hd].
    + intros (_ & Hd). contradiction.
  - intros k c n s x Hc Hs En Hx. destruct (in_dec string_dec x sel) as [Hi|Hi].
    + exfalso. refine (U x Hi _ k c n s Hc Hs En). destruct (dmem x (m_exprs m)) eqn:Ed; [|reflexivity]. apply dmem_spec in Ed.
      exfalso. apply (NoDup_app_disj _ _ x HN Hx). apply in_or_app. now right.
    + unfold keys in Hx. apply in_map_iff in Hx as ([x1 p] & <- & Hx). unfold keys. apply in_map_iff. exists (x1, p). split; [reflexivity|]. apply B. auto.
  - intros k c n s x Hc Hs En Hx. destruct (in_dec string_dec x (keys (m_exprs m'))) as [Hi|Hi]; [exact Hi|]. exfalso. exact (V x Hx Hi k c n s Hc Hs En).
Qed.
Print Assumptions C59_removes_exactly_the_designated.

(** When the call succeeds, the new model (once its internal variables are computed) predicts at any values of the
    remaining POIs the yields of the original model at the same values and with the removed POIs at their replacement
    values (at any value, for those without a replacement value). *)
Theorem C59_predictions : forall fuel rmatch E m0 m I specs vals m' m2 I2 ps ps2 ns t t2 b,
  finish E m0 = Ok (m, I) -> NoDup (keys (m_channels m)) -> names_ok m -> stored_by_name (m_exprs m) -> tables_ok E m (m_channels m) ->
  remove_pois fuel rmatch m specs vals = Ok m' -> finish E m' = Ok (m2, I2) ->
  length ps = length (m_pois m) -> length ps2 = length (m_pois m') ->
  (forall n, In n (keys (m_pois m')) -> value_of (keys (m_pois m')) ps2 n = value_of (keys (m_pois m)) ps n) ->
  (forall n v, In n (keys (m_pois m)) -> ~ In n (keys (m_pois m')) -> dget n vals = Some v -> value_of (keys (m_pois m)) ps n = v) ->
  tot_bin_exp m I ps ns None = Ok t -> tot_bin_exp m2 I2 ps2 ns None = Ok t2 ->
  (b < i_nbins I)%nat -> t2 b = t b.
Proof.
  intros fuel rmatch E m0 m I specs vals m' m2 I2 ps ps2 ns t t2 b HF Hd HN HB HT H HF2 HL HL2 Hv Hr Ht Ht2 Hb.
  pose proof (by_name_keys _ HB) as Hk. assert (HN0 := HN). unfold names_ok in HN0. rewrite Hk in HN0.
  destruct (remove_pois_spec fuel rmatch m specs vals m' (NoDup_app_l _ _ HN0) (NoDup_app_r _ _ (NoDup_app_r _ _ HN0)) HB H) as (sel & Hsel & A & B & C & D & Ek & Ei & _ & _ & Sat).
  pose proof (finish_object _ _ _ _ HF) as Ob. assert (Ob' := Ob). destruct Ob' as (HS & HC). pose proof (finish_object _ _ _ _ HF2) as (HS2 & HC2).
  unfold finish in HF2. apply bind_Ok in HF2 as (it & Hit & HF2). inversion HF2; subst m2 it; clear HF2.
  assert (Ech : m_channels m' = m_channels m) by (rewrite A; reflexivity). assert (Enp : m_nps m' = m_nps m) by (rewrite A; reflexivity).
  assert (Hfix : i_channels I2 = m_channels m).
  { rewrite <- Ech. apply (built_fixed E m' I2 (siv_built _ _ _ Hit)); [rewrite Ech; exact Hd|]. rewrite Enp, Ech. exact (object_done E m I Ob). }
  set (m2 := with_channels m' (i_channels I2)) in *.
  assert (Ip : incl (keys (m_pois m')) (keys (m_pois m))).
  { intros x Hx. unfold keys in *. apply in_map_iff in Hx as ([x1 p] & <- & Hx). apply B in Hx as (Hx & _). apply in_map_iff. exists (x1, p). auto. }
  assert (HN2 : names_ok m2).
  { unfold names_ok. cbn [m2 with_channels m_pois m_nps m_exprs]. rewrite (by_name_keys _ Ek), Enp. exact (NoDup_app3_incl _ _ _ _ _ HN0 C D Ip Ei). }
  pose proof (siv_built _ _ _ HS) as Bt. pose proof (siv_built _ _ _ HS2) as Bt2.
  (* values of the original model *)
  assert (Hn : exists n, n_exp m I ps ns = Ok n) by (unfold tot_bin_exp in Ht; apply bind_Ok in Ht as (n & Hn & _); eauto). destruct Hn as (n & Hn).
  assert (Hn2 : exists n2, n_exp m2 I2 ps2 ns = Ok n2) by (unfold tot_bin_exp in Ht2; apply bind_Ok in Ht2 as (n2 & Hn2 & _); eauto). destruct Hn2 as (n2 & Hn2).
  set (F := model_env m ps).
  destruct (base_dict m (i_pm I) ps (bt_pm _ _ _ Bt) (names_ok_base _ HN) HL) as (d & Hdd & Hdk & Hde).
  assert (Hrv : exists rv, real_vals (values (m_exprs m)) d = Ok rv).
  { unfold n_exp in Hn. apply bind_Ok in Hn as (rv & Hrv & _). unfold model_real_vals in Hrv. rewrite Hdd in Hrv. cbn [bind] in Hrv. eauto. }
  destruct Hrv as (rv & Hrv).
  assert (Hord : ordered (keys d) (values (m_exprs m))) by (apply (real_vals_ok _ _ _ Hrv); rewrite Hdk, <- app_assoc; exact HN).
  assert (Fbase : forall x, In x (keys d) -> F x = par_env m ps x) by (intros x Hx; exact (env_den_avail _ _ _ _ Hord Hx)).
  assert (Fsat : sat F (m_exprs m)).
  { intros k e He. apply dget_In in He. rewrite <- (HB k e He). apply (env_den_fix _ _ _ _ Hord). unfold values. apply in_map_iff. exists (k, e). auto. }
  assert (Fsel : forall x v, In x sel -> dget x vals = Some v -> F x = v).
  { intros x v Hx Hxv. apply Hsel in Hx as Hx'. destruct Hx' as (Hx1 & _). rewrite Fbase by (rewrite Hdk; apply in_or_app; now left).
    assert (Hnx : ~ In x (keys (m_pois m'))) by (intros X; unfold keys in X; apply in_map_iff in X as ([x1 p] & <- & X); apply B in X as (_ & X); contradiction).
    pose proof (Hr x v Hx1 Hnx Hxv) as R. unfold value_of in R. unfold par_env. destruct (index x (keys (m_pois m))) eqn:Ex; [exact R|]. apply index_None in Ex. contradiction. }
  pose proof (Sat F Fsel Fsat) as Fsat'.
  (* values of the new model *)
  assert (Hpm2 : pmodel_of m2 = Ok (i_pm I2)) by exact (bt_pm _ _ _ Bt2).
  destruct (base_dict m2 (i_pm I2) ps2 Hpm2 (names_ok_base _ HN2) HL2) as (d2 & Hd2 & Hd2k & Hd2e).
  assert (Ag2 : agrees d2 F).
  { intros x v Hx. assert (Hxk : In x (keys d2)) by (apply dmem_spec; unfold dmem; now rewrite Hx).
    assert (Ev : v = par_env m2 ps2 x) by (rewrite <- Hd2e; unfold env_of; now rewrite Hx). subst v. rewrite Hd2k in Hxk. cbn [m2 with_channels m_pois m_nps] in Hxk. rewrite Enp in Hxk.
    assert (Hxd : In x (keys d)) by (rewrite Hdk; apply in_or_app; apply in_app_or in Hxk as [Hxk|Hxk]; [left; now apply Ip|now right]). rewrite (Fbase x Hxd).
    unfold par_env. cbn [m2 with_channels m_pois m_nps]. rewrite Enp. destruct (index x (keys (m_pois m'))) as [j|] eqn:Ej.
    - assert (Hj : In x (keys (m_pois m'))) by (apply index_In; eauto). pose proof (Hv x Hj) as V. unfold value_of in V. rewrite Ej in V.
      destruct (index x (keys (m_pois m))) eqn:Ej2; [now symmetry|]. apply index_None in Ej2. exfalso. apply Ej2. now apply Ip.
    - apply index_None in Ej. apply in_app_or in Hxk as [Hxk|Hxk]; [contradiction|]. destruct (index x (keys (m_pois m))) eqn:Ej2; [|reflexivity].
      exfalso. apply (NoDup_app_disj _ _ x HN0 (proj1 (index_In _ _) (ex_intro _ _ Ej2))). apply in_or_app. now left. }
  assert (Norm : forall k c ks sm, In (k, c) (m_channels m) -> In (ks, sm) (ch_samples c) -> norm_den (s_norm sm) (model_env m2 ps2) = norm_den (s_norm sm) F).
  { intros k c ks sm Hkc Hsm. rewrite <- Hfix in Hkc. destruct (n_exp_norms E m2 I2 ps2 ns n2 k c ks sm Bt2 Hn2 Hkc Hsm) as (rv2 & y & Hrv2 & Hy).
    rewrite <- (norm_value_den _ _ _ _ (real_vals_spec m2 (i_pm I2) ps2 rv2 HN2 Hpm2 HL2 Hrv2) Hy).
    apply (norm_value_den _ rv2); [|exact Hy]. unfold model_real_vals in Hrv2. rewrite Hd2 in Hrv2. cbn [bind] in Hrv2.
    intros x v Hx. symmetry. revert x v Hx. apply (real_vals_agree F _ _ _ Hrv2 Ag2). intros e He. cbn [m2 with_channels m_exprs] in He. unfold values in He. apply in_map_iff in He as ([k1 e1] & <- & He). cbn [snd].
    rewrite (Ek k1 e1 He). apply Fsat'. apply In_dget; [exact D|exact He]. }
  (* bins *)
  rewrite (bt_nb _ _ _ Bt) in Hb. destruct (range_cover (i_channels I) 0 b) as (k & off & c & Ho & Hc & Hlt); [rewrite <- HC; exact Hd|lia|].
  assert (Hi : exists i, nth_error (i_channels I) i = Some (k, c)) by (apply In_nth_error; now apply dget_In). destruct Hi as (i & Hi).
  rewrite (off_at (i_channels I) i k c) in Ho; [|rewrite <- HC; exact Hd|exact Hi]. inversion Ho; subst off; clear Ho.
  replace b with (total_bins (firstn i (i_channels I)) + (b - total_bins (firstn i (i_channels I))))%nat by lia.
  rewrite HC in HT. rewrite (tot_bin_at E m I ps ns t i k c _ Bt HN HT HL Ht Hi) by lia.
  assert (Hi2 : nth_error (i_channels I2) i = Some (k, c)) by (rewrite Hfix, HC; exact Hi).
  assert (HT2 : tables_ok E m2 (i_channels I2)).
  { rewrite Hfix, HC. unfold tables_ok in *. cbn [m2 with_channels m_asym m_nps]. rewrite Enp. assert (Ea : m_asym m' = m_asym m) by (rewrite A; reflexivity). rewrite Ea. exact HT. }
  replace (total_bins (firstn i (i_channels I))) with (total_bins (firstn i (i_channels I2))) by (rewrite Hfix, HC; reflexivity).
  rewrite (tot_bin_at E m2 I2 ps2 ns t2 i k c _ Bt2 HN2 HT2 HL2 Ht2 Hi2) by (rewrite Hfix, HC; lia).
  replace (total_bins (firstn i (i_channels I2))) with (total_bins (firstn i (i_channels I))) by (rewrite Hfix, HC; reflexivity).
  f_equal. apply map_ext_in. intros sm Hsm. unfold values in Hsm. apply in_map_iff in Hsm as ([ks s] & <- & Hsm). cbn [snd].
  assert (Ef : np_factor E m2 s = np_factor E m s) by (unfold np_factor; cbn [m2 with_channels m_linear m_asym m_nps]; rewrite A; reflexivity).
  assert (Ecut : m_cutoff m2 = m_cutoff m) by (cbn [m2 with_channels m_cutoff]; rewrite A; reflexivity).
  rewrite Ef, Ecut. f_equal. unfold spec_yield. rewrite (Norm k c ks s); [reflexivity|rewrite HC; exact (nth_error_In _ _ Hi)|exact Hsm].
Qed.
Print Assumptions C59_predictions.

(** example: two POIs, a sample normalized to mu + 2 nu; nu is replaced by 3 *)
Definition poi1 (n : string) (v : R) : string * POI := (n, mkPOI (Some n) None None (Some v) None None).
Definition rp_model (pois : dict POI) (ex : dict expr) (norm_name : string) : Model :=
  mkModel "rp" None pois [] [] [("SR", mkChannel "SR" KSingle [("S", mkSample "S" (ExprNorm norm_name) (Some 1) (Some [4]) [])])] ex true false true false 0.
Definition rp0 := rp_model [poi1 "mu" 1; poi1 "nu" 0] [("sig", ELinComb "sig" 0 [("mu", 1); ("nu", 2)])] "sig".
Definition no_match (_ _ : string) : bool := false.
Example C59_nonvacuous : exists I I2 m', finish ex_env rp0 = Ok (rp0, I) /\ names_ok rp0 /\ stored_by_name (m_exprs rp0) /\ tables_ok ex_env rp0 (m_channels rp0) /\
  remove_pois 5 no_match rp0 ["nu"] [("nu", 3)] = Ok m' /\ m' = rp_model [poi1 "mu" 1] [("sig", ELinComb "sig" (0 + 2 * 3) [("mu", 1)])] "sig" /\
  finish ex_env m' = Ok (m', I2) /\
  forall mu, exists t t2, tot_bin_exp rp0 I [mu; 3] [] None = Ok t /\ tot_bin_exp m' I2 [mu] [] None = Ok t2.
Proof.
  assert (X : exists it, set_internal_vars ex_env rp0 = Ok it /\ i_channels it = m_channels rp0 /\ forall mu, exists t, tot_bin_exp rp0 it [mu; 3] [] None = Ok t).
  { eexists. split; [unfold rp0, rp_model; ev; reflexivity|]. split; [reflexivity|]. intros mu. eexists. unfold rp0. ev. reflexivity. }
  set (m' := rp_model [poi1 "mu" 1] [("sig", ELinComb "sig" (0 + 2 * 3) [("mu", 1)])] "sig").
  assert (Y : exists it, set_internal_vars ex_env m' = Ok it /\ i_channels it = m_channels m' /\ forall mu, exists t, tot_bin_exp m' it [mu] [] None = Ok t).
  { eexists. split; [unfold m', rp_model; ev; reflexivity|]. split; [reflexivity|]. intros mu. eexists. ev. reflexivity. }
  destruct X as (I & X & Xc & Xt), Y as (I2 & Y & Yc & Yt). exists I, I2, m'.
  split; [unfold finish; rewrite X; cbn [bind]; rewrite Xc; reflexivity|]. split; [repeat constructor; cbn; intuition congruence|].
  split; [intros k e [E|[]]; inversion E; reflexivity|].
  split.
  { split; [|intros _; split].
    - intros k c ks sm [E|[]] Hs; inversion E; subst. destruct Hs as [E2|[]]; inversion E2; subst. split; [exists [4]; split; reflexivity|]. cbn. discriminate.
    - intros k c ks sm par _ _ [].
    - intros k c ks sm par _ _ []. }
  split; [reflexivity|]. split; [reflexivity|]. split; [unfold finish; rewrite Y; cbn [bind]; rewrite Yc; reflexivity|].
  intros mu. destruct (Xt mu) as (t & Ht), (Yt mu) as (t2 & Ht2). eauto.
Qed.

(** C59: a POI that normalizes a sample directly cannot be replaced by a value: NameError (and KeyError without one) *)
Theorem C59_direct_norm_refuted : forall fuel rmatch m name vals k c n s,
  In name (keys (m_pois m)) -> ~ In name (keys (m_exprs m)) -> In (k, c) (m_channels m) -> In (n, s) (ch_samples c) -> s_norm s = ExprNorm name ->
  remove_pois fuel rmatch m [name] vals = Err (if dmem name vals then NameError else KeyError).
Proof.
  intros fuel rmatch m name vals k c n s Hp He Hc Hs En. unfold remove_pois, select_names. cbn [mapM].
  assert (E0 : existsb (String.eqb name) (keys (m_pois m)) = true) by (apply existsb_exists; exists name; split; [exact Hp|apply String.eqb_refl]).
  rewrite E0. cbn [bind concat app foldM].
  assert (E1 : dmem name (m_exprs m) = false) by (destruct (dmem name (m_exprs m)) eqn:E1; [apply dmem_spec in E1; contradiction|reflexivity]). rewrite E1.
  unfold remove_from_norms.
  assert (E2 : existsb (fun kc : string * Channel => existsb (fun ks : string * Sample => match s_norm (snd ks) with ExprNorm e => String.eqb e name | _ => false end) (ch_samples (snd kc))) (m_channels m) = true).
  { apply existsb_exists. exists (k, c). split; [exact Hc|]. apply existsb_exists. exists (n, s). split; [exact Hs|]. cbn [snd]. rewrite En. apply String.eqb_refl. }
  rewrite E2. destruct (dmem name vals); reflexivity.
Qed.
Print Assumptions C59_direct_norm_refuted.

(** C59: the same happens when the normalization is an expression that becomes a number *)
Theorem C59_constant_expression_refuted : forall v,
  remove_pois 5 no_match (rp_model [poi1 "mu" 1; poi1 "nu" 0] [("sig", ELinComb "sig" 0 [("mu", 1)])] "sig") ["mu"] [("mu", v)] = Err NameError.
Proof. reflexivity. Qed.
Print Assumptions C59_constant_expression_refuted.

(** C59: two POIs cannot be removed together when an expression becomes a number after the first of them, although
    they can be removed one after the other *)
Theorem C59_two_pois_refuted : forall v w, let m := rp_model [poi1 "mu" 1; poi1 "nu" 0; poi1 "xi" 0] [("sig", ELinComb "sig" 0 [("mu", 1)])] "xi" in
  remove_pois 5 no_match m ["mu"; "nu"] [("mu", v); ("nu", w)] = Err KeyError /\
  exists m1, remove_pois 5 no_match m ["mu"] [("mu", v)] = Ok m1 /\ remove_pois 5 no_match m1 ["nu"] [("nu", w)] = Ok (rp_model [poi1 "xi" 0] [] "xi").
Proof. intros v w m. split; [reflexivity|]. eexists. split; reflexivity. Qed.
Print Assumptions C59_two_pois_refuted.

(** C59: a POI that enters a product cannot be removed: TypeError *)
Theorem C59_product_refuted : forall v,
  remove_pois 5 no_match (rp_model [poi1 "mu" 1; poi1 "nu" 0] [("sig", EProdRatio "sig" 1 ["mu"; "nu"] [])] "sig") ["mu"] [("mu", v)] = Err TypeError.
Proof. reflexivity. Qed.
Print Assumptions C59_product_refuted.
