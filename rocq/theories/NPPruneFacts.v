(** Facts about NPPruner, used for C56. *)
From Verif Require Import Py PyFacts Base Expressions ExprSpec ExprFacts Norms RSort Sample SampleFacts Channels ChannelFacts Params ParamsFacts Core CoreFacts CoreSpec CoreCoefs CoreYields ModelIO ModelIOFacts ModelTools ModelToolsFacts ReparamFacts.
Local Open Scope string_scope.
Local Open Scope list_scope.
Local Open Scope R_scope.

(** the value of parameter [n] in a list of values in the order of [names] *)
Definition np_at (names : list string) (ns : list R) (n : string) : R := match index n names with Some i => nth i ns 0 | None => 0 end.

(** * sums over parameters *)
Lemma np_at_cons names x ns n a : n <> a -> np_at (a :: names) (x :: ns) n = np_at names ns n.
Proof.
  intros H. unfold np_at. cbn [index]. assert (String.eqb n a = false) as -> by (now apply String.eqb_neq). destruct (index n names); reflexivity.
Qed.
Lemma np_at_nth names ns p : NoDup names -> (p < length names)%nat -> np_at names ns (nth p names "") = nth p ns 0.
Proof. intros HN Hp. unfold np_at. rewrite (nth_index names p); [reflexivity|exact HN|now apply nth_error_nth']. Qed.
Lemma lsum_map_nth {A} (l : list A) (f : A -> R) d : rsum (length l) (fun p => f (nth p l d)) = lsum (map f l).
Proof.
  induction l as [|a l IH]; [reflexivity|]. cbn [length map lsum]. rewrite rsum_shift. cbn [nth]. rewrite IH. reflexivity.
Qed.
Lemma rsum_by_name names (g : string -> R -> R) ns : NoDup names ->
  rsum (length names) (fun p => g (nth p names "") (nth p ns 0)) = lsum (map (fun n => g n (np_at names ns n)) names).
Proof.
  intros HN. rewrite <- (lsum_map_nth names (fun n => g n (np_at names ns n)) ""). apply rsum_ext. intros p Hp. now rewrite np_at_nth.
Qed.
Lemma lsum_split {A} (f : A -> bool) (h : A -> R) l : lsum (map h l) = lsum (map h (filter f l)) + lsum (map h (filter (fun x => negb (f x)) l)).
Proof. induction l as [|x l IH]; cbn [filter map lsum]; [ring|]. destruct (f x); cbn [negb map lsum]; rewrite IH; ring. Qed.
Lemma lsum_ext_in {A} (h h' : A -> R) l : (forall x, In x l -> h x = h' x) -> lsum (map h l) = lsum (map h' l).
Proof. intros H. f_equal. now apply map_ext_in. Qed.
Lemma lsum_zero {A} (h : A -> R) l : (forall x, In x l -> h x = 0) -> lsum (map h l) = 0.
Proof. induction l as [|x l IH]; intros H; cbn [map lsum]; [reflexivity|]. rewrite H by now left. rewrite IH by (intros; apply H; now right). ring. Qed.

(** * effect of a NP on a sample *)
Definition effect (E : Env) (m : Model) (s : Sample) (b : nat) (n : string) (x : R) : R :=
  if m_asym m then np_effect E (negb (m_linear m)) s n b x else sym_effect E (m_linear m) s n b x.
Lemma effect_0 E m s b n : effect E m s b n 0 = 0.
Proof.
  unfold effect, np_effect, sym_effect. destruct (m_asym m).
  - destruct (impact_coefficients _ _ _ s n _) as [[pc nc]|]; [|reflexivity]. destruct (Rltb 0 0); apply poly_0.
  - destruct (sym_impact (e_fmt E) s n) as [[im|]|]; try reflexivity. destruct (m_linear m); ring.
Qed.
Lemma np_factor_by_name E m s b ns : NoDup (keys (m_nps m)) ->
  np_factor E m s b ns = factor (m_linear m) (lsum (map (fun n => effect E m s b n (np_at (keys (m_nps m)) ns n)) (keys (m_nps m)))).
Proof.
  intros HN. unfold np_factor. f_equal. rewrite <- (rsum_by_name (keys (m_nps m)) (effect E m s b) ns HN). unfold keys at 3. rewrite map_length. reflexivity.
Qed.
(** the effect only depends on the impacts of the NP and on the number of bins *)
Lemma impact_ext fmt s s' par v : dget par (s_impacts s') = dget par (s_impacts s) -> nyields s' = nyields s -> impact fmt s' par v = impact fmt s par v.
Proof. intros H1 H2. unfold impact. rewrite H1, H2. reflexivity. Qed.
Lemma mapM_ext' {A B} (f g : A -> res B) l : (forall x, f x = g x) -> mapM f l = mapM g l.
Proof. intros H. induction l as [|x l IH]; cbn [mapM]; [reflexivity|]. now rewrite H, IH. Qed.
Lemma coefficients_ext fo fmt inv s s' par lg : dget par (s_impacts s') = dget par (s_impacts s) -> nyields s' = nyields s ->
  impact_coefficients fo fmt inv s' par lg = impact_coefficients fo fmt inv s par lg.
Proof.
  intros H1 H2. unfold impact_coefficients. assert (Ea : available_variations fo s' par = available_variations fo s par) by (unfold available_variations; now rewrite H1).
  rewrite Ea. destruct (available_variations fo s par) as [av|]; cbn [bind]; [|reflexivity].
  rewrite (mapM_ext' _ (fun v => let! r := impact fmt s par v in match r with Some l => Ok l | None => Err TypeError end)) by (intros v; now rewrite (impact_ext fmt s s' par v H1 H2)).
  destruct (mapM _ (rsort (filter (fun v => Rltb 0 v) av))); cbn [bind]; [|reflexivity].
  rewrite (mapM_ext' _ (fun v => let! r := impact fmt s par v in match r with Some l => Ok l | None => Err TypeError end)) by (intros v; now rewrite (impact_ext fmt s s' par v H1 H2)).
  reflexivity.
Qed.
Lemma effect_ext E m m' s s' b n x : m_asym m' = m_asym m -> m_linear m' = m_linear m ->
  dget n (s_impacts s') = dget n (s_impacts s) -> nyields s' = nyields s -> effect E m' s' b n x = effect E m s b n x.
Proof.
  intros E1 E2 H1 H2. unfold effect, np_effect, sym_effect, sym_impact. rewrite E1, E2, (coefficients_ext _ _ _ s s' n _ H1 H2), !(impact_ext _ s s' n _ H1 H2). reflexivity.
Qed.

(** * the change made to the samples *)
Definition memb (l : list string) (n : string) : bool := existsb (String.eqb n) l.
Lemma memb_spec l n : memb l n = true <-> In n l.
Proof. unfold memb. rewrite existsb_exists. split; [intros (x & Hx & Ex); apply String.eqb_eq in Ex; now subst|intros Hx; exists n; split; [exact Hx|apply String.eqb_refl]]. Qed.
Lemma memb_false l n : memb l n = false <-> ~ In n l.
Proof. rewrite <- memb_spec. destruct (memb l n); split; congruence. Qed.

(** same sample but for the impacts of the NPs in sel *)
Definition pre (sel : list string) (s s' : Sample) : Prop :=
  s_name s' = s_name s /\ s_norm s' = s_norm s /\ s_nominal_norm s' = s_nominal_norm s /\ s_yields s' = s_yields s /\
  forall n, ~ In n sel -> dget n (s_impacts s') = dget n (s_impacts s).
Definition norm_without (sel : list string) (s : Sample) : norm :=
  match s_norm s with
  | ExprNorm e => if memb sel e then NumberNorm (s_nominal_norm s) else s_norm s
  | NumberNorm _ => s_norm s
  end.
Definition dropped (sel : list string) (s s' : Sample) : Prop :=
  s_name s' = s_name s /\ s_norm s' = norm_without sel s /\ s_nominal_norm s' = s_nominal_norm s /\ s_yields s' = s_yields s /\
  forall n, ~ In n sel -> dget n (s_impacts s') = dget n (s_impacts s).
Definition drop_all (sel : list string) (s : Sample) : Sample := fold_left (fun s n => drop_np n s) sel s.
Lemma drop_all_spec sel : forall s, dropped sel s (drop_all sel s).
Proof.
  unfold drop_all. induction sel as [|n sel IH]; intros s; cbn [fold_left].
  - unfold dropped, norm_without. cbn [memb existsb]. destruct (s_norm s); repeat split; auto.
  - destruct (IH (drop_np n s)) as (A & B & C & D & F).
    assert (G : s_name (drop_np n s) = s_name s /\ s_nominal_norm (drop_np n s) = s_nominal_norm s /\ s_yields (drop_np n s) = s_yields s /\
       forall x, x <> n -> dget x (s_impacts (drop_np n s)) = dget x (s_impacts s)).
    { unfold drop_np. assert (Hr : forall x, x <> n -> dget x (dremove n (s_impacts s)) = dget x (s_impacts s)) by (intros x Hx; now apply dget_dremove_neq).
      destruct (s_norm s) as [v|e]; [|destruct (String.eqb e n)]; cbn; repeat split; auto. }
    destruct G as (G1 & G2 & G3 & G4). split; [congruence|]. split; [|split; [congruence|split; [congruence|]]].
    + rewrite B. unfold norm_without. rewrite G2. unfold drop_np. destruct (s_norm s) as [v|e] eqn:En; [cbn; now rewrite En|].
      cbn [memb existsb]. destruct (String.eqb e n) eqn:Ee; cbn [with_norm with_impacts s_norm]; [reflexivity|]. rewrite En. cbn [orb]. reflexivity.
    + intros x Hx. rewrite F by (intros X; apply Hx; now right). apply G4. intros ->. apply Hx. now left.
Qed.
Lemma pre_dropped sel s s1 s2 : pre sel s s1 -> dropped sel s1 s2 -> dropped sel s s2.
Proof.
  intros (A & B & C & D & F) (A2 & B2 & C2 & D2 & F2). unfold dropped. split; [congruence|]. split; [|split; [congruence|split; [congruence|]]].
  - rewrite B2. unfold norm_without. now rewrite B, C.
  - intros n Hn. rewrite F2 by exact Hn. now apply F.
Qed.
Lemma on_samples_compose f g chs : on_samples g (on_samples f chs) = on_samples (fun s => g (f s)) chs.
Proof.
  unfold on_samples. rewrite map_map. apply map_ext. intros [k c]. cbn [fst snd]. f_equal. unfold with_samples. cbn. f_equal. rewrite map_map. reflexivity.
Qed.
Lemma on_samples_id chs : on_samples (fun s => s) chs = chs.
Proof.
  unfold on_samples. rewrite <- (map_id chs) at 2. apply map_ext. intros [k c]. cbn [fst snd]. f_equal. destruct c; unfold with_samples; cbn. f_equal.
  rewrite <- (map_id ch_samples) at 2. apply map_ext. now intros [].
Qed.
Lemma fold_drop sel : forall chs, fold_left (fun chs n => on_samples (drop_np n) chs) sel chs = on_samples (drop_all sel) chs.
Proof.
  unfold drop_all. induction sel as [|n sel IH]; intros chs; cbn [fold_left]; [now rewrite on_samples_id|]. rewrite IH, on_samples_compose. reflexivity.
Qed.

(** relation between channels *)
Definition chans (P : Sample -> Sample -> Prop) (l r : dict Channel) : Prop :=
  Forall2 (fun kc kc' => fst kc' = fst kc /\ ch_name (snd kc') = ch_name (snd kc) /\ ch_kind (snd kc') = ch_kind (snd kc) /\
    Forall2 (fun ks ks' => fst ks' = fst ks /\ P (snd ks) (snd ks')) (ch_samples (snd kc)) (ch_samples (snd kc'))) l r.
Lemma Forall2_trans' {A B C} (P : A -> B -> Prop) (Q : B -> C -> Prop) (S : A -> C -> Prop) l m r :
  (forall a b c, P a b -> Q b c -> S a c) -> Forall2 P l m -> Forall2 Q m r -> Forall2 S l r.
Proof. intros H F. revert r. induction F as [|a b l m H1 F IH]; intros r G; inversion G; subst; constructor; eauto. Qed.
Lemma chans_trans (P Q S : Sample -> Sample -> Prop) l m r : (forall a b c, P a b -> Q b c -> S a c) -> chans P l m -> chans Q m r -> chans S l r.
Proof.
  intros H. apply Forall2_trans'. intros [k1 c1] [k2 c2] [k3 c3] (A1 & A2 & A3 & A4) (B1 & B2 & B3 & B4). cbn [fst snd] in *.
  repeat split; try congruence. eapply Forall2_trans'; [|exact A4|exact B4]. cbn. intros a b c (X & Y) (X' & Y'). split; [congruence|eauto].
Qed.
Lemma chans_on f (P : Sample -> Sample -> Prop) l : (forall s, P s (f s)) -> chans P l (on_samples f l).
Proof.
  intros H. unfold chans, on_samples. induction l as [|[k c] l IH]; cbn [map]; [constructor|]. constructor; [|exact IH]. cbn [fst snd with_samples ch_name ch_kind ch_samples]. split; [reflexivity|]. split; [reflexivity|]. split; [reflexivity|].
  induction (ch_samples c) as [|[n s] ss IHs]; cbn [map]; [constructor|]. constructor; [split; [reflexivity|apply H]|exact IHs].
Qed.
Lemma chans_keys P l r : chans P l r -> keys r = keys l.
Proof. induction 1 as [|a b l r (H & _) F IH]; [reflexivity|]. unfold keys in *. cbn [map]. now rewrite H, IH. Qed.
Lemma chans_total P l r i : chans P l r -> total_bins (firstn i r) = total_bins (firstn i l).
Proof.
  intros H. apply total_bins_kind. revert i. induction H as [|a b l r (_ & _ & H & _) F IH]; intros [|i]; cbn; constructor; auto.
Qed.
Lemma chans_nth P l r i k c : chans P l r -> nth_error l i = Some (k, c) -> exists c', nth_error r i = Some (k, c') /\ ch_name c' = ch_name c /\ ch_kind c' = ch_kind c /\
  Forall2 (fun ks ks' => fst ks' = fst ks /\ P (snd ks) (snd ks')) (ch_samples c) (ch_samples c').
Proof.
  intros H. revert i. induction H as [|[k0 c0] [k1 c1] l r (H1 & H2 & H3 & H4) F IH]; intros [|i] Hi; cbn in *; try discriminate; eauto.
  inversion Hi; subst. eauto 6.
Qed.
Lemma Forall2_nth {A B} (P : A -> B -> Prop) l r i a : Forall2 P l r -> nth_error l i = Some a -> exists b, nth_error r i = Some b /\ P a b.
Proof. intros H. revert i. induction H as [|x y l r H1 F IH]; intros [|i] Hi; cbn in *; try discriminate; eauto. inversion Hi; subst; eauto. Qed.
Lemma Forall2_nth_r {A B} (P : A -> B -> Prop) l r i b : Forall2 P l r -> nth_error r i = Some b -> exists a, nth_error l i = Some a /\ P a b.
Proof. intros H. revert i. induction H as [|x y l r H1 F IH]; intros [|i] Hi; cbn in *; try discriminate; eauto. inversion Hi; subst; eauto. Qed.

(** * parameter values at which the NPs are removed *)
Lemma set_nth_nth {A} i (x : A) l j d : nth j (set_nth i x l) d = if (j =? i)%nat && (i <? length l)%nat then x else nth j l d.
Proof.
  revert i j; induction l as [|y l IH]; intros [|i] [|j]; cbn [set_nth nth length]; auto.
  - cbn. now rewrite andb_false_r.
  - rewrite IH. reflexivity.
Qed.
Lemma removal_loop (m : Model) (pm : PModel) (val : string -> NP -> res R) : NoDup (pm_pois pm ++ np_names pm) ->
  forall sel p q, wf p pm -> (forall n, In n sel -> In n (np_names pm)) ->
  foldM (fun p n => let! np := dgetE n (m_nps m) in let! v := val n np in pars_set p n v false) sel p = Ok q ->
  wf q pm /\ pois q = pois p /\
  (forall n, ~ In n sel -> np_at (np_names pm) (nps q) n = np_at (np_names pm) (nps p) n) /\
  (forall n np v, In n sel -> dget n (m_nps m) = Some np -> val n np = Ok v -> np_at (np_names pm) (nps q) n = v).
Proof.
  intros HN. induction sel as [|a sel IH]; intros p q Wf Hin H; cbn [foldM] in H.
  - inversion H; subst. split; [exact Wf|]. split; [reflexivity|]. split; [reflexivity|]. intros n np v [].
  - apply bind_Ok in H as (p1 & H1 & H). apply bind_Ok in H1 as (np & Hnp & H1). apply bind_Ok in H1 as (v & Hv & H1).
    assert (Ha : In a (np_names pm)) by (apply Hin; now left).
    destruct (proj2 (index_In a (np_names pm)) Ha) as (i & Hi).
    assert (Hp : index a (pm_pois pm) = None).
    { apply index_None. intros X. apply (NoDup_app_disj _ _ a HN X Ha). }
    assert (Wf0 := Wf). destruct Wf as (W1 & W2 & W3).
    unfold pars_set in H1. rewrite W1, Hp, Hi in H1. destruct (nth i (pm_nps pm) ("", 0, 0)) as [[x y] z]. cbn [bind] in H1.
    apply bind_Ok in H1 as (l & Hl & H1). unfold lset in Hl. destruct (i <? length (nps p))%nat eqn:Elt; [|discriminate]. inversion Hl; subst l; clear Hl.
    inversion H1; subst p1; clear H1.
    assert (Wf1 : wf (mkPars (pois p) (set_nth i v (nps p)) (Some pm)) pm) by (repeat split; cbn; auto; now rewrite set_nth_length).
    destruct (IH _ _ Wf1 ltac:(intros; apply Hin; now right) H) as (A & B & C & D). split; [exact A|]. split; [exact B|].
    assert (Hat : forall n, np_at (np_names pm) (set_nth i v (nps p)) n = if String.eqb n a then v else np_at (np_names pm) (nps p) n).
    { intros n. unfold np_at. destruct (String.eqb n a) eqn:En.
      - apply String.eqb_eq in En. subst n. rewrite Hi, set_nth_nth, Nat.eqb_refl, Elt. reflexivity.
      - apply String.eqb_neq in En. destruct (index n (np_names pm)) as [j|] eqn:Ej; [|reflexivity]. rewrite set_nth_nth.
        destruct (j =? i)%nat eqn:Eji; [|reflexivity]. apply Nat.eqb_eq in Eji. subst j. apply index_nth in Ej. apply index_nth in Hi. congruence. }
    split.
    + intros n Hn. rewrite C by (intros X; apply Hn; now right). cbn [nps]. rewrite Hat. destruct (String.eqb n a) eqn:En; [|reflexivity].
      apply String.eqb_eq in En. subst. exfalso. apply Hn. now left.
    + intros n np' v' Hn Hg Hv'. destruct (in_dec string_dec n sel) as [Hs|Hs]; [eapply D; eauto|]. destruct Hn as [->|Hn]; [|contradiction].
      rewrite C by exact Hs. cbn [nps]. rewrite Hat, String.eqb_refl. unfold dgetE in Hnp. rewrite Hg in Hnp. congruence.
Qed.

(** * removal of the NPs from the list *)
Lemma pop_loop sel : forall d a d' a', foldM pop_np sel (d, a) = Ok (d', a') -> NoDup (keys d) ->
  NoDup sel /\ (forall n, In n sel -> In n (keys d)) /\ d' = filter (fun kp => negb (memb sel (fst kp))) d.
Proof.
  induction sel as [|n sel IH]; intros d a d' a' H HN; cbn [foldM] in H.
  - inversion H; subst. split; [constructor|]. split; [intros n []|]. symmetry. apply filter_all. reflexivity.
  - apply bind_Ok in H as ([d1 a1] & H1 & H). unfold pop_np in H1. cbn [fst snd] in H1. destruct (dget n d) as [p|] eqn:En; [|discriminate].
    apply bind_Ok in H1 as (aux & _ & H1). inversion H1; subst d1 a1; clear H1.
    destruct (IH _ _ _ _ H (NoDup_keys_dremove _ _ HN)) as (A & B & C).
    assert (Hin : In n (keys d)) by (apply dmem_spec; unfold dmem; now rewrite En).
    assert (Hnot : ~ In n (keys (dremove n d))) by (apply dget_None; now apply dget_dremove_eq).
    split; [constructor; [intros X; apply B in X; contradiction|exact A]|]. split.
    { intros x [<-|Hx]; [exact Hin|]. apply B in Hx. unfold keys in *. apply in_map_iff in Hx as (y & <- & Hy). apply in_map. now apply (dremove_incl n). }
    subst d'. clear - HN. induction d as [|[k v] d IHd]; [reflexivity|]. cbn [dremove]. inversion HN; subst. destruct (String.eqb n k) eqn:E.
    + apply String.eqb_eq in E. subst k. cbn [filter fst memb existsb]. rewrite String.eqb_refl. cbn [orb negb]. apply filter_ext_in.
      intros [x w] Hx. cbn [fst memb existsb]. assert (String.eqb x n = false) as ->; [|reflexivity]. apply String.eqb_neq. intros ->. apply H1. unfold keys. apply in_map_iff. exists (n, w). auto.
    + cbn [filter fst memb existsb]. rewrite String.eqb_sym, E. cbn [orb]. unfold memb in *. destruct (existsb (String.eqb k) sel); cbn [negb]; [apply IHd, H2|f_equal; apply IHd, H2].
Qed.

(** the expected yields only need the sizes of the nominal yields *)
Definition yields_fit (chs : dict Channel) : Prop :=
  forall k c ks sm, In (k, c) chs -> In (ks, sm) (ch_samples c) -> exists y, s_yields sm = Some y /\ length y = nbins c.
Lemma nominal_row_at_y m I ps rv s row i k c b : names_ok m -> pmodel_of m = Ok (i_pm I) -> length ps = length (m_pois m) ->
  model_real_vals m (i_pm I) ps = Ok rv -> yields_fit (i_channels I) -> nominal_row I rv s = Ok row ->
  nth_error (i_channels I) i = Some (k, c) -> (b < nbins c)%nat ->
  nth (total_bins (firstn i (i_channels I)) + b) row 0 = match sample_at c s with Some sm => spec_yield m ps sm b | None => 0 end.
Proof.
  intros HN Hpm HL Hrv HFit H Hi Hb. unfold nominal_row in H. apply bind_Ok in H as (bl & Hbl & H). inversion H; subst row; clear H.
  apply mapM_Forall2 in Hbl.
  assert (HF : Forall2 (fun kc (r : list R) => length r = nbins (snd kc)) (i_channels I) bl).
  { eapply Forall2_impl_in; [|exact Hbl]. intros [k' c'] r Hin Hr. cbn [snd] in *. destruct (sample_at c' s) as [sm|] eqn:Es.
    - destruct (sample_at_In _ _ _ Es) as (ks & Hks). destruct (HFit k' c' ks sm Hin Hks) as (y & Hy & Ly).
      destruct (sample_yields_spec m (i_pm I) ps rv sm r HN Hpm HL Hrv Hr) as (A & _). rewrite (A y Hy). exact Ly.
    - inversion Hr; subst. apply repeat_length. }
  assert (Hx : exists x, nth_error bl i = Some x /\ match sample_at c s with Some sm => sample_yields sm rv | None => Ok (repeat 0 (nbins c)) end = Ok x).
  { clear - Hbl Hi. revert i Hi. induction Hbl as [|a t l r Ha Hr IH]; intros [|i] Hi; cbn in *; try discriminate; eauto. inversion Hi; subst. cbn in Ha. eauto. }
  destruct Hx as (x & Hx & Hx2). rewrite (nth_concat_block _ _ 0 i k c x b HF Hi Hx Hb).
  destruct (sample_at c s) as [sm|] eqn:Es.
  - destruct (sample_at_In _ _ _ Es) as (ks & Hks). destruct (HFit k c ks sm (nth_error_In _ _ Hi) Hks) as (y & Hy & Ly).
    destruct (sample_yields_spec m (i_pm I) ps rv sm x HN Hpm HL Hrv Hx2) as (A & B). apply B. rewrite (A y Hy). lia.
  - inversion Hx2; subst. apply nth_repeat.
Qed.

Lemma n_exp_at_y m I ps ns n i k c s b : names_ok m -> pmodel_of m = Ok (i_pm I) -> length ps = length (m_pois m) ->
  yields_fit (i_channels I) -> n_exp m I ps ns = Ok n -> nth_error (i_channels I) i = Some (k, c) -> (b < nbins c)%nat -> (s < i_nsamples I)%nat ->
  exists K, k_exp m I ns = Ok K /\
  n s (total_bins (firstn i (i_channels I)) + b)%nat =
    match sample_at c s with Some sm => spec_yield m ps sm b | None => 0 end * cut (m_cutoff m) (K s (total_bins (firstn i (i_channels I)) + b)%nat).
Proof.
  intros HN Hpm HL HFit H Hi Hb Hs. unfold n_exp in H. apply bind_Ok in H as (rv & Hrv & H). apply bind_Ok in H as (rows & Hrows & H).
  destruct (i_nsamples I =? 0)%nat; [discriminate|]. destruct (negb _); [discriminate|]. apply bind_Ok in H as (ck & Hck & H). inversion H; subst n; clear H.
  unfold cut_k_exp in Hck. apply bind_Ok in Hck as (K & HK & Hck). inversion Hck; subst ck; clear Hck. exists K. split; [exact HK|]. f_equal.
  pose proof (mapM_nth _ _ _ s 0%nat ([] : list R) Hrows) as Hrow. rewrite seq_length in Hrow. specialize (Hrow Hs). rewrite seq_nth in Hrow by exact Hs. cbn [Nat.add] in Hrow.
  apply (nominal_row_at_y m I ps rv s _ i k c b HN Hpm HL Hrv HFit Hrow Hi Hb).
Qed.

Lemma Forall2_of_nth {A B} (P : A -> B -> Prop) l r : length l = length r -> (forall i a b, nth_error l i = Some a -> nth_error r i = Some b -> P a b) -> Forall2 P l r.
Proof.
  revert r; induction l as [|x l IH]; intros [|y r] HL H; cbn in HL; try discriminate; constructor; [apply (H 0%nat); reflexivity|]. apply IH; [lia|]. intros i a b Ha Hb. now apply (H (S i)).
Qed.
Lemma Forall2_keys {V W} (P : string * V -> string * W -> Prop) l r : (forall a b, P a b -> fst b = fst a) -> Forall2 P l r -> keys r = keys l.
Proof. intros H. induction 1 as [|a b l r H1 F IH]; [reflexivity|]. unfold keys in *. cbn [map]. now rewrite (H a b H1), IH. Qed.
(** channels and samples are stored under their names *)
Definition stored (chs : dict Channel) : Prop :=
  forall k c, In (k, c) chs -> ch_name c = k /\ NoDup (keys (ch_samples c)) /\ forall n s, In (n, s) (ch_samples c) -> s_name s = n.

(** what a sample becomes: the yields at the removal values, and the corresponding normalization *)
Definition absorbed (E : Env) (m : Model) (ref ns : list R) (sel : list string) (nb : nat) (s s' : Sample) : Prop :=
  exists s1, dropped sel s s1 /\ s_name s' = s_name s /\ s_norm s' = s_norm s1 /\ s_impacts s' = s_impacts s1 /\
    s_nominal_norm s' = Some (norm_den (s_norm s1) (model_env m ref)) /\
    exists y, s_yields s' = Some y /\ length y = nb /\ forall b, (b < nb)%nat -> nth b y 0 = spec_yield m ref s1 b * cut (m_cutoff m) (np_factor E m s b ns).
Lemma sample_at_chans (P : Sample -> Sample -> Prop) (c c' : Channel) s sm :
  Forall2 (fun ks ks' => fst ks' = fst ks /\ P (snd ks) (snd ks')) (ch_samples c) (ch_samples c') -> sample_at c' s = Some sm ->
  exists s0, sample_at c s = Some s0 /\ P s0 sm.
Proof.
  intros HF H. unfold sample_at, values in *. rewrite nth_error_map in H. destruct (nth_error (ch_samples c') s) as [[n x]|] eqn:En; [|discriminate]. inversion H; subst x.
  destruct (Forall2_nth_r _ _ _ _ _ HF En) as ([n0 s0] & E0 & E1 & E2). cbn [fst snd] in *. exists s0. rewrite nth_error_map, E0. auto.
Qed.

Lemma remove_core E m I chsA rmatch pv m' I' sel :
  object E m I -> NoDup (keys (m_channels m)) -> names_ok m -> stored (m_channels m) -> tables_ok E m (m_channels m) ->
  select_names rmatch "$" (keys (m_nps m)) (keys pv) = Ok sel -> chans (pre sel) (m_channels m) chsA ->
  remove_nps E rmatch (with_channels m chsA, with_ichannels I chsA) pv = Ok (m', I') ->
  NoDup sel /\ exists ns aux, (forall n p v, In n sel -> In (n, p) (m_nps m) -> removal_value pv n p = Ok v -> np_at (keys (m_nps m)) ns n = v) /\
    (forall n, ~ In n sel -> np_at (keys (m_nps m)) ns n = 0) /\
  m' = mkModel (m_name m) (m_descr m) (m_pois m) (filter (fun kp => negb (memb sel (fst kp))) (m_nps m)) aux (m_channels m') (m_exprs m)
         (m_asym m) (m_linear m) (m_simple_sym m) (m_lognormal m) (m_cutoff m) /\
  object E m' I' /\
  Forall2 (fun kc kc' => fst kc' = fst kc /\ ch_name (snd kc') = ch_name (snd kc) /\ ch_kind (snd kc') = ch_kind (snd kc) /\
    Forall2 (fun ks ks' => fst ks' = fst ks /\ absorbed E m (i_ref_pois I) ns sel (nbins (snd kc)) (snd ks) (snd ks')) (ch_samples (snd kc)) (ch_samples (snd kc')))
    (m_channels m) (m_channels m').
Proof.
  intros Ob Hd HN HSt HT Hsel HA H. assert (Ob' := Ob). destruct Ob' as (HS & HC). pose proof (siv_built _ _ _ HS) as Bt.
  unfold remove_nps in H. cbn [with_channels m_nps m_channels i_pm with_ichannels i_ref_pois m_aux m_name m_descr m_pois m_exprs m_asym m_linear m_simple_sym m_lognormal m_cutoff] in H.
  rewrite Hsel in H. cbn [bind] in H. apply bind_Ok in H as (p0 & Hp0 & H). apply bind_Ok in H as (pars & Hpars & H).
  rewrite fold_drop in H. set (chs1 := on_samples (drop_all sel) chsA) in *.
  change (with_ichannels (with_ichannels I chsA) chs1) with (with_ichannels I chs1) in H.
  assert (H1 : chans (dropped sel) (m_channels m) chs1).
  { eapply chans_trans; [|exact HA|apply (chans_on (drop_all sel) (dropped sel))]; [apply pre_dropped|apply drop_all_spec]. }
  apply bind_Ok in H as (n & Hn & H). apply bind_Ok in H as (rv & Hrv & H). apply bind_Ok in H as (chs2 & Hchs2 & H).
  apply bind_Ok in H as ([d' aux] & Hpop & H). cbn [fst snd] in H.
  destruct (pmodel_names _ _ (bt_pm _ _ _ Bt)) as (Hpp & Hnn & _).
  pose proof (names_ok_base _ HN) as HNb.
  assert (HNn : NoDup (keys (m_nps m))) by (apply (NoDup_app_r _ _ HNb)).
  destruct (pop_loop _ _ _ _ _ Hpop HNn) as (Ns & Isel & Ed).
  assert (Hp0' : wf p0 (i_pm I) /\ pois p0 = i_ref_pois I /\ nps p0 = repeat 0 (length (pm_nps (i_pm I)))).
  { split; [unfold pars_clone in Hp0; cbn [pmod] in Hp0; eapply pars_init_sizes; exact Hp0|].
    unfold pars_clone, pars_init in Hp0. cbn [pois nps pmod bind] in Hp0. destruct (length (i_ref_pois I) =? _)%nat; cbn [bind] in Hp0; [|discriminate].
    remember (repeat 0 (length (pm_nps (i_pm I)))) as z eqn:Er. assert (Hz : match z with [] => Ok (repeat 0 (length (pm_nps (i_pm I)))) | _ :: _ => Ok z end = Ok z) by (rewrite Er; destruct (repeat 0 _); reflexivity).
    rewrite <- Er in Hz. assert (Lz : length z = length (pm_nps (i_pm I))) by (rewrite Er; apply repeat_length).
    destruct z; cbn [bind] in Hp0; (destruct (_ =? _)%nat in Hp0; cbn [bind] in Hp0; [|discriminate]); inversion Hp0; cbn; split; auto. }
  destruct Hp0' as (Wf0 & Ep0 & En0).
  destruct (removal_loop m (i_pm I) (removal_value pv)) with (sel := sel) (p := p0) (q := pars) as (Wf & Epo & Zero & Val); auto.
  { rewrite Hpp, Hnn. exact HNb. } { intros x Hx. rewrite Hnn. now apply Isel. }
  rewrite Hnn in Zero, Val. split; [exact Ns|]. exists (nps pars), aux. split.
  { intros x p v Hx Hp Hv. apply (Val x p v Hx); [now apply In_dget|exact Hv]. } split.
  { intros x Hx. rewrite Zero by exact Hx. rewrite En0. unfold np_at. destruct (index x (keys (m_nps m))); [apply nth_repeat|reflexivity]. }
  (* the channels *)
  rewrite Ep0 in Epo. rewrite Epo in *.
  assert (HLr : length (i_ref_pois I) = length (m_pois m)).
  { destruct Wf0 as (_ & W & _). rewrite Ep0, Hpp in W. unfold keys in W. rewrite map_length in W. exact W. }
  assert (Hn' : n_exp m (with_ichannels I chs1) (i_ref_pois I) (nps pars) = Ok n) by exact Hn.
  assert (Hrv' : model_real_vals m (i_pm I) (i_ref_pois I) = Ok rv) by exact Hrv.
  destruct HT as (HFit & HT2).
  assert (HFit1 : yields_fit chs1).
  { intros k c ks sm Hk Hs. destruct (Forall2_in_right _ _ _ _ H1 Hk) as ([k0 c0] & Hk0 & _ & _ & Ek & HF). cbn [fst snd] in *.
    destruct (Forall2_in_right _ _ _ _ HF Hs) as ([n0 s0] & Hs0 & _ & D1 & D2 & D3 & D4 & D5). cbn [fst snd] in *. destruct (HFit k0 c0 n0 s0 Hk0 Hs0) as (Y & L).
    rewrite (nbins_kind _ _ Ek), D4. exact Y. }
  assert (Hk1 : keys chs1 = keys (m_channels m)) by exact (chans_keys _ _ _ H1).
  assert (Hk2' : forall i k c0, nth_error (m_channels m) i = Some (k, c0) -> exists c2, nth_error chs2 i = Some (k, c2) /\ ch_name c2 = ch_name c0 /\ ch_kind c2 = ch_kind c0 /\
    Forall2 (fun ks ks' => fst ks' = fst ks /\ absorbed E m (i_ref_pois I) (nps pars) sel (nbins c0) (snd ks) (snd ks')) (ch_samples c0) (ch_samples c2)).
  { intros i k c0 Hi. destruct (chans_nth _ _ _ _ _ _ H1 Hi) as (c1 & Hi1 & Ec1 & Ek1 & HF1).
    apply mapM_Forall2 in Hchs2. destruct (Forall2_nth _ _ _ _ _ Hchs2 Hi1) as ([k2 c2] & Hi2 & Hx). cbn [fst snd] in Hx.
    apply bind_Ok in Hx as (l & Hl & Hx). inversion Hx; subst k2 c2; clear Hx. exists (with_samples c1 l). split; [exact Hi2|]. cbn [with_samples ch_name ch_kind ch_samples].
    split; [exact Ec1|]. split; [exact Ek1|]. apply mapM_Forall2 in Hl.
    destruct (HSt k c0 (nth_error_In _ _ Hi)) as (Nk & Nd & Nn).
    assert (Kk : keys (ch_samples c1) = keys (ch_samples c0)) by (apply (Forall2_keys _ _ _ (fun a b (X : _ /\ _) => proj1 X) HF1)).
    apply Forall2_of_nth; [rewrite (Forall2_length _ _ _ HF1), (Forall2_length _ _ _ Hl); reflexivity|].
    intros j [n0 s0] [n2 s2] Hj Hj2. cbn [fst snd]. destruct (Forall2_nth _ _ _ _ _ HF1 Hj) as ([n1 s1] & Hj1 & En1 & Dr). cbn [fst snd] in En1, Dr. subst n1.
    destruct (Forall2_nth _ _ _ _ _ Hl Hj1) as ([n2' s2'] & Hj2' & Hab). rewrite Hj2 in Hj2'. inversion Hj2'; subst n2' s2'; clear Hj2'. cbn [fst snd] in Hab.
    apply bind_Ok in Hab as (s2' & Hab & Hx). inversion Hx; subst n2 s2'; clear Hx. split; [reflexivity|].
    unfold absorb in Hab. apply bind_Ok in Hab as (y & Hy & Hab). apply bind_Ok in Hab as (v & Hv & Hab). inversion Hab; subst s2; clear Hab.
    exists s1. destruct Dr as (D1 & D2 & D3 & D4 & D5). split; [repeat split; assumption|]. cbn [s_name s_norm s_impacts s_nominal_norm s_yields]. split; [exact D1|]. split; [reflexivity|]. split; [reflexivity|].
    split; [f_equal; exact (norm_value_den _ _ _ _ (real_vals_spec m (i_pm I) (i_ref_pois I) rv HN (bt_pm _ _ _ Bt) HLr Hrv') Hv)|].
    exists y. split; [reflexivity|].
    unfold sample_slice in Hy. cbn [with_ichannels i_offsets i_channels] in Hy. rewrite Ec1, Nk in Hy.
    assert (Ho : dget k (i_offsets I) = Some (total_bins (firstn i (m_channels m)))) by (rewrite (bt_off _ _ _ Bt), <- HC; now apply off_at with (c := c0)).
    assert (Hc1 : dget k chs1 = Some c1) by (apply In_dget; [rewrite Hk1; exact Hd|exact (nth_error_In _ _ Hi1)]).
    unfold dgetE in Hy. rewrite Ho, Hc1 in Hy. cbn [bind] in Hy.
    assert (Ix : index (s_name s1) (keys (ch_samples c1)) = Some j).
    { apply nth_index; [rewrite Kk; exact Nd|]. rewrite D1, (Nn n0 s0 (nth_error_In _ _ Hj)). unfold keys. rewrite nth_error_map, Hj1. reflexivity. }
    rewrite Ix in Hy. inversion Hy; subst y; clear Hy. rewrite (nbins_kind _ _ Ek1). split; [rewrite map_length, seq_length; reflexivity|].
    intros b Hb. rewrite (nth_map_lt _ _ _ 0%nat) by (rewrite seq_length; exact Hb). rewrite seq_nth by exact Hb. cbn [Nat.add].
    assert (Sj : sample_at c1 j = Some s1) by (unfold sample_at, values; rewrite nth_error_map, Hj1; reflexivity).
    assert (Sj0 : sample_at c0 j = Some s0) by (unfold sample_at, values; rewrite nth_error_map, Hj; reflexivity).
    assert (Hjn : (j < i_nsamples I)%nat).
    { rewrite (bt_ns _ _ _ Bt), <- HC. pose proof (sample_at_lt _ _ _ Sj0). pose proof (max_samples_le _ _ _ (nth_error_In _ _ Hi)). lia. }
    destruct (n_exp_at_y m (with_ichannels I chs1) (i_ref_pois I) (nps pars) n i k c1 j b HN (bt_pm _ _ _ Bt) HLr HFit1 Hn' Hi1) as (K & HK & Hval); [rewrite (nbins_kind _ _ Ek1); exact Hb|exact Hjn|].
    cbn [with_ichannels i_channels] in Hval. rewrite (chans_total _ _ _ i H1), Sj in Hval. rewrite Hval. f_equal. f_equal.
    assert (HK' : k_exp m I (nps pars) = Ok K) by exact HK.
    rewrite HC. apply (k_exp_at E m I (nps pars) K i k c0 j s0 b Bt); auto; [rewrite <- HC; split; assumption|rewrite <- HC; exact Hi]. }
  assert (HF2 : Forall2 (fun kc kc' => fst kc' = fst kc /\ ch_name (snd kc') = ch_name (snd kc) /\ ch_kind (snd kc') = ch_kind (snd kc) /\
    Forall2 (fun ks ks' => fst ks' = fst ks /\ absorbed E m (i_ref_pois I) (nps pars) sel (nbins (snd kc)) (snd ks) (snd ks')) (ch_samples (snd kc)) (ch_samples (snd kc')))
    (m_channels m) chs2).
  { assert (Hl2 : length (m_channels m) = length chs2) by (apply mapM_Forall2 in Hchs2; rewrite (Forall2_length _ _ _ H1), (Forall2_length _ _ _ Hchs2); reflexivity).
    apply Forall2_of_nth; [exact Hl2|]. intros i [k c0] [k2 c2] Hi Hi2. destruct (Hk2' i k c0 Hi) as (c2' & Hi2' & X). rewrite Hi2 in Hi2'. inversion Hi2'; subst k2 c2'. cbn [fst snd]. split; [reflexivity|exact X]. }
  pose proof (finish_object _ _ _ _ H) as Ob2. unfold finish in H. apply bind_Ok in H as (it & Hit & H). inversion H; subst m' it; clear H.
  cbn [with_channels m_channels m_name m_descr m_pois m_nps m_aux m_exprs m_asym m_linear m_simple_sym m_lognormal m_cutoff] in *. subst d'.
  assert (Hfix : i_channels I' = chs2).
  { apply (built_fixed E _ I' (siv_built _ _ _ Hit)); cbn [m_channels m_nps].
    - rewrite (Forall2_keys _ _ _ (fun a b (X : _ /\ _) => proj1 X) HF2). exact Hd.
    - intros k c2 x s2 Hk Hs. destruct (Forall2_in_right _ _ _ _ HF2 Hk) as ([k0 c0] & Hk0 & _ & _ & _ & HFs). cbn [snd] in HFs.
      destruct (Forall2_in_right _ _ _ _ HFs Hs) as ([n0 s0] & Hs0 & _ & s1 & (D1 & D2 & D3 & D4 & D5) & A1 & A2 & A3 & A4 & y & A5 & _). cbn [fst snd] in *.
      destruct (object_done E m I Ob k0 c0 n0 s0 Hk0 Hs0) as (_ & _ & Dn). split; [congruence|]. split; [congruence|].
      intros q Hq. unfold keys in Hq. apply in_map_iff in Hq as ([q1 p] & <- & Hq). apply filter_In in Hq as (Hq & Hm). cbn [fst] in *. apply negb_true_iff, memb_false in Hm.
      rewrite A2, D2, A3. unfold norm_without. destruct (Dn q1) as [Dn1|(v & Dn1)]; [unfold keys; apply in_map_iff; exists (q1, p); auto| |right; rewrite Dn1; eauto].
      left. unfold dmem in *. rewrite D5 by exact Hm. exact Dn1. }
  rewrite Hfix in *. split; [reflexivity|]. split; [exact Ob2|exact HF2].
Qed.
