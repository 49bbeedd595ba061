(** Lemmas on the model of core.py. *)
From Verif Require Import Py PyFacts Base Expressions Norms Sample SampleFacts Channels ChannelFacts Params ParamsFacts Core.
Local Open Scope string_scope.
Local Open Scope list_scope.

Lemma list_eqb_eq l k : list_eqb l k = true <-> l = k.
Proof.
  revert k; induction l as [|x l IH]; intros [|y k]; cbn; split; try easy; try discriminate.
  - intros H. apply andb_true_iff in H as [H1 H2]. apply String.eqb_eq in H1. apply IH in H2. congruence.
  - intros [= -> ->]. rewrite String.eqb_refl. cbn. now apply IH.
Qed.

(** what updating the samples of a channel leaves unchanged *)
Lemma update_channel_same E pm rls rv c c' : update_channel E pm rls rv c = Ok c' ->
  ch_name c' = ch_name c /\ ch_kind c' = ch_kind c /\ keys (ch_samples c') = keys (ch_samples c) /\
  Forall2 (fun a b => set_np_data (e_fuel E) (e_fmt E) (pm_nps pm) rls rv 1 a = Ok b) (values (ch_samples c)) (values (ch_samples c')).
Proof.
  unfold update_channel. intros H. inv_bind H. inversion H; subst; clear H. cbn.
  split; [reflexivity|]. split; [reflexivity|]. match goal with Hm : mapM _ _ = Ok _ |- _ => apply mapM_Forall2 in Hm; induction Hm as [|[k s] [k' s'] l r Hx Hr IH] end; cbn.
  - split; constructor.
  - inv_bind Hx. inversion Hx; subst. destruct IH as [IH1 IH2]. split; [unfold keys in *; cbn; f_equal; exact IH1|]. constructor; assumption.
Qed.

Lemma nbins_kind c c' : ch_kind c = ch_kind c' -> nbins c = nbins c'.
Proof. unfold nbins. intros ->. reflexivity. Qed.
Lemma gauss_kind c c' : ch_kind c = ch_kind c' -> is_gaussian c = is_gaussian c'.
Proof. unfold is_gaussian. intros ->. reflexivity. Qed.

Record built (E : Env) (m : Model) (I : Internal) : Prop := mkBuilt {
  bt_pm : pmodel_of m = Ok (i_pm I);
  bt_ref : Forall2 (fun kp x => poi_initial (snd kp) = Some x) (m_pois m) (i_ref_pois I);
  bt_cons : Forall2 (fun kp x => cons_of (snd kp) = Ok x) (m_nps m) (i_cons I);
  bt_keys : keys (poisson_first (m_channels m)) = keys (m_channels m);
  bt_np : i_nbins_p I = total_bins (filter (fun c => negb (is_gaussian (snd c))) (poisson_first (m_channels m)));
  bt_ng : i_nbins_g I = total_bins (filter (fun c => is_gaussian (snd c)) (poisson_first (m_channels m)));
  bt_hess : hess_blocks (poisson_first (m_channels m)) 0 (fun _ _ => 0) = Ok (i_poi_hess I);
  bt_chs : exists rv, (m_channels m <> [] -> model_real_vals m (i_pm I) (i_ref_pois I) = Ok rv) /\
     Forall2 (fun kc kc' => fst kc' = fst kc /\ update_channel E (i_pm I) (model_reals m) rv (snd kc) = Ok (snd kc'))
             (poisson_first (m_channels m)) (i_channels I);
  bt_off : i_offsets I = offsets_of (i_channels I) 0;
  bt_ns : i_nsamples I = max_samples (i_channels I);
  bt_nb : i_nbins I = total_bins (i_channels I);
  bt_coef : foldM (coef_step E m (i_channels I) (i_nbins I) (length (pm_nps (i_pm I))))
      (list_prod (enumerate (np_names (i_pm I))) (seq 0 (i_nsamples I)))
      (mkCS 1 (fun _ => 0) (fun _ => 0) (fun _ _ _ => 0)) = Ok (mkCS (i_nvar I) (i_pos I) (i_neg I) (i_sym I)) }.

Lemma siv_built E m I : set_internal_vars E m = Ok I -> built E m I.
Proof.
  unfold set_internal_vars. intros H.
  apply bind_Ok in H as (pm & Hpm & H). apply bind_Ok in H as (refp & Href & H). apply bind_Ok in H as (cd & Hcd & H).
  destruct (list_eqb (keys (poisson_first (m_channels m))) (keys (m_channels m))) eqn:EK; cbn [negb] in H; [|discriminate].
  apply list_eqb_eq in EK.
  apply bind_Ok in H as (hess & Hh & H). apply bind_Ok in H as (chs' & Hc & H). apply bind_Ok in H as (u & _ & H).
  apply bind_Ok in H as (st & Hst & H). inversion H; subst I; clear H.
  constructor; cbn [i_pm i_ref_pois i_cons i_channels i_nbins_p i_nbins_g i_poi_hess i_offsets i_nsamples i_nbins i_nvar i_pos i_neg i_sym]; auto.
  - apply mapM_Forall2 in Href. eapply Forall2_impl_in; [|exact Href]. intros a b _ Hx. cbn in Hx. destruct (poi_initial (snd a)); congruence.
  - apply mapM_Forall2 in Hcd. exact Hcd.
  - destruct (m_channels m) as [|kc0 chs0] eqn:EC.
    + inversion Hc; subst. exists []. split; [congruence|]. constructor.
    + apply bind_Ok in Hc as (rv & Hrv & Hc). exists rv. split; [intros _; exact Hrv|].
      apply mapM_Forall2 in Hc. eapply Forall2_impl_in; [|exact Hc]. intros a b _ Hx. apply bind_Ok in Hx as (c2 & Hc2 & Hx). inversion Hx; subst. cbn. auto.
  - unfold np_names. rewrite Hst. destruct st; reflexivity.
Qed.

Lemma built_channels E m I : built E m I ->
  Forall2 (fun kc kc' => fst kc' = fst kc /\ ch_kind (snd kc') = ch_kind (snd kc) /\ keys (ch_samples (snd kc')) = keys (ch_samples (snd kc)))
    (poisson_first (m_channels m)) (i_channels I).
Proof.
  intros B. destruct (bt_chs _ _ _ B) as (rv & _ & HF). eapply Forall2_impl_in; [|exact HF].
  intros a b _ [H1 H2]. apply update_channel_same in H2. tauto.
Qed.

Lemma built_keys E m I : built E m I -> keys (i_channels I) = keys (m_channels m).
Proof.
  intros B. rewrite <- (bt_keys _ _ _ B). pose proof (built_channels _ _ _ B) as HF. unfold keys.
  symmetry. apply Forall2_map_eq. eapply Forall2_impl_in; [|exact HF]. intros a b _ [H _]. congruence.
Qed.

Lemma total_bins_app a b : total_bins (a ++ b) = (total_bins a + total_bins b)%nat.
Proof. unfold total_bins. induction a as [|x a IH]; cbn; [reflexivity|]. lia. Qed.

Lemma total_bins_kind (l r : dict Channel) : Forall2 (fun kc kc' => ch_kind (snd kc') = ch_kind (snd kc)) l r -> total_bins r = total_bins l.
Proof.
  unfold total_bins. induction 1 as [|a b l r H1 H2 IH]; cbn; [reflexivity|].
  rewrite IH. f_equal. apply nbins_kind. exact H1.
Qed.

Lemma filter_filter_neg (l : dict Channel) (f : string * Channel -> bool) : filter f (filter (fun x => negb (f x)) l) = [].
Proof. induction l as [|x l IH]; cbn; [reflexivity|]. destruct (f x) eqn:E; cbn; [exact IH|]. rewrite E. exact IH. Qed.
Lemma filter_all {A} (f : A -> bool) l : (forall x, In x l -> f x = true) -> filter f l = l.
Proof. induction l as [|x l IH]; cbn; intros H; [reflexivity|]. rewrite (H x) by auto. f_equal. auto. Qed.
Lemma filter_none {A} (f : A -> bool) l : (forall x, In x l -> f x = false) -> filter f l = [].
Proof. induction l as [|x l IH]; cbn; intros H; [reflexivity|]. rewrite (H x) by auto. auto. Qed.

Lemma filter_pf_p chs : filter (fun c => negb (is_gaussian (snd c))) (poisson_first chs) = filter (fun c => negb (is_gaussian (snd c))) chs.
Proof.
  unfold poisson_first. rewrite filter_app. rewrite (filter_none _ (filter (fun c => is_gaussian (snd c)) chs)).
  - rewrite app_nil_r. apply filter_all. intros x Hx. now apply filter_In in Hx as [_ Hx].
  - intros x Hx. apply filter_In in Hx as [_ Hx]. now rewrite Hx.
Qed.
Lemma filter_pf_g chs : filter (fun c => is_gaussian (snd c)) (poisson_first chs) = filter (fun c => is_gaussian (snd c)) chs.
Proof.
  unfold poisson_first. rewrite filter_app. rewrite (filter_none _ (filter (fun c => negb (is_gaussian (snd c))) chs)).
  - cbn [app]. apply filter_all. intros x Hx. now apply filter_In in Hx as [_ Hx].
  - intros x Hx. apply filter_In in Hx as [_ Hx]. destruct (is_gaussian (snd x)); [discriminate|reflexivity].
Qed.

Lemma built_nbins E m I : built E m I -> i_nbins I = (i_nbins_p I + i_nbins_g I)%nat.
Proof.
  intros B. rewrite (bt_nb _ _ _ B), (bt_np _ _ _ B), (bt_ng _ _ _ B), filter_pf_p, filter_pf_g.
  rewrite <- total_bins_app. apply total_bins_kind. pose proof (built_channels _ _ _ B) as HF.
  eapply Forall2_impl_in; [|exact HF]. tauto.
Qed.

Lemma nodup_same_keys_eq (l k : dict Channel) : NoDup (keys l) -> keys k = keys l -> (forall x, In x k -> In x l) -> k = l.
Proof.
  intros HN HK Hin. assert (HNk : NoDup (keys k)) by (rewrite HK; exact HN).
  revert l HN HK Hin; induction k as [|[a c] k IH]; intros [|[b d] l] HN HK Hin; cbn in HK; try discriminate; [reflexivity|].
  injection HK as -> HK'. inversion HN as [|x y N1 N2]; subst. inversion HNk as [|x y N3 N4]; subst.
  assert ((b, c) = (b, d)).
  { destruct (Hin (b, c)) as [E|Hi]; [now left|now symmetry|]. exfalso. apply N1. change b with (fst (b, c)). now apply in_map. }
  f_equal; [assumption|]. apply IH; auto.
  intros [x cx] Hx. destruct (Hin (x, cx)) as [E|Hi]; [now right| |exact Hi].
  inversion E; subst. exfalso. apply N3. change x with (fst (x, cx)). now apply in_map.
Qed.

Lemma built_poisson_first E m I : NoDup (keys (m_channels m)) -> built E m I -> poisson_first (m_channels m) = m_channels m.
Proof.
  intros HN B. apply nodup_same_keys_eq; [exact HN|apply (bt_keys _ _ _ B)|].
  intros x Hx. unfold poisson_first in Hx. apply in_app_iff in Hx as [Hx|Hx]; now apply filter_In in Hx.
Qed.

(** position of a channel *)
Definition off_of (chs : dict Channel) (k : string) : option nat := dget k (offsets_of chs 0).

Lemma offsets_of_app a b n : offsets_of (a ++ b) n = offsets_of a n ++ offsets_of b (n + total_bins a)%nat.
Proof.
  revert n; induction a as [|[k c] a IH]; intros n; cbn [app offsets_of total_bins fold_right].
  - cbn. now rewrite Nat.add_0_r.
  - rewrite IH. f_equal. f_equal. f_equal. unfold total_bins. cbn. lia.
Qed.
Lemma keys_offsets chs n : keys (offsets_of chs n) = keys chs.
Proof. revert n; induction chs as [|[k c] r IH]; intros n; cbn; [reflexivity|]. f_equal. apply IH. Qed.
Lemma dget_app {V} k (a b : dict V) : dget k (a ++ b) = match dget k a with Some v => Some v | None => dget k b end.
Proof. induction a as [|[x v] a IH]; cbn; [reflexivity|]. destruct (String.eqb k x); auto. Qed.

Lemma dget_split {V} k (c : V) d : dget k d = Some c -> exists a b, d = a ++ (k, c) :: b /\ ~ In k (keys a).
Proof.
  induction d as [|[x v] d IH]; cbn; [discriminate|]. destruct (String.eqb k x) eqn:E.
  - intros [= ->]. apply String.eqb_eq in E as ->. exists [], d. auto.
  - intros H. destruct (IH H) as (a & b & -> & Hn). exists ((x, v) :: a), b. split; [reflexivity|]. cbn.
    apply String.eqb_neq in E. intuition congruence.
Qed.

Lemma off_split a k c b : ~ In k (keys a) -> dget k (offsets_of (a ++ (k, c) :: b) 0) = Some (total_bins a).
Proof.
  intros H. rewrite offsets_of_app, dget_app.
  assert (E : dget k (offsets_of a 0) = None) by (apply dget_None; rewrite keys_offsets; exact H). rewrite E. cbn.
  now rewrite String.eqb_refl.
Qed.

Lemma concat_split {A} (l : list (list A)) i x : nth_error l i = Some x ->
  concat l = concat (firstn i l) ++ x ++ concat (skipn (S i) l).
Proof.
  revert i; induction l as [|y l IH]; intros [|i]; cbn [nth_error]; try discriminate.
  - intros [= ->]. reflexivity.
  - intros H. cbn [concat firstn skipn]. rewrite (IH _ H), <- app_assoc. reflexivity.
Qed.

Lemma concat_length_bins (chs : dict Channel) (bl : list (list R)) :
  Forall2 (fun kc (b : list R) => length b = nbins (snd kc)) chs bl -> length (concat bl) = total_bins chs.
Proof. unfold total_bins. induction 1 as [|a b l r H1 H2 IH]; cbn; [reflexivity|]. rewrite app_length. lia. Qed.

Lemma Forall2_app_l {A B} (P : A -> B -> Prop) a b r : Forall2 P (a ++ b) r -> exists r1 r2, r = r1 ++ r2 /\ Forall2 P a r1 /\ Forall2 P b r2.
Proof.
  revert r; induction a as [|x a IH]; intros r H; cbn in H.
  - exists [], r. repeat split; auto.
  - inversion H; subst. destruct (IH _ H4) as (r1 & r2 & -> & F1 & F2). exists (y :: r1), r2. repeat split; auto.
Qed.

Lemma Forall2_length {A B} (P : A -> B -> Prop) l r : Forall2 P l r -> length l = length r.
Proof. induction 1; cbn; congruence. Qed.

(** slicing a concatenation of per-channel blocks *)
Lemma slice_block (chs : dict Channel) bl k c : NoDup (keys chs) -> Forall2 (fun kc (b : list R) => length b = nbins (snd kc)) chs bl ->
  dget k chs = Some c -> exists off b, off_of chs k = Some off /\ In ((k, c), b) (combine chs bl) /\
   firstn (nbins c) (skipn off (concat bl)) = b /\ length b = nbins c.
Proof.
  intros HN HF Hk. destruct (dget_split _ _ _ Hk) as (a & r & -> & Hn).
  destruct (Forall2_app_l _ _ _ _ HF) as (ba & br & -> & Fa & Fr). inversion Fr as [|x y l l' Hx Hr]; subst.
  exists (total_bins a), y. unfold off_of. rewrite off_split by exact Hn. split; [reflexivity|]. cbn in Hx.
  assert (HL : length a = length ba) by (eapply Forall2_length; exact Fa).
  split; [|split; [|exact Hx]].
  - clear - HL. revert ba HL. induction a as [|z a IH]; intros [|w ba] HL; cbn in *; try discriminate; auto.
  - rewrite concat_app. cbn [concat]. rewrite skipn_app, (concat_length_bins a ba Fa), Nat.sub_diag.
    rewrite skipn_all2 by (rewrite (concat_length_bins a ba Fa); lia). cbn [app skipn].
    rewrite firstn_app, <- Hx, firstn_all, Nat.sub_diag. cbn. apply app_nil_r.
Qed.

(** the bins of a channel *)
Definition range_in (chs : dict Channel) (n : nat) (k : string) (b : nat) : Prop :=
  exists off c, dget k (offsets_of chs n) = Some off /\ dget k chs = Some c /\ (off <= b < off + nbins c)%nat.

Lemma range_bounds chs n k b : range_in chs n k b -> (n <= b < n + total_bins chs)%nat.
Proof.
  revert n; induction chs as [|[k' c'] chs IH]; intros n (off & c & H1 & H2 & H3); cbn in *; [discriminate|].
  destruct (String.eqb k k').
  - inversion H1; inversion H2; subst. lia.
  - specialize (IH (n + nbins c')%nat). assert (range_in chs (n + nbins c') k b) as Hr by (exists off, c; auto). specialize (IH Hr). unfold total_bins in *. lia.
Qed.

Lemma range_cover chs n b : NoDup (keys chs) -> (n <= b < n + total_bins chs)%nat -> exists k, range_in chs n k b.
Proof.
  revert n; induction chs as [|[k' c'] chs IH]; intros n HN Hb; cbn in Hb; [lia|].
  inversion HN as [|x y N1 N2]; subst. destruct (Nat.lt_ge_cases b (n + nbins c')) as [Hl|Hg].
  - exists k', n, c'. cbn. rewrite String.eqb_refl. repeat split; auto; lia.
  - destruct (IH (n + nbins c')%nat N2) as (k & off & c & H1 & H2 & H3); [unfold total_bins in *; lia|].
    exists k, off, c. cbn. assert (String.eqb k k' = false) as ->.
    { apply String.eqb_neq. intros ->. apply N1. apply dget_In in H2. change k' with (fst (k', c)). now apply in_map. }
    auto.
Qed.

Lemma range_unique chs n k k2 b : NoDup (keys chs) -> range_in chs n k b -> range_in chs n k2 b -> k = k2.
Proof.
  revert n; induction chs as [|[k' c'] chs IH]; intros n HN H1 H2; [destruct H1 as (o & c & H & _); discriminate|].
  inversion HN as [|x y N1 N2]; subst. destruct H1 as (o1 & c1 & A1 & A2 & A3), H2 as (o2 & c2 & B1 & B2 & B3). cbn in *.
  destruct (String.eqb k k') eqn:Ek, (String.eqb k2 k') eqn:Ek2.
  - apply String.eqb_eq in Ek, Ek2. congruence.
  - exfalso. assert (range_in chs (n + nbins c') k2 b) as Hr by (exists o2, c2; auto). apply range_bounds in Hr.
    inversion A1; inversion A2; subst. lia.
  - exfalso. assert (range_in chs (n + nbins c') k b) as Hr by (exists o1, c1; auto). apply range_bounds in Hr.
    inversion B1; inversion B2; subst. lia.
  - apply (IH (n + nbins c')%nat N2); [exists o1, c1|exists o2, c2]; auto.
Qed.

(** Poisson channels come first *)
Lemma range_poisson chp chg k b : NoDup (keys (chp ++ chg)) -> range_in (chp ++ chg) 0 k b ->
  ((b < total_bins chp)%nat <-> In k (keys chp)).
Proof.
  intros HN (off & c & H1 & H2 & H3). rewrite offsets_of_app, dget_app in H1. rewrite dget_app in H2. cbn [Nat.add] in H1.
  destruct (dget k (offsets_of chp 0)) as [o|] eqn:Eo.
  - destruct (dget k chp) as [c'|] eqn:Ec.
    + inversion H1; inversion H2; subst.
      assert (range_in chp 0 k b) as Hr by (exists off, c; auto). apply range_bounds in Hr.
      split; [intros _|lia]. apply dget_In in Ec. change k with (fst (k, c)). now apply in_map.
    + exfalso. apply dget_None in Ec. apply Ec. rewrite <- (keys_offsets chp 0). apply dget_In in Eo. change k with (fst (k, o)). now apply in_map.
  - apply dget_None in Eo. rewrite keys_offsets in Eo. assert (dget k chp = None) as E2 by now apply dget_None.
    rewrite E2 in H2. assert (range_in chg (total_bins chp) k b) as Hr by (exists off, c; auto). apply range_bounds in Hr.
    split; [lia|contradiction].
Qed.

Lemma Forall2_filter {A B} (P : A -> B -> Prop) f g l r : (forall a b, P a b -> f a = g b) -> Forall2 P l r -> Forall2 P (filter f l) (filter g r).
Proof.
  intros H. induction 1 as [|a b l r H1 H2 IH]; cbn; [constructor|]. rewrite (H _ _ H1). destruct (g b); [constructor|]; auto.
Qed.
Lemma built_split E m I : built E m I -> exists chp chg, i_channels I = chp ++ chg /\
  (forall kc, In kc chp -> is_gaussian (snd kc) = false) /\ (forall kc, In kc chg -> is_gaussian (snd kc) = true) /\
  total_bins chp = i_nbins_p I /\ total_bins chg = i_nbins_g I.
Proof.
  intros B. pose proof (built_channels _ _ _ B) as HF. unfold poisson_first in HF.
  destruct (Forall2_app_l _ _ _ _ HF) as (chp & chg & Hc & Fp & Fg). exists chp, chg. split; [exact Hc|].
  split; [|split; [|split]].
  - intros kc Hin. clear - Fp Hin. remember (filter _ _) as l eqn:El. assert (forall x, In x l -> is_gaussian (snd x) = false) as Hl.
    { intros x Hx. subst l. apply filter_In in Hx as [_ Hx]. now destruct (is_gaussian (snd x)). }
    clear El. induction Fp as [|a b l r H1 H2 IH]; [destruct Hin|]. destruct Hin as [->|Hin].
    + rewrite (gauss_kind _ (snd a)) by tauto. apply Hl. now left.
    + apply IH; auto. intros x Hx. apply Hl. now right.
  - intros kc Hin. clear - Fg Hin. remember (filter _ _) as l eqn:El. assert (forall x, In x l -> is_gaussian (snd x) = true) as Hl.
    { intros x Hx. subst l. now apply filter_In in Hx as [_ Hx]. }
    clear El. induction Fg as [|a b l r H1 H2 IH]; [destruct Hin|]. destruct Hin as [->|Hin].
    + rewrite (gauss_kind _ (snd a)) by tauto. apply Hl. now left.
    + apply IH; auto. intros x Hx. apply Hl. now right.
  - rewrite (bt_np _ _ _ B), filter_pf_p. apply total_bins_kind. eapply Forall2_impl_in; [|exact Fp]. tauto.
  - rewrite (bt_ng _ _ _ B), filter_pf_g. apply total_bins_kind. eapply Forall2_impl_in; [|exact Fg]. tauto.
Qed.
