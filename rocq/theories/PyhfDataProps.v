(** Properties of the conversion of pyhf files (fastprof_import/convert_pyhf_json.py): the observed data, C84. *)
From Coq Require Import DecimalString.
From Verif Require Import Py PyFacts Base BaseProps Expressions Norms Sample Channels Params Core ModelIO ModelIOFacts PyhfConvert PyhfFacts.
From Verif Require Import CoreFacts ChannelFacts CoreExample DataProps PyhfProps.
Local Open Scope string_scope.
Local Open Scope list_scope.

(** * Specification *)
(** the observed counts, channel after channel in the order of the channels, whatever the order of the observations *)
Fixpoint observed (obs : list (string * list R)) (chs : list PChannel) : option (list R) :=
  match chs with
  | [] => Some []
  | c :: chs' => match dget (pc_name c) obs, observed obs chs' with
                 | Some l, Some r => if (length l =? channel_bins c)%nat then Some (l ++ r) else None
                 | _, _ => None
                 end
  end.

(** * The document and the model loaded from it *)
Definition nice (d : dict NSpec) : Prop := NoDup (keys d) /\ forall k s, In (k, s) d -> ns_name s = k.
Lemma nice_dset k s d : nice d -> ns_name s = k -> nice (dset k s d).
Proof.
  intros (A & B) E. split; [now apply NoDup_keys_dset|]. intros k' s' Hin. apply (In_dget _ _ _ (NoDup_keys_dset _ _ _ A)) in Hin. destruct (string_dec k' k) as [->|N].
  - rewrite dget_dset_eq in Hin. congruence.
  - rewrite dget_dset_neq in Hin by exact N. apply B. now apply dget_In.
Qed.
Lemma nice_declare poi n d : nice d -> nice (declare poi n d).
Proof. intros H. unfold declare. destruct (_ && _)%bool; [now apply nice_dset|exact H]. Qed.
Lemma nice_calls keep poi calls : forall st, nice (fst st) -> nice (fst (fold_left (add_impact keep poi) calls st)).
Proof. induction calls as [|c calls IH]; intros st H; [exact H|]. cbn [fold_left]. apply IH. cbn [add_impact fst]. now apply nice_declare. Qed.
Lemma nice_pars poi l : forall d d', nice d -> foldM (fun d p => if String.eqb (pp_name p) poi then Ok d else let! s := np_spec p in Ok (dset (pp_name p) s d)) l d = Ok d' -> nice d'.
Proof.
  induction l as [|p l IH]; intros d d' H E; cbn [foldM] in E; [inversion E; subst; exact H|]. apply bind_Ok in E as (d1 & E1 & E2). eapply IH; [|exact E2]. destruct (String.eqb (pp_name p) poi); [inversion E1; subst; exact H|]. apply bind_Ok in E1 as (s & Es & E1). inversion E1. apply nice_dset; [exact H|].
  unfold np_spec in Es. apply bind_Ok in Es as (c & _ & Es). apply bind_Ok in Es as (x & _ & Es). inversion Es. reflexivity.
Qed.
Lemma sample_nice keep meas poi nps s nps' o : convert_sample keep meas poi nps s = Ok (nps', o) -> nice nps -> nice nps'.
Proof.
  unfold convert_sample. intros H N. apply bind_Ok in H as (nm & _ & H). apply bind_Ok in H as (st & Hst & H). inversion H; subst nps' o; clear H.
  enough (G : forall l st0 st1, nice (fst st0) -> foldM (fun st m => if existsb (String.eqb (mod_name m)) (normfactors (ps_mods s)) then Ok st
     else let! calls := mod_calls meas (ps_data s) m in Ok (fold_left (add_impact keep poi) calls st)) l st0 = Ok st1 -> nice (fst st1)) by (eapply G; [|exact Hst]; exact N).
  clear. induction l as [|m l IH]; intros st0 st1 N E; cbn [foldM] in E; [inversion E; subst; exact N|]. apply bind_Ok in E as (st & E1 & E2). eapply IH; [|exact E2].
  destruct (existsb _ _); [inversion E1; subst; exact N|]. apply bind_Ok in E1 as (calls & _ & E1). inversion E1. now apply nice_calls.
Qed.
Lemma samples_shape keep meas poi : forall l nps bins nps' bins' os, convert_samples keep meas poi nps bins l = Ok (nps', bins', os) ->
  (nice nps -> nice nps') /\ (bins <> Some [] -> bins' = bins) /\ (bins = Some [] -> forall s l', l = s :: l' -> ps_data s <> [] -> bins' = Some (bin_names (length (ps_data s)))).
Proof.
  induction l as [|s l IH]; intros nps bins nps' bins' os H; cbn [convert_samples] in H; [inversion H; subst; split; [auto|]; split; [auto|]; intros _ s l' X; discriminate X|].
  apply bind_Ok in H as ((n1 & o) & E1 & H). apply bind_Ok in H as (((n2 & b2) & os2) & E2 & H). cbn [fst snd] in *. inversion H; subst nps' bins' os; clear H. destruct (IH _ _ _ _ _ E2) as (I1 & I2 & I3). split; [|split].
  - intros N. apply I1. eapply sample_nice; eauto.
  - intros N. destruct bins as [[|b bs]|]; [contradiction| |]; apply I2; congruence.
  - intros -> s' l' [= <- <-] Hd. apply I2. intros X. injection X as X. apply map_eq_nil in X. destruct (ps_data s); [now apply Hd|discriminate].
Qed.
(** a channel whose first sample has bins keeps their number *)
Definition some_bins (c : PChannel) : Prop := channel_bins c <> 0%nat.
Definition oc_right (c : PChannel) (o : OChannel) : Prop :=
  oc_name o = pc_name c /\ (some_bins c -> oc_bins o = if (channel_bins c =? 1)%nat then None else Some (bin_names (channel_bins c))).
Lemma channels_shape keep meas poi : forall l nps nps' os, convert_channels keep meas poi nps l = Ok (nps', os) -> (nice nps -> nice nps') /\ Forall2 oc_right l os.
Proof.
  induction l as [|c l IH]; intros nps nps' os H; cbn [convert_channels] in H; [inversion H; subst; split; [auto|constructor]|].
  apply bind_Ok in H as ((n1 & o) & E1 & H). apply bind_Ok in H as ((n2 & os2) & E2 & H). cbn [fst snd] in *. inversion H; subst nps' os; clear H. destruct (IH _ _ _ E2) as (I1 & I2).
  unfold convert_channel in E1. destruct (pc_samples c) as [|s ss] eqn:Es; [discriminate|]. apply bind_Ok in E1 as (((n3 & b) & os3) & E3 & E1). cbn [fst snd] in *. inversion E1; subst n3 o; clear E1. destruct (samples_shape _ _ _ _ _ _ _ _ _ E3) as (S1 & S2 & S3).
  split; [auto|]. constructor; [|exact I2]. split; [reflexivity|]. unfold some_bins, channel_bins. rewrite Es. cbn [oc_bins]. intros Hn. destruct (Nat.eqb_spec (length (ps_data s)) 1) as [E|N]; [apply S2; discriminate|].
  apply (S3 eq_refl s ss eq_refl). intros Z. apply Hn. now rewrite Z.
Qed.
Lemma channel_load_shape float_of inv o d c : j_channel o = JObj d -> channel_load float_of inv d = Ok c -> ch_name c = oc_name o /\ ch_kind c = match oc_bins o with None => KSingle | Some b => KMulti b end.
Proof.
  intros H L. unfold j_channel in H. injection H as <-. unfold channel_load in L. destruct o as [nm [b|] sm]; cbn [oc_name oc_bins oc_samples app] in *.
  - cbn [dget String.eqb Ascii.eqb Bool.eqb] in L. apply bind_Ok in L as (bs & B & L). apply bind_Ok in B as (n & N & B). unfold dgetE in N. cbn in N. inversion N; subst n. apply bind_Ok in B as (sl & _ & B). inversion B; subst bs; clear B.
    apply bind_Ok in L as (bl & Bl & L). unfold dgetE in Bl. cbn in Bl. inversion Bl; subst bl. rewrite mapM_jstr in L. cbn in L. inversion L. split; reflexivity.
  - cbn [dget String.eqb Ascii.eqb Bool.eqb] in L. apply bind_Ok in L as (bs & B & L). apply bind_Ok in B as (n & N & B). unfold dgetE in N. cbn in N. inversion N; subst n. apply bind_Ok in B as (sl & _ & B). inversion B; subst bs; clear B. inversion L. split; reflexivity.
Qed.
Lemma channels_load_shape E l : forall acc chs, NoDup (keys acc) -> foldM (fun acc v => load_named (load_channel E) (fun c => Ok (ch_name c)) v acc) (map j_channel l) acc = Ok chs ->
  NoDup (keys chs) /\ exists new, chs = acc ++ new /\ Forall2 (fun o kc => fst kc = oc_name o /\ ch_name (snd kc) = oc_name o /\ ch_kind (snd kc) = match oc_bins o with None => KSingle | Some b => KMulti b end) l new.
Proof.
  induction l as [|o l IH]; intros acc chs ND H; cbn [map foldM] in H; [inversion H; subst; split; [exact ND|]; exists []; rewrite app_nil_r; split; [reflexivity|constructor]|].
  apply bind_Ok in H as (acc1 & E1 & H). destruct (j_channel o) as [| | | | | |d] eqn:Ej; try discriminate. cbn [load_named] in E1. apply bind_Ok in E1 as (c & Ec & E1). cbn [bind] in E1.
  unfold load_channel in Ec. apply bind_Ok in Ec as (c' & Ec & Ec2). destruct (forallb _ _); [|discriminate]. inversion Ec2; subst c'. destruct (channel_load_shape _ _ _ _ _ Ej Ec) as (Nm & Kd).
  destruct (dmem (ch_name c) acc) eqn:Em; [discriminate|]. inversion E1; subst acc1; clear E1. assert (Nin : ~ In (ch_name c) (keys acc)) by (intros X; apply dmem_spec in X; congruence).
  pose proof (NoDup_keys_dset (ch_name c) c acc ND) as ND1. destruct (IH _ _ ND1 H) as (P & new & Q & R). split; [exact P|]. rewrite dset_app_new in Q by exact Nin. rewrite <- app_assoc in Q. cbn in Q. eexists. split; [exact Q|].
  constructor; [cbn; auto|exact R].
Qed.
Lemma conversion_shape : forall E keep index f out, convert keep index f = Ok out ->
  exists nps chs, nice nps /\ Forall2 oc_right (pf_channels f) chs /\
    (forall o, pf_obs f = Some o -> dget "data" out = Some (JObj [("channels", JList (map j_obs o)); ("aux_obs", JList (j_aux nps))])) /\
    forall m0 m, model_read E m0 out = Ok m -> m_nps m = map (fun s => (ns_name s, loaded_np s)) (values nps) /\ NoDup (keys (m_channels m)) /\
      Forall2 (fun o kc => fst kc = oc_name o /\ ch_name (snd kc) = oc_name o /\ ch_kind (snd kc) = match oc_bins o with None => KSingle | Some b => KMulti b end) chs (m_channels m).
Proof.
  intros E keep index f out H. unfold convert in H. destruct (py_index (pf_meas f) index) as [meas|]; [|discriminate]. apply bind_Ok in H as (d & Hd & H). apply bind_Ok in H as ((nps & chs) & Hc & H). cbn [fst snd] in H.
  destruct (channels_shape _ _ _ _ _ _ _ Hc) as (N & O). assert (Nd : nice d) by (eapply nice_pars; [|exact Hd]; split; [constructor|intros k s []]). specialize (N Nd). exists nps, chs. split; [exact N|]. split; [exact O|].
  set (md := [("POIs", JList [j_poi (pm_poi meas)]); ("NPs", JList (map j_np (values nps))); ("channels", JList (map j_channel chs))]) in *.
  assert (Ho : exists rest, out = ("model", JObj md) :: rest /\ forall o, pf_obs f = Some o -> dget "data" rest = Some (JObj [("channels", JList (map j_obs o)); ("aux_obs", JList (j_aux nps))])).
  { destruct (pf_obs f); injection H as <-; eexists; (split; [reflexivity|]); intros o [= <-]; reflexivity. }
  destruct Ho as (rest & -> & Ho). split; [intros o Eo; cbn [dget String.eqb Ascii.eqb Bool.eqb]; now apply Ho|]. intros m0 m Hr.
  unfold model_read in Hr. unfold dgetE at 1 in Hr. cbn [dget String.eqb Ascii.eqb Bool.eqb bind] in Hr.
  apply bind_Ok in Hr as (poil & _ & Hr). apply bind_Ok in Hr as (chl & Hchl & Hr). apply bind_Ok in Hr as (nm & _ & Hr). apply bind_Ok in Hr as (ds & _ & Hr). apply bind_Ok in Hr as (ps & _ & Hr). apply bind_Ok in Hr as (auxl & Hauxl & Hr). apply bind_Ok in Hr as (aux & _ & Hr).
  apply bind_Ok in Hr as (npl & Hnpl & Hr). apply bind_Ok in Hr as (na & Hna & Hr). apply bind_Ok in Hr as (exl & _ & Hr). apply bind_Ok in Hr as (ex & _ & Hr). apply bind_Ok in Hr as (cs & Hcs & Hr). inversion Hr; subst m; clear Hr. cbn [m_nps m_channels].
  unfold dgetE in Hchl. cbn in Hchl. inversion Hchl; subst chl. unfold section in Hnpl. cbn in Hnpl. inversion Hnpl; subst npl. clear Hchl Hnpl.
  assert (Nn : map ns_name (values nps) = keys nps) by (unfold values, keys; rewrite map_map; apply map_ext_in; intros (k & s) Hin; cbn [snd fst]; now apply (proj2 N)).
  destruct (nps_load (values nps) [] aux) as (aux' & L & _); [cbn [keys map app]; rewrite Nn; apply N|]. unfold dict in *. rewrite L in Hna. inversion Hna; subst na. split; [reflexivity|].
  destruct (channels_load_shape E chs [] cs (NoDup_nil _) Hcs) as (P & new & Q & R). cbn in Q. subst new. split; assumption.
Qed.

(** * Auxiliary observables *)
Lemma aux_of_inj a b : aux_of a = aux_of b -> a = b.
Proof. unfold aux_of. cbn. intros H. now injection H. Qed.
Lemma j_aux_cons k s nps : j_aux ((k, s) :: nps) = match ns_constraint s with Some _ => [JObj [("name", JStr (aux_of (ns_name s))); ("value", JFlt (ns_nominal s))]] | None => [] end ++ j_aux nps.
Proof. reflexivity. Qed.
Lemma j_aux_entries nps v : In v (j_aux nps) <-> exists s, In s (values nps) /\ ns_constraint s <> None /\ v = JObj [("name", JStr (aux_of (ns_name s))); ("value", JFlt (ns_nominal s))].
Proof.
  induction nps as [|(k & s) nps IH]; [split; [intros []|intros (s & [] & _)]|]. rewrite j_aux_cons, in_app_iff, IH. cbn [values map snd In]. split.
  - intros [H|(s' & H)]; [|exists s'; tauto]. destruct (ns_constraint s) eqn:E; [|destruct H]. destruct H as [<-|[]]. exists s. repeat split; auto. congruence.
  - intros (s' & [->|H] & Hc & ->); [left|right; eauto]. destruct (ns_constraint s') as [c|]; [now left|contradiction].
Qed.
Lemma j_aux_nodup nps : NoDup (map ns_name (values nps)) -> NoDup (map entry_name (j_aux nps)).
Proof.
  induction nps as [|(k & s) nps IH]; intros ND; [constructor|]. rewrite j_aux_cons, map_app. cbn [values map snd] in ND. inversion ND as [|? ? N1 N2]; subst. destruct (ns_constraint s); [|now apply IH].
  cbn [map app]. constructor; [|now apply IH]. cbn [entry_name dget String.eqb Ascii.eqb Bool.eqb]. intros H. apply in_map_iff in H as (v & Hv & Hin). apply j_aux_entries in Hin as (s' & Hs & _ & ->).
  cbn [entry_name dget String.eqb Ascii.eqb Bool.eqb] in Hv. injection Hv as Hv. apply N1. rewrite <- Hv. now apply in_map.
Qed.

(** * Counts *)
Lemma observed_loads obs : forall l k n, length l = n -> ch_kind k = (if (n =? 1)%nat then KSingle else KMulti (bin_names n)) -> obs = (ch_name k, l) ->
  forall d, j_obs obs = JObj d -> forall old, length old = nbins k -> load_dataset k d old = (l, None).
Proof.
  intros l k n Hl Hk -> d Hd old Ho. unfold nbins in Ho. rewrite Hk in Ho. unfold j_obs in Hd. cbn [fst snd] in Hd.
  destruct (Nat.eqb_spec n 1) as [->|Hn].
  - destruct l as [|x [|? ?]]; try discriminate. injection Hd as <-. unfold load_dataset. cbn [dget String.eqb Ascii.eqb Bool.eqb]. rewrite String.eqb_refl. cbn [negb]. rewrite Hk. cbn. destruct old as [|y [|? ?]]; try discriminate. reflexivity.
  - assert (Hd' : JObj [("name", JStr (ch_name k)); ("bins", JList (zipwith (fun b x => JObj [("name", JStr ("bin" ++ dec b)%string); ("counts", JFlt x)]) (seq 0 (length l)) l))] = JObj d) by (destruct l as [|x [|? ?]]; [exact Hd|cbn in Hl; lia|exact Hd]).
    injection Hd' as <-. clear Hd. unfold load_dataset. cbn [dget String.eqb Ascii.eqb Bool.eqb]. rewrite String.eqb_refl. cbn [negb]. rewrite Hk. cbn [dget String.eqb Ascii.eqb Bool.eqb].
    set (z := zipwith _ (seq 0 (length l)) l). assert (Lz : length z = n) by (unfold z; rewrite zipwith_length, seq_length, Nat.min_id; exact Hl).
    assert (Nb : nbins k = n) by (unfold nbins; rewrite Hk; unfold bin_names; now rewrite map_length, seq_length).
    rewrite Lz, Nb, Nat.eqb_refl. pose proof (load_bins_run (check_name (bin_names n)) "counts" z [] old l) as LB. cbn [length app] in LB. rewrite LB.
    + rewrite Lz. unfold bin_names in Ho. rewrite map_length, seq_length in Ho. rewrite <- Ho, skipn_all, app_nil_r. reflexivity.
    + now rewrite Lz.
    + unfold bin_names in Ho. rewrite map_length, seq_length in Ho. rewrite Lz, Ho. apply le_n.
    + intros i v Hv. assert (Hi : (i < n)%nat) by (rewrite <- Lz; apply nth_error_Some; congruence).
      assert (Hx : exists x, nth_error l i = Some x) by (destruct (nth_error l i) eqn:E; [eauto|apply nth_error_None in E; lia]). destruct Hx as (x & Hx).
      assert (Ez : v = JObj [("name", JStr ("bin" ++ dec i)%string); ("counts", JFlt x)]).
      { clear -Hv Hx Hi Hl. unfold z in Hv. rewrite <- Hl in Hi. clear Hl. enough (G : forall l s i v x, nth_error (zipwith (fun b x => JObj [("name", JStr ("bin" ++ dec b)%string); ("counts", JFlt x)]) (seq s (length l)) l) i = Some v -> nth_error l i = Some x -> v = JObj [("name", JStr ("bin" ++ dec (s + i))%string); ("counts", JFlt x)]).
        { exact (G l 0%nat i v x Hv Hx). }
        clear. induction l as [|a l IH]; intros s [|i] v x H1 H2; cbn in H1, H2; try discriminate; [inversion H1; inversion H2; rewrite Nat.add_0_r; reflexivity|]. rewrite <- Nat.add_succ_comm. now apply IH. }
      subst v. split; [|exists x; split; [exact Hx|reflexivity]]. cbn [Nat.add]. unfold check_name, bin_names. rewrite nth_error_map. 
      assert (S0 : nth_error (seq 0 n) i = Some i) by (rewrite (nth_error_nth' _ 0%nat) by (now rewrite seq_length); now rewrite seq_nth). rewrite S0. cbn [option_map jget]. unfold dgetE. cbn [dget String.eqb Ascii.eqb Bool.eqb bind jstr]. now rewrite String.eqb_refl.
Qed.
Lemma find_observed obs name l : dget name obs = Some l -> exists d, j_obs (name, l) = JObj d /\ find_channel name (map j_obs obs) = Ok d.
Proof.
  induction obs as [|(k & l') obs IH]; [discriminate|]. cbn [dget map find_channel]. destruct (String.eqb_spec name k) as [->|Hk].
  - intros [= ->]. unfold j_obs at 1 2. cbn [fst snd]. destruct l as [|x [|y l]]; cbn [dget String.eqb Ascii.eqb Bool.eqb]; rewrite String.eqb_refl; eauto.
  - intros H. destruct (IH H) as (d & A & B). exists d. split; [exact A|]. unfold j_obs at 1. cbn [fst snd]. apply not_eq_sym in Hk. apply String.eqb_neq in Hk. destruct l' as [|x [|y l']]; cbn [dget String.eqb Ascii.eqb Bool.eqb]; rewrite Hk; exact B.
Qed.

(** * C84 *)
(** The data section of the converted document loads into the converted model, and gives the observed counts of the input, in the bins of their
    channel whatever the order of the observations, and auxiliary observations at the nominal values of the NPs (0 in the scaled units of
    the model). *)
Theorem C84_observed_data : forall E keep index f out obs counts m0 m I d0, pf_obs f = Some obs -> observed obs (pf_channels f) = Some counts ->
  (forall c, In c (pf_channels f) -> channel_bins c <> 0%nat) ->
  convert keep index f = Ok out -> model_load E m0 out = Ok (m, I) -> length (d_counts d0) = i_nbins I ->
  data_load m I d0 out = (mkData counts (repeat 0%R (length (m_nps m))), None).
Proof.
  intros E keep index f out obs counts m0 m' I d0 Hobs Hcts Hbins Hout Hload L0. unfold model_load in Hload. apply bind_Ok in Hload as (m & Hr & HI). unfold finish in HI. apply bind_Ok in HI as (I' & HI & X). inversion X; subst m' I'; clear X.
  destruct (conversion_shape E keep index f out Hout) as (nps & chs & (ND & Names) & Ho & Hd & Hread). destruct (Hread m0 m Hr) as (Hnps & NDc & Hch).
  apply siv_built in HI as B. pose proof (built_poisson_first _ _ _ NDc B) as HP.
  assert (HU : Forall2 (fun c kc => ch_name (snd kc) = pc_name c /\ ch_kind (snd kc) = (if (channel_bins c =? 1)%nat then KSingle else KMulti (bin_names (channel_bins c)))) (pf_channels f) (i_channels I)).
  { destruct (bt_chs _ _ _ B) as (rv & _ & HU). rewrite HP in HU. clear -HU Hch Ho Hbins. revert Hbins chs Ho Hch. revert HU. generalize (m_channels m) as mc. generalize (i_channels I) as ic. induction (pf_channels f) as [|c l IH]; intros ic mc HU Hbins chs Ho Hch; inversion Ho as [|? o ? os (O1 & O2) O3]; subst; inversion Hch as [|? kc ? ? (K1 & K2 & K3) K4]; subst; inversion HU as [|? b ? ? (U1 & U2) U3]; subst; constructor.
    - apply update_channel_same in U2 as (En & Ek & _). specialize (O2 (Hbins c (or_introl eq_refl))). rewrite O2 in K3. split; [congruence|]. rewrite Ek, K3. now destruct (channel_bins c =? 1)%nat.
    - eapply IH; eauto. intros; apply Hbins; now right. }
  unfold data_load. rewrite (Hd obs Hobs). cbn [load_field dget String.eqb Ascii.eqb Bool.eqb bind as_ostr].
  assert (BL : exists bl, concat bl = counts /\ Forall2 (fun kc (b : list R) => length b = nbins (snd kc)) (i_channels I) bl /\
    forall i k c b, nth_error (i_channels I) i = Some (k, c) -> nth_error bl i = Some b -> exists d, find_channel (ch_name c) (map j_obs obs) = Ok d /\ forall old, length old = nbins c -> load_dataset c d old = (b, None)).
  { clear -HU Hcts. revert counts Hcts. induction HU as [|c kc l r (N & K) H2 IH]; intros counts Hcts.
    - cbn in Hcts. inversion Hcts. exists []. split; [reflexivity|]. split; [constructor|]. intros [|i]; discriminate.
    - cbn [observed] in Hcts. destruct (dget (pc_name c) obs) as [lc|] eqn:Eo; [|discriminate]. destruct (observed obs l) as [rc|] eqn:Er; [|discriminate]. destruct (Nat.eqb_spec (length lc) (channel_bins c)) as [Lc|]; [|discriminate]. inversion Hcts; subst counts.
      destruct (IH rc eq_refl) as (bl & P1 & P2 & P3). exists (lc :: bl). split; [cbn; now rewrite P1|]. split.
      + constructor; [|exact P2]. unfold nbins. rewrite K, Lc. destruct (Nat.eqb_spec (channel_bins c) 1) as [->|_]; [reflexivity|]. unfold bin_names. now rewrite map_length, seq_length.
      + intros [|i] k c' b Hi Hb; [|apply (P3 i k c' b Hi Hb)]. cbn in Hi, Hb. inversion Hi; subst kc. inversion Hb; subst b. cbn [snd] in *. rewrite N. destruct (find_observed obs (pc_name c) lc Eo) as (d & D1 & D2). exists d. split; [exact D2|].
        apply (observed_loads (pc_name c, lc) lc c' (channel_bins c) Lc K); [now rewrite N|exact D1]. }
  destruct BL as (bl & Ebl & Fbl & Hbl).
  pose proof (load_counts_all (map j_obs obs) (i_channels I) bl (d_counts d0) Fbl Hbl []) as LC. cbn [length app] in LC. rewrite LC by (rewrite L0; apply (bt_nb _ _ _ B)). rewrite Ebl.
  unfold aux_entries. cbn [dget String.eqb Ascii.eqb Bool.eqb jlist bind with_channels m_nps].
  assert (AE : forall v, In v (j_aux nps) -> exists n x, aux_entry v n x).
  { intros v Hv. apply j_aux_entries in Hv as (s & _ & _ & ->). exists (aux_of (ns_name s)), (ns_nominal s). eexists. split; [reflexivity|]. split; [reflexivity|]. eexists. split; reflexivity. }
  destruct (aux_entries_fold (j_aux nps) [] AE) as (r & Hrr & _). rewrite Hrr. cbn [bind].
  assert (Nn : map ns_name (values nps) = keys nps) by (unfold values, keys; rewrite map_map; apply map_ext_in; intros (k & s) Hin; cbn [snd fst]; now apply Names).
  assert (NDn : NoDup (map ns_name (values nps))) by (rewrite Nn; exact ND).
  assert (AV : aux_values (values (m_nps m)) r = Ok (repeat 0%R (length (m_nps m)))).
  { pose proof (bt_cons _ _ _ B) as BC. unfold aux_values. rewrite Hnps in BC |- *. replace (values (map (fun s => (ns_name s, loaded_np s)) (values nps))) with (map loaded_np (values nps)) by (unfold values at 2; rewrite map_map; reflexivity). rewrite map_length.
    assert (G : forall s, In s (values nps) -> match np_aux_obs (loaded_np s) with None => Ok 0%R | Some a => match dget a r with None => Err ValueError | Some x => match np_nominal (loaded_np s) with Some nom => scaled_value nom (np_variation (loaded_np s)) x | None => Err TypeError end end end = Ok 0%R).
    { intros s Hs. assert (Hcons : exists x, cons_of (loaded_np s) = Ok x) by (destruct (Forall2_in_l _ _ _ (ns_name s, loaded_np s) BC) as (x & _ & Hx); [apply in_map_iff; eauto|eauto]). destruct Hcons as (x0 & Hx0).
      unfold cons_of, scaled_constraint in Hx0. unfold loaded_np in *. cbn [np_aux_obs np_nominal np_variation np_constraint] in *. destruct (ns_constraint s) as [c|] eqn:Ec; [|reflexivity].
      assert (Hin : In (JObj [("name", JStr (aux_of (ns_name s))); ("value", JFlt (ns_nominal s))]) (j_aux nps)) by (apply j_aux_entries; exists s; repeat split; auto; congruence).
      rewrite (aux_entries_get (j_aux nps) [] r AE (j_aux_nodup nps NDn) Hrr _ (aux_of (ns_name s)) (ns_nominal s) Hin); [|eexists; split; [reflexivity|]; split; [reflexivity|]; eexists; split; reflexivity].
      set (v := match ns_variation s with Some v => v | None => c end) in *. destruct (Reqb v 0) eqn:Ev; [discriminate|]. unfold scaled_value. rewrite Ev. apply Reqb_false in Ev. f_equal. field. exact Ev. }
    clear -G. revert G. induction (values nps) as [|s l IH]; intros G; [reflexivity|]. cbn [map mapM length repeat]. rewrite (G s (or_introl eq_refl)). cbn [bind]. rewrite IH by (intros; apply G; now right). reflexivity. }
  rewrite AV. cbn [bind]. unfold set_aux_obs. cbn [with_channels m_nps]. rewrite repeat_length, Nat.eqb_refl. destruct (Nat.eqb_spec (length (m_nps m)) 0) as [Hz|_]; [|reflexivity].
  destruct (pm_nps_nominal _ _ (bt_pm _ _ _ B)) as [_ Hlp]. rewrite Hz in Hlp |- *. destruct (pm_nps (i_pm I)); [reflexivity|discriminate].
Qed.
Print Assumptions C84_observed_data.
(** two channels, whose observations are in the other order *)
Definition ex_pyhf2 : PFile :=
  mkPFile [mkPMeas "mu" []]
    [mkPChannel "SR" [mkPSample "S" [3; 4]%R [MNormfactor "mu"]; mkPSample "B" [10; 20]%R [MNormsys "xs" (11/10)%R (9/10)%R]];
     mkPChannel "CR" [mkPSample "B" [50]%R []]]
    (Some [("CR", [52]%R); ("SR", [12; 25]%R)]).
Example C84_nonvacuous : observed [("CR", [52]%R); ("SR", [12; 25]%R)] (pf_channels ex_pyhf2) = Some [12; 25; 52]%R /\
  exists out m I, convert false 0 ex_pyhf2 = Ok out /\ model_load ex_env shifted_model out = Ok (m, I) /\ i_nbins I = 3%nat /\ length (m_nps m) = 1%nat.
Proof.
  split; [reflexivity|]. eexists _, _, _. split; [ev; reflexivity|]. split; [ev; reflexivity|split; reflexivity].
Qed.
