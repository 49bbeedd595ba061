(** Properties of datasets (class Data of core.py). *)
From Coq Require Import Permutation.
From Verif Require Import Py PyFacts Base BaseFacts BaseProps Expressions Norms Sample SampleFacts Channels ChannelFacts Params ParamsFacts Core CoreFacts CoreExample ModelIO ModelIOFacts ModelIOProps.
Local Open Scope string_scope.
Local Open Scope list_scope.

(** * C27: auxiliary observables *)
(** [placed ps aux r]: [r] has one value per NP; read in order at the constrained NPs, it is [aux] *)
Definition constrained_values (ps : list NP) (r : list R) : list R := map snd (filter (fun pr => negb (np_is_free (fst pr))) (combine ps r)).
Definition n_constrained (ps : list NP) : nat := length (filter (fun p => negb (np_is_free p)) ps).

Lemma place_aux_spec : forall ps nominal aux, length nominal = length ps -> length aux = n_constrained ps ->
  exists r, place_aux ps nominal aux = Ok r /\ length r = length ps /\ constrained_values ps r = aux /\
  forall i p, nth_error ps i = Some p -> np_is_free p = true -> nth_error r i = nth_error nominal i.
Proof.
  unfold n_constrained, constrained_values. induction ps as [|p ps IH]; intros [|x nominal] aux Hn Ha; try discriminate; cbn in *.
  - exists []. destruct aux; [|discriminate]. repeat split; intros [|i] q Hq; discriminate.
  - injection Hn as Hn. destruct (np_is_free p) eqn:Ef; cbn in Ha.
    + destruct (IH nominal aux Hn Ha) as (r & H1 & H2 & H3 & H4). exists (x :: r). rewrite H1. cbn. rewrite Ef. cbn. repeat split; auto.
      intros [|i] q Hq Hf; cbn in *; [reflexivity|eapply H4; eauto].
    + destruct aux as [|a aux]; [discriminate|]. injection Ha as Ha. destruct (IH nominal aux Hn Ha) as (r & H1 & H2 & H3 & H4). exists (a :: r). rewrite H1. cbn. rewrite Ef. cbn.
      repeat split; auto; [congruence|]. intros [|i] q Hq Hf; cbn in *; [congruence|eapply H4; eauto].
Qed.

Lemma pm_nps_nominal m pm : pmodel_of m = Ok pm -> map (fun p => Some (snd (fst p))) (pm_nps pm) = map np_nominal (values (m_nps m)) /\ length (pm_nps pm) = length (m_nps m).
Proof.
  unfold pmodel_of. intros H. apply bind_Ok in H as (l & Hl & H). inversion H; subst pm; clear H. cbn [pm_nps].
  split; [|now apply mapM_Ok_length in Hl]. apply mapM_Forall2 in Hl. unfold values. rewrite map_map. symmetry. apply Forall2_map_eq. eapply Forall2_impl_in; [|exact Hl].
  intros [k p] b _ Hx. cbn in *. destruct (np_nominal p); inversion Hx. reflexivity.
Qed.

(** a vector of one value per constrained NP is placed at the constrained NPs in order, and the free NPs get their
    nominal value; a full-size vector is stored as it is; an empty one gives the nominal values; any other is rejected *)
Theorem C27_aux_obs_placement : forall E m I aux, set_internal_vars E m = Ok I -> length (m_aux m) = n_constrained (values (m_nps m)) ->
  (length aux = length (m_nps m) -> aux <> [] -> set_aux_obs m I aux = Ok aux) /\
  (length aux = length (m_aux m) -> length aux <> length (m_nps m) -> aux <> [] ->
     exists r, set_aux_obs m I aux = Ok r /\ length r = length (m_nps m) /\ constrained_values (values (m_nps m)) r = aux /\
     forall i p, nth_error (values (m_nps m)) i = Some p -> np_is_free p = true -> nth_error r i = np_nominal p) /\
  (length aux <> length (m_nps m) -> length aux <> length (m_aux m) -> aux <> [] -> set_aux_obs m I aux = Err ValueError) /\
  exists r, set_aux_obs m I [] = Ok r /\ map Some r = map np_nominal (values (m_nps m)).
Proof.
  intros E m I aux H HA. apply siv_built in H as B. destruct (pm_nps_nominal _ _ (bt_pm _ _ _ B)) as [Hn Hl].
  set (nominal := map (fun p : string * R * R => snd (fst p)) (pm_nps (i_pm I))) in *.
  assert (Hn' : map Some nominal = map np_nominal (values (m_nps m))) by (rewrite <- Hn; unfold nominal; rewrite map_map; reflexivity).
  assert (Hl' : length nominal = length (values (m_nps m))) by (unfold nominal, values; now rewrite !map_length).
  unfold set_aux_obs. fold nominal. repeat split.
  - intros L N. destruct aux as [|a aux]; [congruence|]. change (length (a :: aux) =? 0)%nat with false; cbv iota. rewrite (proj2 (Nat.eqb_eq _ _) L). reflexivity.
  - intros L L2 N. destruct aux as [|a aux]; [congruence|]. change (length (a :: aux) =? 0)%nat with false; cbv iota. rewrite (proj2 (Nat.eqb_neq _ _) L2), (proj2 (Nat.eqb_eq _ _) L).
    destruct (place_aux_spec (values (m_nps m)) nominal (a :: aux) Hl') as (r & H1 & H2 & H3 & H4); [rewrite L; exact HA|].
    exists r. split; [exact H1|]. split; [rewrite H2; unfold values; apply map_length|]. split; [exact H3|]. intros i p Hi Hf. rewrite (H4 i p Hi Hf).
    assert (Q : nth_error (map Some nominal) i = Some (np_nominal p)) by (rewrite Hn', nth_error_map, Hi; reflexivity).
    rewrite nth_error_map in Q. destruct (nth_error nominal i); [|discriminate]. cbn in Q. congruence.
  - intros L L2 N. destruct aux as [|a aux]; [congruence|]. change (length (a :: aux) =? 0)%nat with false; cbv iota. now rewrite (proj2 (Nat.eqb_neq _ _) L), (proj2 (Nat.eqb_neq _ _) L2).
  - exists nominal. split; [reflexivity|exact Hn'].
Qed.
Print Assumptions C27_aux_obs_placement.
Example C27_nonvacuous : exists I, set_internal_vars ex_env ex_model = Ok I /\ length (m_aux ex_model) = n_constrained (values (m_nps ex_model)) /\
  set_aux_obs ex_model I [3] = Ok [3; 1].
Proof. destruct ex_built_full as (I & H & _ & _ & _ & _ & Hp & _). exists I. split; [exact H|]. split; [reflexivity|]. unfold set_aux_obs. rewrite Hp. reflexivity. Qed.

(** the default does not correspond to an observation at nominal: the stored values are in units of the variation around
    the nominal value, but the default is the nominal value itself *)
Definition shifted_np : NP := mkNP (Some "np") (Some 1) (1/10) (Some (1/10)) (Some "aux") None None.
Definition shifted_model : Model := mkModel "m" None [] [("np", shifted_np)] [("aux", mkAux (Some "aux") None None None None)]
  [("SR", mkChannel "SR" KSingle [("B", mkSample "B" (NumberNorm (Some 1)) (Some 1) (Some [10]) [])])] [] true true true false 0.
Theorem C27_default_aux_not_nominal_refuted : exists E I d, set_internal_vars E shifted_model = Ok I /\ data_init shifted_model I [10] [] = Ok d /\
  d_aux d = [1] /\ d_aux d <> [0] /\
  (forall x, nll shifted_model I [] [x] d false None false = Ok (Fin (10 - 10 * ln 10 + 1/2 * (1 - x)²))).
Proof.
  assert (A : exists I, set_internal_vars ex_env shifted_model = Ok I /\ i_channels I = m_channels shifted_model /\ i_nbins I = 1%nat /\ i_nsamples I = 1%nat /\
    i_pm I = mkPM [] [("np", 1, 1/10)] /\ i_ref_pois I = [] /\ i_nbins_p I = 1%nat /\ i_nbins_g I = 0%nat /\ i_cons I = [1 / (1 / 10 / (1 / 10) * (1 / 10 / (1 / 10)))] /\ i_nvar I = 1%nat /\
    i_pos I 0%nat = 0 /\ i_neg I 0%nat = 0).
  { unfold shifted_model, shifted_np. eexists. split; [ev; reflexivity|]. repeat split; try reflexivity.
    all: cbn [i_pos i_neg]; unfold set_slice; cbn; lra. }
  destruct A as (I & H & Hc & Hb & Hs & Hp & Hr & Hnp & Hng & Hcs & Hv & Hpos & Hneg).
  exists ex_env, I, (mkData [10] [1]). split; [exact H|]. split; [unfold data_init, set_counts, set_aux_obs; rewrite Hb, Hp; reflexivity|]. split; [reflexivity|].
  split; [intros [= E]; lra|]. intros x.
  assert (T : forall x, exists t, tot_bin_exp shifted_model I [] [x] None = Ok t /\ t 0%nat = 10).
  { intros y. unfold tot_bin_exp, n_exp, nominal_row, cut_k_exp, k_exp. rewrite Hc, Hb, Hs, Hp, Hv. eexists. split; [ev; reflexivity|]. cbn.
    fold (i_pos I) (i_neg I). rewrite Hpos, Hneg. lra. }
  destruct (T x) as (t & Ht & Ht0). unfold nll. rewrite Ht. cbn [bind].
  assert (Rf : exists r, ref_yields shifted_model I = Ok r).
  { unfold ref_yields. rewrite Hr, Hp. cbn [pm_nps length repeat]. destruct (T 0) as (t0 & Ht00 & _). unfold tot_bin_exp in Ht00. apply bind_Ok in Ht00 as (n & Hn & _). rewrite Hn. cbn [bind]. eauto. }
  destruct Rf as (r & Hrf). rewrite Hrf. cbn [bind]. rewrite Hnp, Hng, Hp. cbn. unfold elog. rewrite Ht0. rewrite (proj2 (Rltb_true 0 10)) by lra. cbn [emulr eadd].
  unfold qform, cons_hess. rewrite Hcs. cbn. do 2 f_equal. unfold Rsqr. field.
Qed.
Print Assumptions C27_default_aux_not_nominal_refuted.

(** counts of the wrong size are rejected, though by accident: the error message refers to an undefined name *)
Theorem C27_counts_size : forall I counts, counts <> [] ->
  (length counts = i_nbins I -> set_counts I counts = Ok counts) /\ (length counts <> i_nbins I -> set_counts I counts = Err NameError).
Proof.
  intros I [|x l] H; [congruence|]. unfold set_counts. split; intros L; [rewrite (proj2 (Nat.eqb_eq _ _) L)|rewrite (proj2 (Nat.eqb_neq _ _) L)]; reflexivity.
Qed.
Print Assumptions C27_counts_size.

(** * C15: loading touches the counts of the other channels *)
Lemma skipn_skipn {A} x y (l : list A) : skipn x (skipn y l) = skipn (x + y) l.
Proof. revert l; induction y as [|y IH]; intros l; [now rewrite Nat.add_0_r|]. rewrite Nat.add_succ_r. destruct l; [now rewrite !skipn_nil|]. cbn. apply IH. Qed.
Lemma load_counts_length : forall chs entries off counts, (off + fold_right (fun c n => (nbins c + n)%nat) 0%nat chs <= length counts)%nat ->
  length (fst (load_counts chs entries off counts)) = length counts /\
  firstn off (fst (load_counts chs entries off counts)) = firstn off counts /\
  skipn (off + fold_right (fun c n => (nbins c + n)%nat) 0%nat chs) (fst (load_counts chs entries off counts)) = skipn (off + fold_right (fun c n => (nbins c + n)%nat) 0%nat chs) counts.
Proof.
  induction chs as [|c chs IH]; intros entries off counts HL; cbn [load_counts fold_right] in *; [auto|].
  destruct (find_channel (ch_name c) entries) as [d|e]; [|auto].
  pose proof (load_dataset_length c d (firstn (nbins c) (skipn off counts))) as LL. destruct (load_dataset c d (firstn (nbins c) (skipn off counts))) as [view o]. cbn [fst] in LL.
  rewrite firstn_length, skipn_length, Nat.min_l in LL by lia.
  set (counts' := firstn off counts ++ view ++ skipn (off + nbins c) counts).
  assert (L1 : length counts' = length counts) by (unfold counts'; rewrite !app_length, firstn_length, skipn_length; lia).
  assert (L2 : firstn off counts' = firstn off counts).
  { unfold counts'. rewrite firstn_app, firstn_firstn, Nat.min_id, firstn_length, Nat.min_l by lia. now rewrite Nat.sub_diag, firstn_O, app_nil_r. }
  assert (L3 : skipn (off + nbins c) counts' = skipn (off + nbins c) counts).
  { unfold counts'. rewrite app_assoc. rewrite skipn_app, skipn_all2 by (rewrite app_length, firstn_length; lia). rewrite app_length, firstn_length, Nat.min_l, LL by lia. now rewrite Nat.sub_diag, skipn_O. }
  assert (L4 : forall k, (off + nbins c <= k)%nat -> skipn k counts' = skipn k counts).
  { intros k Hk. replace k with (k - (off + nbins c) + (off + nbins c))%nat by lia. rewrite <- (skipn_skipn (k - (off + nbins c)) (off + nbins c) counts'), <- (skipn_skipn (k - (off + nbins c)) (off + nbins c) counts), L3. reflexivity. }
  destruct o as [e|]; cbn [errE fst].
  - split; [exact L1|]. split; [exact L2|]. apply L4. lia.
  - destruct (IH entries (off + nbins c)%nat counts') as (A & B & C); [lia|]. split; [congruence|]. split.
    + rewrite <- L2. set (X := fst (load_counts chs entries (off + nbins c) counts')) in *.
      assert (F : forall l : list R, firstn off l = firstn off (firstn (off + nbins c) l)) by (intros l; rewrite firstn_firstn; f_equal; lia).
      rewrite (F X), (F counts'), B. reflexivity.
    + rewrite !Nat.add_assoc. rewrite C. apply L4. lia.
Qed.
(** whether loading succeeds or not: the counts of the channels before it are those loaded for them, and the counts of
    the channels after a rejected one are unchanged *)
Theorem C15_rejected_channel_keeps_later_counts : forall pre c post entries counts counts1,
  let upto := fold_right (fun c n => (nbins c + n)%nat) 0%nat (pre ++ [c]) in
  (upto <= length counts)%nat ->
  load_counts pre entries 0 counts = (counts1, None) ->
  (forall counts2, load_counts (pre ++ [c]) entries 0 counts <> (counts2, None)) ->
  skipn upto (fst (load_counts (pre ++ c :: post) entries 0 counts)) = skipn upto counts /\
  snd (load_counts (pre ++ c :: post) entries 0 counts) <> None.
Proof.
  intros pre c post entries counts counts1 upto HL Hpre Hc.
  assert (A : forall pre off counts counts1 post, load_counts pre entries off counts = (counts1, None) ->
     load_counts (pre ++ post) entries off counts = load_counts post entries (off + fold_right (fun c n => (nbins c + n)%nat) 0%nat pre) counts1).
  { clear. induction pre as [|c0 pre IH]; intros off counts counts1 post H; cbn [load_counts app fold_right] in *.
    - inversion H. now rewrite Nat.add_0_r.
    - destruct (find_channel (ch_name c0) entries); [|discriminate]. destruct (load_dataset c0 a _) as [view [e|]]; [discriminate|]. rewrite (IH _ _ _ _ H). f_equal. lia. }
  pose proof (A pre 0%nat counts counts1 (c :: post) Hpre) as A1. pose proof (A pre 0%nat counts counts1 [c] Hpre) as A2. cbn [Nat.add] in A1, A2.
  assert (Eu : upto = (fold_right (fun c n => (nbins c + n)%nat) 0%nat pre + nbins c)%nat) by (unfold upto; rewrite fold_right_app; cbn; clear; induction pre; cbn; lia).
  set (off := fold_right (fun c n => (nbins c + n)%nat) 0%nat pre) in *.
  assert (E1 : load_counts (pre ++ c :: post) entries 0 counts = load_counts (pre ++ [c]) entries 0 counts).
  { rewrite A1, A2. cbn [load_counts]. destruct (find_channel (ch_name c) entries) as [d|e] eqn:Ef; [|reflexivity].
    destruct (load_dataset c d (firstn (nbins c) (skipn off counts1))) as [view [e|]] eqn:El; [reflexivity|].
    exfalso. rewrite A2 in Hc. cbn [load_counts] in Hc. rewrite Ef in Hc. eapply Hc. rewrite El. reflexivity. }
  rewrite E1. split.
  - destruct (load_counts_length (pre ++ [c]) entries 0 counts) as (_ & _ & C); [cbn [Nat.add]; exact HL|]. exact C.
  - intros Hs. destruct (load_counts (pre ++ [c]) entries 0 counts) as [c2 o] eqn:E2. cbn in Hs. subst o. eapply Hc. reflexivity.
Qed.
Print Assumptions C15_rejected_channel_keeps_later_counts.

(** * C28 *)
(** entries of the markup that can be looked up by name *)
Definition entry_name (v : jv) : option string := match v with JObj d => match dget "name" d with Some (JStr s) => Some s | _ => None end | _ => None end.
Definition well_named (l : list jv) : Prop := (forall v, In v l -> entry_name v <> None) /\ NoDup (map entry_name l).

Lemma find_channel_spec name l : (forall v, In v l -> entry_name v <> None) ->
  match find_channel name l with
  | Ok d => In (JObj d) l /\ entry_name (JObj d) = Some name
  | Err e => e = ValueError /\ ~ In (Some name) (map entry_name l)
  end.
Proof.
  induction l as [|v l IH]; intros H; cbn [find_channel]; [split; [reflexivity|intros []]|].
  assert (Hv := H v (or_introl eq_refl)). specialize (IH (fun w Hw => H w (or_intror Hw))). destruct v as [| | | | | |d]; cbn [entry_name] in Hv; try congruence.
  destruct (dget "name" d) as [n|] eqn:En; [|congruence]. destruct n as [| | | |s| |]; try congruence.
  destruct (String.eqb_spec s name) as [->|Hne].
  - split; [now left|]. cbn. now rewrite En.
  - destruct (find_channel name l) as [d'|e].
    + destruct IH. split; [now right|assumption].
    + destruct IH as [-> IH]. split; [reflexivity|]. cbn [map In]. intros [K|K]; [|contradiction]. cbn in K. rewrite En in K. congruence.
Qed.
Lemma nodup_map_inj {A B} (f : A -> B) l x y : NoDup (map f l) -> In x l -> In y l -> f x = f y -> x = y.
Proof.
  induction l as [|a l IH]; cbn; intros HN Hx Hy E; [destruct Hx|]. inversion HN; subst. destruct Hx as [->|Hx], Hy as [->|Hy]; auto.
  - exfalso. apply H1. rewrite E. now apply in_map.
  - exfalso. apply H1. rewrite <- E. now apply in_map.
Qed.
Lemma find_channel_perm name l l' : well_named l -> Permutation l l' -> find_channel name l = find_channel name l'.
Proof.
  intros [H HN] HP. assert (H' : forall v, In v l' -> entry_name v <> None) by (intros v Hv; apply H; eapply Permutation_in; [symmetry; exact HP|exact Hv]).
  pose proof (find_channel_spec name l H) as A. pose proof (find_channel_spec name l' H') as B.
  destruct (find_channel name l) as [d|e], (find_channel name l') as [d'|e'].
  - destruct A as [A1 A2], B as [B1 B2]. apply (Permutation_in _ (Permutation_sym HP)) in B1.
    pose proof (nodup_map_inj entry_name l _ _ HN A1 B1 (eq_trans A2 (eq_sym B2))). congruence.
  - exfalso. apply (proj2 B). rewrite <- (proj2 A). apply in_map. eapply Permutation_in; [exact HP|]. apply A.
  - exfalso. apply (proj2 A). rewrite <- (proj2 B). apply in_map. eapply Permutation_in; [symmetry; exact HP|]. apply B.
  - destruct A as [-> _], B as [-> _]. reflexivity.
Qed.
Lemma load_counts_perm l l' : well_named l -> Permutation l l' -> forall chs off counts, load_counts chs l off counts = load_counts chs l' off counts.
Proof.
  intros W HP. induction chs as [|c chs IH]; intros off counts; cbn [load_counts]; [reflexivity|].
  rewrite (find_channel_perm (ch_name c) l l' W HP). destruct (find_channel (ch_name c) l'); [|reflexivity].
  destruct (load_dataset c a (firstn (nbins c) (skipn off counts))) as [v o]. destruct o; [reflexivity|]. apply IH.
Qed.

(** well formed auxiliary observables: a name and a number *)
Definition aux_entry (v : jv) (n : string) (x : R) : Prop := exists d, v = JObj d /\ dget "name" d = Some (JStr n) /\ exists w, dget "value" d = Some w /\ jnum w = Some x.
Lemma aux_entries_fold : forall l acc, (forall v, In v l -> exists n x, aux_entry v n x) -> exists r,
  foldM (fun acc e => let! n := bind (jget "name" e) jstr in let! x := bind (jget "value" e) jreal in Ok (dset n x acc)) l acc = Ok r /\
  forall n, (forall v, In v l -> entry_name v <> Some n) -> dget n r = dget n acc.
Proof.
  induction l as [|v l IH]; intros acc H; cbn [foldM]; [exists acc; auto|].
  destruct (H v (or_introl eq_refl)) as (n & x & d & -> & Hn & w & Hw & Hx). cbn [jget]. unfold dgetE. rewrite Hn, Hw. cbn [bind jstr]. unfold jreal. rewrite Hx. cbn [bind].
  destruct (IH (dset n x acc) (fun u Hu => H u (or_intror Hu))) as (r & Hr & Hd). exists r. split; [exact Hr|].
  intros k Hk. rewrite Hd by (intros u Hu; apply Hk; now right). apply dget_dset_neq. intros ->. apply (Hk (JObj d) (or_introl eq_refl)). cbn. now rewrite Hn.
Qed.
Lemma aux_entries_get : forall l acc r, (forall v, In v l -> exists n x, aux_entry v n x) -> NoDup (map entry_name l) ->
  foldM (fun acc e => let! n := bind (jget "name" e) jstr in let! x := bind (jget "value" e) jreal in Ok (dset n x acc)) l acc = Ok r ->
  forall v n x, In v l -> aux_entry v n x -> dget n r = Some x.
Proof.
  induction l as [|v l IH]; intros acc r H HN HF u n x Hu Ha; [destruct Hu|]. cbn [foldM map] in HF, HN. inversion HN as [|? ? Hni HN']; subst.
  destruct (H v (or_introl eq_refl)) as (n1 & x1 & d & -> & Hn & w & Hw & Hx). cbn [jget] in HF. unfold dgetE in HF. rewrite Hn, Hw in HF. cbn [bind jstr] in HF. assert (Hjr : jreal w = Ok x1) by (unfold jreal; now rewrite Hx). rewrite Hjr in HF. cbn [bind] in HF.
  destruct Hu as [<-|Hu].
  - destruct Ha as (d' & [= <-] & Hn' & w' & Hw' & Hx'). rewrite Hn in Hn'. inversion Hn'; subst n1. rewrite Hw in Hw'. inversion Hw'; subst w'. rewrite Hx in Hx'. inversion Hx'; subst x1.
    destruct (aux_entries_fold l (dset n x acc) (fun u Hu => H u (or_intror Hu))) as (r' & Hr' & Hd). rewrite HF in Hr'. inversion Hr'; subst r'. rewrite Hd; [apply dget_dset_eq|].
    intros u Hu E. apply Hni. cbn. rewrite Hn, <- E. now apply in_map.
  - eapply IH; eauto. intros; apply H; now right.
Qed.
Lemma aux_entries_perm l l' : (forall v, In v l -> exists n x, aux_entry v n x) -> NoDup (map entry_name l) -> Permutation l l' ->
  forall dd dd', dget "aux_obs" dd = Some (JList l) -> dget "aux_obs" dd' = Some (JList l') -> exists r r', aux_entries dd = Ok r /\ aux_entries dd' = Ok r' /\ forall n, dget n r = dget n r'.
Proof.
  intros H HN HP dd dd' D D'. unfold aux_entries. rewrite D, D'. cbn [jlist bind].
  assert (H' : forall v, In v l' -> exists n x, aux_entry v n x) by (intros v Hv; apply H; eapply Permutation_in; [symmetry; exact HP|exact Hv]).
  assert (HN' : NoDup (map entry_name l')) by (eapply Permutation_NoDup; [apply Permutation_map; exact HP|exact HN]).
  destruct (aux_entries_fold l [] H) as (r & Hr & Hd). destruct (aux_entries_fold l' [] H') as (r' & Hr' & Hd'). exists r, r'. split; [exact Hr|]. split; [exact Hr'|]. intros n.
  assert (Dec : (exists v, In v l /\ entry_name v = Some n) \/ (forall v, In v l -> entry_name v <> Some n)).
  { destruct (in_dec (fun a b : option string => ltac:(decide equality; apply string_dec)) (Some n) (map entry_name l)) as [i|i].
    - left. apply in_map_iff in i as (v & E & Hv). eauto.
    - right. intros v Hv E. apply i. rewrite <- E. now apply in_map. }
  destruct Dec as [(v & Hv & En)|Hno].
  - destruct (H v Hv) as (n1 & x & Ha). assert (n1 = n) by (destruct Ha as (d & -> & Hn & _); cbn in En; rewrite Hn in En; congruence). subst n1.
    rewrite (aux_entries_get l [] r H HN Hr v n x Hv Ha). symmetry. apply (aux_entries_get l' [] r' H' HN' Hr' v n x); [eapply Permutation_in; [exact HP|exact Hv]|exact Ha].
  - rewrite Hd by exact Hno. rewrite Hd'; [reflexivity|]. intros v Hv. apply Hno. eapply Permutation_in; [symmetry; exact HP|exact Hv].
Qed.

(** the channel and auxiliary observable entries can be given in any order *)
Theorem C28_load_order_independent : forall m I d0 sd sd' dd dd' l l' a a',
  dget "data" sd = Some (JObj dd) -> dget "data" sd' = Some (JObj dd') -> dget "description" dd' = dget "description" dd ->
  dget "channels" dd = Some (JList l) -> dget "channels" dd' = Some (JList l') -> Permutation l l' -> well_named l ->
  dget "aux_obs" dd = Some (JList a) -> dget "aux_obs" dd' = Some (JList a') -> Permutation a a' ->
  (forall v, In v a -> exists n x, aux_entry v n x) -> NoDup (map entry_name a) ->
  data_load m I d0 sd = data_load m I d0 sd'.
Proof.
  intros m I d0 sd sd' dd dd' l l' a a' H1 H2 H3 H4 H5 P1 W H6 H7 P2 A N. unfold data_load. rewrite H1, H2.
  assert (Hdesc : load_field "description" dd' JNull [TStr] = load_field "description" dd JNull [TStr]) by (unfold load_field; now rewrite H3).
  rewrite Hdesc. destruct (bind (load_field "description" dd JNull [TStr]) as_ostr); [|reflexivity]. rewrite H4, H5, (load_counts_perm l l' W P1).
  destruct (load_counts (values (i_channels I)) l' 0 (d_counts d0)) as [counts o]. destruct o; [reflexivity|].
  destruct (aux_entries_perm a a' A N P2 dd dd' H6 H7) as (r & r' & -> & -> & Hr). cbn [bind].
  assert (E : aux_values (values (m_nps m)) r = aux_values (values (m_nps m)) r').
  { unfold aux_values. induction (values (m_nps m)) as [|p ps IH]; cbn [mapM]; [reflexivity|]. rewrite IH. f_equal. destruct (np_aux_obs p); [|reflexivity]. now rewrite Hr. }
  rewrite E. reflexivity.
Qed.
Print Assumptions C28_load_order_independent.

(** saving then loading.  The counts come back truncated towards zero, so whole numbers are kept; the auxiliary
    observables come back at the NPs that have one, and as 0 at the others *)
Lemma aux_dump_spec : forall ps aux, length aux = length ps -> (forall p, In p ps -> np_nominal p <> None) ->
  exists l, aux_dump ps aux = Ok l /\
  (forall v, In v l -> exists n x, aux_entry v n x) /\
  map entry_name l = map Some (flat_map (fun p => match np_aux_obs p with Some a => [a] | None => [] end) ps) /\
  (forall i p x a nom, nth_error ps i = Some p -> nth_error aux i = Some x -> np_aux_obs p = Some a -> np_nominal p = Some nom ->
     exists v, In v l /\ aux_entry v a (unscaled_value nom (np_variation p) x)).
Proof.
  unfold aux_dump. induction ps as [|p ps IH]; intros [|x aux] HL Hn; try discriminate; cbn [combine mapM fst snd].
  - exists []. split; [reflexivity|]. split; [intros v []|]. split; [reflexivity|]. intros [|i] p x a nom; discriminate.
  - injection HL as HL. destruct (IH aux HL (fun q Hq => Hn q (or_intror Hq))) as (l & H1 & H2 & H3 & H4). apply bind_Ok in H1 as (l0 & H0 & H1). rewrite H0. inversion H1; subst l; clear H1.
    destruct (np_nominal p) as [nom|] eqn:En; [|exfalso; now apply (Hn p (or_introl eq_refl))].
    destruct (np_aux_obs p) as [a|] eqn:Ea; cbn [bind concat app]; eexists; (split; [reflexivity|]).
    + set (v := JObj [("name", JStr a); ("value", JFlt (unscaled_value nom (np_variation p) x))]).
      assert (Hv : aux_entry v a (unscaled_value nom (np_variation p) x)) by (eexists; split; [reflexivity|]; split; [reflexivity|]; eexists; split; reflexivity).
      split; [intros w [<-|Hw]; [eauto|auto]|]. split; [cbn [map flat_map]; rewrite Ea; cbn; f_equal; exact H3|].
      intros [|i] q y b nom' Hq Hy Hb Hnm; cbn in Hq, Hy.
      * inversion Hq; inversion Hy; subst q y. rewrite Ea in Hb. rewrite En in Hnm. inversion Hb; inversion Hnm; subst b nom'. exists v. split; [now left|exact Hv].
      * destruct (H4 i q y b nom' Hq Hy Hb Hnm) as (w & Hw & Hw2). exists w. split; [now right|exact Hw2].
    + split; [exact H2|]. split; [cbn [map flat_map]; rewrite Ea; exact H3|].
      intros [|i] q y b nom' Hq Hy Hb Hnm; cbn in Hq, Hy; [congruence|eapply H4; eauto].
Qed.

Lemma load_counts_all entries : forall (chs : dict Channel) bl rest, Forall2 (fun kc (b : list R) => length b = nbins (snd kc)) chs bl ->
  (forall i k c b, nth_error chs i = Some (k, c) -> nth_error bl i = Some b -> exists d, find_channel (ch_name c) entries = Ok d /\ forall old, length old = nbins c -> load_dataset c d old = (b, None)) ->
  forall done, length rest = total_bins chs ->
  load_counts (values chs) entries (length done) (done ++ rest) = (done ++ concat bl, None).
Proof.
  intros chs bl rest HF. revert rest. induction HF as [|[k c] b chs bl Hb HF IH]; intros rest H done HL.
  - cbn. destruct rest; [|discriminate]. reflexivity.
  - cbn [values map snd load_counts concat]. destruct (H 0%nat k c b eq_refl eq_refl) as (d & Hd & Hl). rewrite Hd. cbn [snd] in Hb.
    change (total_bins ((k, c) :: chs)) with (nbins c + total_bins chs)%nat in HL.
    assert (Sk : firstn (nbins c) (skipn (length done) (done ++ rest)) = firstn (nbins c) rest) by (rewrite skipn_app, skipn_all, Nat.sub_diag, skipn_O; reflexivity).
    rewrite Sk. rewrite Hl by (rewrite firstn_length; unfold total_bins in HL; lia).
    rewrite firstn_app, firstn_all, Nat.sub_diag, firstn_O, app_nil_r.
    replace (skipn (length done + nbins c) (done ++ rest)) with (skipn (nbins c) rest).
    2: { rewrite skipn_app, (skipn_all2 done) by lia. cbn [app]. f_equal. lia. }
    rewrite app_assoc. replace (length done + nbins c)%nat with (length (done ++ b)) by (rewrite app_length; lia). rewrite app_assoc.
    unfold values in IH. apply IH.
    + intros i k' c' b' Hi Hb'. apply (H (S i) k' c' b' Hi Hb').
    + rewrite skipn_length. lia.
Qed.

Lemma named_find : forall (chs : dict Channel) (es : list (dict jv)), Forall2 (fun kc d => dget "name" d = Some (JStr (ch_name (snd kc)))) chs es ->
  NoDup (map (fun kc => ch_name (snd kc)) chs) -> forall i k c d, nth_error chs i = Some (k, c) -> nth_error es i = Some d -> find_channel (ch_name c) (map JObj es) = Ok d.
Proof.
  induction 1 as [|[k0 c0] d0 chs es H0 HF IH]; intros HN i k c d Hc Hd; [destruct i; discriminate|]. cbn [map find_channel]. cbn [snd] in H0. rewrite H0.
  cbn [map snd] in HN. inversion HN as [|? ? Hni HN']; subst. destruct i as [|i]; cbn in Hc, Hd.
  - inversion Hc; inversion Hd; subst. now rewrite String.eqb_refl.
  - destruct (String.eqb_spec (ch_name c0) (ch_name c)) as [E|_]; [|eapply IH; eauto].
    exfalso. apply Hni. rewrite E. change (ch_name c) with ((fun kc : string * Channel => ch_name (snd kc)) (k, c)). apply in_map. eapply nth_error_In; exact Hc.
Qed.
Lemma save_dataset_name c x d : save_dataset c x = Ok d -> dget "name" d = Some (JStr (ch_name c)).
Proof. unfold save_dataset. destruct (negb _); [discriminate|]. intros [= <-]. destruct (ch_kind c); reflexivity. Qed.

Theorem C28_dataset_save_load_roundtrip : forall E m I zs aux d0 descr sd,
  set_internal_vars E m = Ok I -> NoDup (keys (m_channels m)) ->
  (forall k c, In (k, c) (m_channels m) -> is_gaussian c = false /\ ch_name c = k) ->
  length zs = i_nbins I -> length (d_counts d0) = i_nbins I -> length aux = length (m_nps m) ->
  (forall k p, In (k, p) (m_nps m) -> np_variation p <> 0) ->
  NoDup (flat_map (fun p => match np_aux_obs p with Some a => [a] | None => [] end) (values (m_nps m))) ->
  (forall i p, nth_error (values (m_nps m)) i = Some p -> np_aux_obs p = None -> nth i aux 0 = 0) ->
  exists sd', data_fill m I (mkData (map IZR zs) aux) descr sd = Ok sd' /\ data_load m I d0 sd' = (mkData (map IZR zs) aux, None).
Proof.
  intros E m I zs aux d0 descr sd H HN Hch Lz L0 La Hv Hna Hz. apply siv_built in H as B.
  pose proof (built_poisson_first _ _ _ HN B) as HP. pose proof (built_channels _ _ _ B) as HF. rewrite HP in HF.
  assert (HNi : NoDup (keys (i_channels I))) by (rewrite (built_keys _ _ _ B); exact HN).
  destruct (pm_nps_nominal _ _ (bt_pm _ _ _ B)) as [Hnom Hlp].
  (* blocks of counts *)
  assert (Hbl : exists bz, concat bz = zs /\ Forall2 (fun kc (b : list Z) => length b = nbins (snd kc)) (i_channels I) bz).
  { rewrite (bt_nb _ _ _ B) in Lz. clear - Lz. revert zs Lz. induction (i_channels I) as [|[k c] chs IH]; intros zs Lz.
    - exists []. cbn in *. destruct zs; [|discriminate]. split; [reflexivity|constructor].
    - change (total_bins ((k, c) :: chs)) with (nbins c + total_bins chs)%nat in Lz.
      destruct (IH (skipn (nbins c) zs)) as (bz & E1 & E2); [rewrite skipn_length; lia|]. exists (firstn (nbins c) zs :: bz). split; [cbn; rewrite E1; apply firstn_skipn|].
      constructor; [cbn; rewrite firstn_length; lia|exact E2]. }
  destruct Hbl as (bz & Ez & Fz). set (bl := map (map IZR) bz).
  assert (Ebl : concat bl = map IZR zs) by (unfold bl; rewrite <- Ez; symmetry; apply concat_map).
  assert (Fbl : Forall2 (fun kc (b : list R) => length b = nbins (snd kc)) (i_channels I) bl).
  { unfold bl. clear - Fz. induction Fz; cbn; constructor; [now rewrite map_length|assumption]. }
  (* names and kinds *)
  assert (Hci : forall k c, In (k, c) (i_channels I) -> is_gaussian c = false /\ ch_name c = k).
  { destruct (bt_chs _ _ _ B) as (rv & _ & HU). rewrite HP in HU. intros k c Hin.
    assert (HU' : Forall2 (fun b a => fst b = fst a /\ update_channel E (i_pm I) (model_reals m) rv (snd a) = Ok (snd b)) (i_channels I) (m_channels m)).
    { clear - HU. induction HU; constructor; auto. }
    destruct (Forall2_in_l _ _ _ _ HU' Hin) as ([k' c'] & Hin' & E1 & E2). cbn in E1, E2. subst k'. apply update_channel_same in E2 as (En & Ek & _).
    destruct (Hch k c' Hin') as [G N]. split; [rewrite <- G; now apply gauss_kind|congruence]. }
  (* saving *)
  assert (Hsv : exists es, mapM (fun kc => let! s := channel_slice I (fst kc) (map IZR zs) in let! e := save_dataset (snd kc) s in Ok (JObj e)) (i_channels I) = Ok (map JObj es) /\
     Forall2 (fun kc d => dget "name" d = Some (JStr (ch_name (snd kc)))) (i_channels I) es /\
     forall i k c b d, nth_error (i_channels I) i = Some (k, c) -> nth_error bl i = Some b -> nth_error es i = Some d -> forall old, length old = nbins c -> load_dataset c d old = (b, None)).
  { assert (S0 : forall i k c b, nth_error (i_channels I) i = Some (k, c) -> nth_error bl i = Some b -> channel_slice I k (map IZR zs) = Ok b).
    { intros i k c b Hi Hb. rewrite <- Ebl. unfold channel_slice. rewrite (bt_off _ _ _ B). apply nth_error_In in Hi as Hin.
      pose proof (In_dget _ _ _ HNi Hin) as Hd. destruct (slice_block (i_channels I) bl k c HNi Fbl Hd) as (off & b' & H1 & H2 & H3 & H4).
      unfold off_of in H1. unfold dgetE. rewrite H1, Hd. cbn [bind]. rewrite H3. f_equal. apply In_nth_error in H2 as (j & Hj).
      assert (Hc : nth_error (i_channels I) j = Some (k, c) /\ nth_error bl j = Some b').
      { clear - Hj. revert j Hj. generalize bl. induction (i_channels I) as [|x l IH]; intros [|y bl0] [|j] Hj; cbn in *; try discriminate; auto. inversion Hj; subst; auto. }
      destruct Hc as [Hc1 Hc2]. assert (i = j).
      { apply (proj1 (NoDup_nth_error (keys (i_channels I))) HNi).
        - unfold keys. rewrite map_length. apply nth_error_Some. congruence.
        - unfold keys. rewrite !nth_error_map, Hi, Hc1. reflexivity. }
      subst j. congruence. }
    assert (GI : forall (chs : dict Channel) (blx : list (list R)) (bzx : list (list Z)), blx = map (map IZR) bzx -> Forall2 (fun kc (b : list R) => length b = nbins (snd kc)) chs blx ->
      (forall k c, In (k, c) chs -> is_gaussian c = false) ->
      (forall i k c b, nth_error chs i = Some (k, c) -> nth_error blx i = Some b -> channel_slice I k (map IZR zs) = Ok b) ->
      exists es, mapM (fun kc => let! s := channel_slice I (fst kc) (map IZR zs) in let! e := save_dataset (snd kc) s in Ok (JObj e)) chs = Ok (map JObj es) /\
      Forall2 (fun kc d => dget "name" d = Some (JStr (ch_name (snd kc)))) chs es /\
      forall i k c b d, nth_error chs i = Some (k, c) -> nth_error blx i = Some b -> nth_error es i = Some d -> forall old, length old = nbins c -> load_dataset c d old = (b, None)).
    { clear. intros chs blx bzx Eb Fb. revert bzx Eb. induction Fb as [|[k c] b chs blx Hb Fb IH]; intros bzx Eb Hg HS.
      - exists []. split; [reflexivity|]. split; [constructor|]. intros [|i]; discriminate.
      - destruct bzx as [|bz0 bzx]; [discriminate|]. cbn [map] in Eb. inversion Eb; subst b blx. cbn [snd] in Hb. clear Eb.
        destruct (IH bzx eq_refl) as (es & E1 & E2 & E3); [intros; eapply Hg; right; eauto|intros i; apply (HS (S i))|].
        assert (Hw : forall old, length old = nbins c -> exists d, save_dataset c (map IZR bz0) = Ok d /\ load_dataset c d old = (map IZR bz0, None)).
        { intros old Ho. destruct (save_load_dataset c (map IZR bz0) old (Hg k c (or_introl eq_refl)) Hb Ho) as (d & Q1 & Q2). exists d. split; [exact Q1|].
          rewrite Q2. f_equal. rewrite map_map. apply map_ext. intros z. now rewrite py_int_IZR. }
        destruct (Hw (map IZR bz0) Hb) as (d & Hd & _). exists (d :: es). cbn [mapM fst snd map]. rewrite (HS 0%nat k c _ eq_refl eq_refl). cbn [bind]. rewrite Hd. cbn [bind]. rewrite E1. split; [reflexivity|].
        split; [constructor; [apply (save_dataset_name _ _ _ Hd)|exact E2]|].
        intros [|i] k' c' b' d' Hi Hb' Hd' old Ho; cbn in Hi, Hb', Hd'.
        + inversion Hi; inversion Hb'; inversion Hd'; subst. destruct (Hw old Ho) as (d2 & Q1 & Q2). rewrite Hd in Q1. inversion Q1; subst d2. exact Q2.
        + eapply E3; eauto. }
    apply (GI (i_channels I) bl bz eq_refl Fbl); [|exact S0]. intros k c Hin. apply (Hci k c Hin). }
  destruct Hsv as (es & Es & Fes & Les).
  assert (Hnn : forall p, In p (values (m_nps m)) -> np_nominal p <> None).
  { intros p Hp Hno. apply (in_map np_nominal) in Hp. rewrite Hno, <- Hnom in Hp. apply in_map_iff in Hp as (q & Q & _). discriminate. }
  destruct (aux_dump_spec (values (m_nps m)) aux) as (al & A1 & A2 & A3 & A4); [unfold values; rewrite map_length; exact La|exact Hnn|].
  unfold data_fill. cbn [d_counts d_aux]. rewrite Es. cbn [bind]. rewrite A1. cbn [bind]. eexists. split; [reflexivity|].
  unfold data_load. rewrite dget_dset_eq.
  assert (Gd : exists o, bind (load_field "description" (match descr with Some s => [("description", JStr s)] | None => [] end ++ [("channels", JList (map JObj es)); ("aux_obs", JList al)]) JNull [TStr]) as_ostr = Ok o)
    by (destruct descr; eexists; reflexivity). destruct Gd as (o & Gd). rewrite Gd.
  assert (Gc : dget "channels" (match descr with Some s => [("description", JStr s)] | None => [] end ++ [("channels", JList (map JObj es)); ("aux_obs", JList al)]) = Some (JList (map JObj es))) by (destruct descr; reflexivity).
  assert (Ga : dget "aux_obs" (match descr with Some s => [("description", JStr s)] | None => [] end ++ [("channels", JList (map JObj es)); ("aux_obs", JList al)]) = Some (JList al)) by (destruct descr; reflexivity).
  rewrite Gc.
  pose proof (load_counts_all (map JObj es) (i_channels I) bl (d_counts d0) Fbl) as LC. specialize (LC) with (done := []). cbn [length app] in LC. rewrite LC; clear LC.
  3: rewrite <- (bt_nb _ _ _ B); exact L0.
  2: { intros i k c b Hi Hb. assert (Hd : exists d, nth_error es i = Some d).
       { assert (Hlt : (i < length (i_channels I))%nat) by (apply nth_error_Some; congruence). rewrite (Forall2_length _ _ _ Fes) in Hlt. exact (nth_error_length es i Hlt). }
       destruct Hd as (d & Hd). exists d. split; [|intros old Ho; eapply Les; eauto].
       eapply named_find; eauto. erewrite map_ext_in; [exact HNi|]. intros [k' c'] Hin. cbn. apply (Hci k' c' Hin). }
  unfold aux_entries. rewrite Ga. cbn [jlist bind]. destruct (aux_entries_fold al [] A2) as (r & Hr & _). rewrite Hr. cbn [bind].
  assert (NDa : NoDup (map entry_name al)) by (rewrite A3; apply FinFun.Injective_map_NoDup; [intros x y [= ->]; reflexivity|exact Hna]).
  assert (Hav : aux_values (values (m_nps m)) r = Ok aux).
  { unfold aux_values. apply Forall2_mapM. assert (Hl2 : length (values (m_nps m)) = length aux) by (unfold values; rewrite map_length; auto).
    assert (Hg : forall i p x, nth_error (values (m_nps m)) i = Some p -> nth_error aux i = Some x ->
       match np_aux_obs p with None => Ok 0 | Some a => match dget a r with None => Err ValueError | Some x => match np_nominal p with Some nom => scaled_value nom (np_variation p) x | None => Err TypeError end end end = Ok x).
    { intros i p x Hp Hx. destruct (np_aux_obs p) as [a|] eqn:Ea.
      - destruct (np_nominal p) as [nom|] eqn:En; [|exfalso; apply (Hnn p); [eapply nth_error_In; eauto|exact En]].
        destruct (A4 i p x a nom Hp Hx Ea En) as (v & Hin & Hae). rewrite (aux_entries_get al [] r A2 NDa Hr v a _ Hin Hae).
        apply nth_error_In in Hp. apply in_map_iff in Hp as ([k q] & Eq & Hq). cbn in Eq; subst q. apply C03_scaled_of_unscaled. apply (Hv k p Hq).
      - specialize (Hz i p Hp Ea). rewrite (nth_error_nth _ _ 0 Hx) in Hz. congruence. }
    clear - Hl2 Hg. revert aux Hl2 Hg. induction (values (m_nps m)) as [|p ps IH]; intros [|x aux] Hl2 Hg; try discriminate; constructor.
    - apply (Hg 0%nat p x); reflexivity.
    - apply IH; [now injection Hl2|]. intros i q y Hq Hy. apply (Hg (S i) q y Hq Hy). }
  rewrite Hav. cbn [bind]. unfold set_aux_obs. rewrite Ebl, La, Nat.eqb_refl. destruct aux as [|a0 aux]; [|rewrite <- La; reflexivity].
  rewrite <- La. cbn [length Nat.eqb]. destruct (pm_nps (i_pm I)); [reflexivity|]. exfalso. cbn in Hlp, La. rewrite <- Hlp in La. discriminate.
Qed.
Print Assumptions C28_dataset_save_load_roundtrip.
Example C28_nonvacuous : exists I sd', set_internal_vars ex_env ex_model = Ok I /\
  data_fill ex_model I (mkData (map IZR [5; 6; 7]%Z) [3; 0]) None [] = Ok sd' /\ data_load ex_model I (mkData [0; 0; 0] [0; 0]) sd' = (mkData (map IZR [5; 6; 7]%Z) [3; 0], None).
Proof.
  destruct ex_built_full as (I & H & _ & _ & Hb & _). exists I.
  destruct (C28_dataset_save_load_roundtrip ex_env ex_model I [5; 6; 7]%Z [3; 0] (mkData [0; 0; 0] [0; 0]) None [] H) as (sd' & A & B).
  - repeat constructor; cbn; intuition congruence.
  - intros k c [[= <- <-]|[[= <- <-]|[]]]; split; reflexivity.
  - now rewrite Hb.
  - now rewrite Hb.
  - reflexivity.
  - intros k p [[= <- <-]|[[= <- <-]|[]]]; cbn; lra.
  - repeat constructor; cbn; intuition.
  - intros [|[|[|i]]] p [= <-]; cbn; try discriminate; reflexivity.
  - exists sd'. auto.
Qed.
Example C28_order_nonvacuous : well_named [JObj [("name", JStr "CR")]; JObj [("name", JStr "SR")]] /\
  aux_entry (JObj [("name", JStr "a"); ("value", JInt 3)]) "a" 3.
Proof.
  split; [split; [intros v [<-|[<-|[]]]; discriminate|repeat constructor; cbn; intuition congruence]|].
  eexists. split; [reflexivity|]. split; [reflexivity|]. eexists. split; reflexivity.
Qed.
Example C15_later_nonvacuous : exists pre c post entries counts counts1,
  load_counts pre entries 0 counts = (counts1, None) /\ counts1 <> counts /\ post <> (@nil Channel) /\ (forall counts2, load_counts (pre ++ [c]) entries 0 counts <> (counts2, None)).
Proof.
  exists [mkChannel "A" KSingle []], (mkChannel "B" KSingle []), [mkChannel "C" KSingle []], [JObj [("name", JStr "A"); ("counts", JInt 3)]], [0; 0; 0], [3; 0; 0].
  cbn. repeat split; try discriminate. intros [= E]. lra.
Qed.

(** the counts are written as integers: a dataset with fractional counts, such as an Asimov dataset, comes back changed *)
Theorem C28_fractional_counts_lost_refuted : exists I sd', set_internal_vars ex_env ex_model = Ok I /\
  data_fill ex_model I (mkData [1/2; 6; 7] [0; 0]) None [] = Ok sd' /\ exists d, data_load ex_model I (mkData [0; 0; 0] [0; 0]) sd' = (d, None) /\ d_counts d = [0; 6; 7].
Proof.
  destruct C28_nonvacuous as (I & sd' & H & _). destruct ex_built_full as (I' & H' & Hc & Ho & Hb & _ & Hp & _). rewrite H in H'. inversion H'; subst I'. clear H'. exists I.
  assert (P0 : py_int (1/2) = 0%Z).
  { unfold py_int. rewrite (proj2 (Rleb_true 0 (1/2))) by lra. pose proof (base_Int_part (1/2)) as [U V].
    assert (Int_part (1/2) < 1)%Z by (apply lt_IZR; lra). assert (-1 < Int_part (1/2))%Z by (apply lt_IZR; lra). lia. }
  assert (P6 : py_int 6 = 6%Z) by apply (py_int_IZR 6). assert (P7 : py_int 7 = 7%Z) by apply (py_int_IZR 7).
  unfold data_fill, channel_slice. rewrite Hc, Ho. cbn -[py_int]. rewrite P0, P6, P7. eexists. split; [exact H|]. split; [reflexivity|].
  unfold data_load. cbn. rewrite Hc. cbn. unfold scaled_value. rewrite (proj2 (Reqb_false 1 0)) by lra. cbn. unfold set_aux_obs. cbn. eexists. split; [reflexivity|]. reflexivity.
Qed.
Print Assumptions C28_fractional_counts_lost_refuted.
