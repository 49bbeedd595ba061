(** Property theorems about channels: C14, C15, C66. *)
From Verif Require Import Py PyFacts Base BaseFacts Expressions Norms Sample SampleFacts Channels ChannelFacts.
Local Open Scope string_scope.
Local Open Scope list_scope.

Definition ex_range : Channel := mkChannel "SR" (KRange [(0, 1); (1, 3)] (Some "m") (Some "GeV")) [].

(** C14: saving counts of a Poisson channel and loading them back, into an array holding anything, gives the same
    counts whenever they are integers. *)
Theorem C14_dataset_roundtrip : forall c zs old, is_gaussian c = false -> length zs = nbins c -> length old = nbins c ->
  exists d, save_dataset c (map IZR zs) = Ok d /\ load_dataset c d old = (map IZR zs, None).
Proof.
  intros c zs old Hg Hz Ho. destruct (save_load_dataset c (map IZR zs) old Hg) as (d & A & B); [now rewrite map_length|exact Ho|].
  exists d. split; [exact A|]. rewrite B, map_map. f_equal. apply map_ext. intros z. now rewrite py_int_IZR.
Qed.
Print Assumptions C14_dataset_roundtrip.

Example C14_nonvacuous : exists d, save_dataset ex_range [3; 5] = Ok d /\ load_dataset ex_range d [0; 0] = ([3; 5], None).
Proof. exact (C14_dataset_roundtrip ex_range [3; 5]%Z [0; 0] eq_refl eq_refl eq_refl). Qed.

(** C14 for other counts: what comes back is each count truncated towards zero, less than one unit away *)
Theorem C14_dataset_roundtrip_truncates : forall c counts old, is_gaussian c = false -> length counts = nbins c -> length old = nbins c ->
  exists d counts', save_dataset c counts = Ok d /\ load_dataset c d old = (counts', None) /\ length counts' = nbins c /\
    forall i, (i < nbins c)%nat -> (exists z, nth i counts' 0 = IZR z) /\ Rabs (nth i counts 0 - nth i counts' 0) < 1 /\
      Rabs (nth i counts' 0) <= Rabs (nth i counts 0).
Proof.
  intros c counts old Hg Hc Ho. destruct (save_load_dataset c counts old Hg Hc Ho) as (d & A & B).
  exists d, (map (fun x => IZR (py_int x)) counts). repeat split; auto; [now rewrite map_length| | |];
    rewrite (nth_map_lt (fun x => IZR (py_int x)) counts i 0) by lia; [eauto| |]; apply py_int_bound.
Qed.
Print Assumptions C14_dataset_roundtrip_truncates.

(** hence a dataset with non-integer counts (every Asimov dataset) is not kept *)
Theorem C14_noninteger_counts_refuted : exists c counts d counts', is_gaussian c = false /\ length counts = nbins c /\
  save_dataset c counts = Ok d /\ load_dataset c d counts = (counts', None) /\ counts' <> counts.
Proof.
  destruct (save_load_dataset (mkChannel "SR" KSingle []) [1 / 2] [1 / 2] eq_refl eq_refl eq_refl) as (d & A & B).
  exists (mkChannel "SR" KSingle []), [1 / 2], d. eexists. repeat split; [exact A|exact B|].
  cbn. intros [= H]. apply (f_equal (Rmult 2)) in H. replace (2 * (1 / 2)) with 1 in H by lra.
  rewrite <- mult_IZR in H. apply eq_IZR in H. lia.
Qed.
Print Assumptions C14_noninteger_counts_refuted.

(** C14 fails for every Gaussian channel: what is saved cannot be loaded back *)
Theorem C14_gaussian_refuted : forall c counts old, is_gaussian c = true -> (0 < nbins c)%nat -> length counts = nbins c ->
  exists d, save_dataset c counts = Ok d /\ snd (load_dataset c d old) = Some KeyError.
Proof.
  intros c counts old Hg Hn Hc. unfold save_dataset. rewrite (proj2 (Nat.eqb_eq _ _) Hc). cbn [negb].
  eexists; split; [reflexivity|]. unfold load_dataset, nbins, is_gaussian in *.
  destruct (ch_kind c) as [| | |bins h]; try discriminate. cbn [dget String.eqb Ascii.eqb Bool.eqb]. rewrite String.eqb_refl. cbn [negb].
  rewrite zipwith_length, Hc, Nat.min_id, Nat.eqb_refl.
  destruct bins as [|b bins]; [cbn in Hn; lia|]. destruct counts as [|x counts]; [discriminate|].
  cbn. unfold check_name. cbn. rewrite String.eqb_refl. reflexivity.
Qed.
Print Assumptions C14_gaussian_refuted.

Example C14_gaussian_nonvacuous : is_gaussian (mkChannel "G" (KGauss ["x"] None) []) = true. Proof. reflexivity. Qed.

(** Saving an array of the wrong size is rejected *)
Theorem C14_wrong_size_rejected : forall c counts, length counts <> nbins c -> save_dataset c counts = Err ValueError.
Proof. intros c counts H. unfold save_dataset. apply Nat.eqb_neq in H. rewrite H. reflexivity. Qed.
Print Assumptions C14_wrong_size_rejected.

(** C15: a dataset is loaded into a channel of named bins exactly when it is for that channel, has as many bins, with
    the same names in the same order; the array then holds exactly the listed counts.  [key] is the entry that is
    read: 'counts', or 'obs' for a Gaussian channel. *)
Theorem C15_named_bins_load_iff : forall c bins key d counts counts',
  (ch_kind c = KMulti bins /\ key = "counts") \/ (exists h, ch_kind c = KGauss bins h /\ key = "obs") -> length counts = nbins c ->
  load_dataset c d counts = (counts', None) <->
  dget "name" d = Some (JStr (ch_name c)) /\ length counts' = length bins /\
  exists l, dget "bins" d = Some (JList l) /\ length l = length bins /\
   forall i v, nth_error l i = Some v -> (exists n, nth_error bins i = Some n /\ jget "name" v = Ok (JStr n)) /\
      bind (jget key v) jreal = Ok (nth i counts' 0).
Proof.
  intros c bins key d counts counts' Hk Hc. unfold load_dataset.
  assert (nbins c = length bins) as Hn by (unfold nbins; destruct Hk as [[-> _]|[h [-> _]]]; reflexivity).
  split.
  - destruct (dget "name" d) as [[]|]; try discriminate. destruct (String.eqb_spec s (ch_name c)); [|discriminate]. cbn [negb]. subst s.
    intros H. split; [reflexivity|]. destruct Hk as [[Hk ->]|[h [Hk ->]]]; rewrite Hk in H; apply load_named_iff in H; auto.
  - intros [-> H]. rewrite String.eqb_refl. cbn [negb]. destruct Hk as [[-> ->]|[h [-> ->]]]; apply load_named_iff; auto.
Qed.
Print Assumptions C15_named_bins_load_iff.

(** The same for binned ranges: the bin edges must agree *)
Theorem C15_binned_range_load_iff : forall c bins on ou d counts counts',
  ch_kind c = KRange bins on ou -> length counts = nbins c ->
  load_dataset c d counts = (counts', None) <->
  dget "name" d = Some (JStr (ch_name c)) /\ length counts' = length bins /\
  exists l, dget "bins" d = Some (JList l) /\ length l = length bins /\
   forall i v, nth_error l i = Some v ->
     (exists lo hi, nth_error bins i = Some (lo, hi) /\ bind (jget "lo_edge" v) jreal = Ok lo /\ bind (jget "hi_edge" v) jreal = Ok hi) /\
      bind (jget "counts" v) jreal = Ok (nth i counts' 0).
Proof.
  intros c bins on ou d counts counts' Hk Hc. unfold load_dataset.
  assert (nbins c = length bins) as Hn by (unfold nbins; rewrite Hk; reflexivity).
  split.
  - destruct (dget "name" d) as [[]|]; try discriminate. destruct (String.eqb_spec s (ch_name c)); [|discriminate]. cbn [negb]. subst s.
    intros H. split; [reflexivity|]. rewrite Hk in H; apply load_range_iff in H; auto.
  - intros [-> H]. rewrite String.eqb_refl. cbn [negb]. rewrite Hk; apply load_range_iff; auto.
Qed.
Print Assumptions C15_binned_range_load_iff.

(** The same for a single bin: name, type when given, and a number of counts *)
Theorem C15_single_bin_load_iff : forall c d counts counts', ch_kind c = KSingle -> length counts = 1%nat ->
  load_dataset c d counts = (counts', None) <->
  dget "name" d = Some (JStr (ch_name c)) /\ (dget "type" d = None \/ dget "type" d = Some (JStr "bin")) /\
  exists v x, dget "counts" d = Some v /\ jreal v = Ok x /\ counts' = [x].
Proof.
  intros c d counts counts' Hk Hc. destruct counts as [|y [|]]; try discriminate. unfold load_dataset. rewrite Hk. split.
  - destruct (dget "name" d) as [[]|]; try discriminate. destruct (String.eqb_spec s (ch_name c)); [|discriminate]. cbn [negb]. subst s.
    intros H. split; [reflexivity|]. unfold single_type_error in H.
    destruct (dget "type" d) as [[]|] eqn:Ht; try discriminate.
    + destruct (String.eqb_spec s "bin"); [|discriminate]. subst s. split; [now right|].
      destruct (dget "counts" d) as [v|]; [|discriminate]. destruct (jreal v) as [x|] eqn:Hx; [|discriminate]. injection H as <-. eauto.
    + split; [now left|]. destruct (dget "counts" d) as [v|]; [|discriminate]. destruct (jreal v) as [x|] eqn:Hx; [|discriminate]. injection H as <-. eauto.
  - intros [-> [Ht (v & x & Hv & Hx & ->)]]. rewrite String.eqb_refl. cbn [negb].
    assert (single_type_error d = None) as -> by (unfold single_type_error; destruct Ht as [->| ->]; reflexivity).
    rewrite Hv, Hx. reflexivity.
Qed.
Print Assumptions C15_single_bin_load_iff.

Example C15_nonvacuous : load_dataset (mkChannel "C" (KMulti ["a"; "b"]) [])
   [("name", JStr "C"); ("bins", JList [JObj [("name", JStr "a"); ("counts", JInt 4)]; JObj [("name", JStr "b"); ("counts", JFlt (1/2))]])] [0; 0]
   = ([4; 1 / 2], None).
Proof. reflexivity. Qed.

(** An array never changes size, whatever happens *)
Theorem C15_load_keeps_size : forall c d counts, length (fst (load_dataset c d counts)) = length counts.
Proof. exact load_dataset_length. Qed.
Print Assumptions C15_load_keeps_size.

(** All-or-nothing fails within the channel: a rejected dataset may already have overwritten the first bins *)
Theorem C15_rejected_load_changes_counts_refuted : exists c d counts counts' e,
  length counts = nbins c /\ load_dataset c d counts = (counts', Some e) /\ counts' <> counts.
Proof.
  exists (mkChannel "C" (KMulti ["a"; "b"]) []),
   [("name", JStr "C"); ("bins", JList [JObj [("name", JStr "a"); ("counts", JInt 4)]; JObj [("name", JStr "c"); ("counts", JInt 5)]])],
   [0; 0]. do 2 eexists. split; [reflexivity|]. split; [reflexivity|]. intros [= H]. lra.
Qed.
Print Assumptions C15_rejected_load_changes_counts_refuted.

(** C66: saving a Poisson channel and loading it back gives the same channel *)
Theorem C66_channel_save_load_roundtrip : forall float_of inv c d, is_gaussian c = false ->
  NoDup (keys (ch_samples c)) ->
  (forall k s, In (k, s) (ch_samples c) -> s_name s = k /\ forall e, s_norm s = ExprNorm e -> float_of e = None) ->
  channel_fill inv c = Ok d -> channel_load float_of inv d = Ok c.
Proof.
  intros float_of inv c d Hg HN Hs Hd. apply channel_roundtrip; auto. split; [exact HN|]. intros k s Hin.
  destruct (Hs k s Hin) as [A B]. split; [exact A|]. unfold norm_reloadable. destruct (s_norm s); auto.
Qed.
Print Assumptions C66_channel_save_load_roundtrip.

Example C66_nonvacuous : exists d, channel_fill (fun _ m => Ok m) ex_range = Ok d /\
  channel_load (fun _ => None) (fun _ m => Ok m) d = Ok ex_range.
Proof. eexists; split; [reflexivity|]. apply (C66_channel_save_load_roundtrip _ (fun _ m => Ok m)); cbn; auto; [constructor|intros ? ? []]. Qed.

(** C66 fails for Gaussian channels: they come back as Poisson counting channels, without the covariance matrix *)
Theorem C66_gaussian_becomes_poisson_refuted : forall float_of inv nm bins h cov sm,
  NoDup (keys sm) -> (forall k s, In (k, s) sm -> s_name s = k /\ forall e, s_norm s = ExprNorm e -> float_of e = None) ->
  inv (length bins) h = Ok cov ->
  let c := mkChannel nm (KGauss bins (Some h)) sm in
  exists d c', channel_fill inv c = Ok d /\ channel_load float_of inv d = Ok c' /\ is_gaussian c = true /\ is_gaussian c' = false.
Proof.
  intros float_of inv nm bins h cov sm HN Hs Hi. destruct (gaussian_reload float_of inv nm bins h cov sm) as (d & A & B); auto.
  - split; [exact HN|]. intros k s Hin. destruct (Hs k s Hin) as [A B]. split; [exact A|]. unfold norm_reloadable. destruct (s_norm s); auto.
  - exists d. eexists. repeat split; eauto.
Qed.
Print Assumptions C66_gaussian_becomes_poisson_refuted.

(** C66, copies: the copy of a Poisson channel is the same channel; copying a Gaussian channel with samples fails *)
Theorem C66_clone_is_identical : forall c, is_gaussian c = false -> NoDup (keys (ch_samples c)) ->
  (forall k s, In (k, s) (ch_samples c) -> s_name s = k) -> channel_clone c = Ok c.
Proof.
  intros [nm k sm] Hg HN Hs. unfold channel_clone, is_gaussian in *; cbn [ch_name ch_kind ch_samples] in *. destruct k; try discriminate; rewrite (fold_samples_clone sm []); auto.
Qed.
Print Assumptions C66_clone_is_identical.

Theorem C66_gaussian_clone_refuted : forall nm bins h k s sm,
  channel_clone (mkChannel nm (KGauss bins h) ((k, s) :: sm)) = Err AttributeError.
Proof. reflexivity. Qed.
Print Assumptions C66_gaussian_clone_refuted.
