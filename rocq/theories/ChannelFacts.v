(** Lemmas about channels. *)
From Verif Require Import Py PyFacts Base BaseFacts Expressions Norms Sample SampleFacts Channels.
Local Open Scope string_scope.
Local Open Scope list_scope.

Lemma Int_part_IZR z : Int_part (IZR z) = z.
Proof.
  pose proof (base_Int_part (IZR z)) as [A B].
  assert (Int_part (IZR z) <= z)%Z by (apply le_IZR; exact A).
  assert (z - 1 < Int_part (IZR z))%Z; [|lia]. apply lt_IZR. rewrite minus_IZR. lra.
Qed.
Lemma py_int_IZR z : py_int (IZR z) = z.
Proof.
  unfold py_int. destruct (Rleb 0 (IZR z)); [apply Int_part_IZR|].
  rewrite <- opp_IZR, Int_part_IZR. lia.
Qed.
Lemma py_int_bound x : Rabs (x - IZR (py_int x)) < 1 /\ Rabs (IZR (py_int x)) <= Rabs x.
Proof.
  unfold py_int. destruct (Rleb 0 x) eqn:H.
  - apply Rleb_true in H. pose proof (base_Int_part x) as [A B].
    assert (0 <= IZR (Int_part x)).
    { apply IZR_le. assert (-1 < Int_part x)%Z; [|lia]. apply lt_IZR. lra. }
    rewrite !Rabs_pos_eq by lra. lra.
  - apply Rleb_false in H. pose proof (base_Int_part (- x)) as [A B].
    assert (0 <= IZR (Int_part (- x))).
    { apply IZR_le. assert (-1 < Int_part (- x))%Z; [|lia]. apply lt_IZR. lra. }
    rewrite opp_IZR. rewrite (Rabs_left x) by lra.
    rewrite (Rabs_left1 (- IZR (Int_part (- x)))) by lra. rewrite Rabs_left1 by lra. lra.
Qed.

Lemma set_nth_app {A} (l1 l2 : list A) x y : set_nth (length l1) x (l1 ++ y :: l2) = l1 ++ x :: l2.
Proof. induction l1; cbn; [reflexivity|f_equal; assumption]. Qed.
Lemma set_nth_length {A} i (x : A) l : length (set_nth i x l) = length l.
Proof. revert i; induction l as [|a l IH]; intros [|i]; cbn; auto. Qed.
Lemma nth_set_nth_eq {A} i (x : A) l d : (i < length l)%nat -> nth i (set_nth i x l) d = x.
Proof. revert i; induction l as [|a l IH]; intros [|i]; cbn; intros; try lia; auto; apply IH; lia. Qed.
Lemma nth_set_nth_neq {A} i j (x : A) l d : i <> j -> nth j (set_nth i x l) d = nth j l d.
Proof. revert i j; induction l as [|a l IH]; intros [|i] [|j] H; cbn; auto; lia. Qed.

(** What a completed loop means: every bin passed its check and its count was stored. *)
Lemma load_bins_ok check key : forall l done rest counts',
  load_bins check key (length done) l (done ++ rest) = (counts', None) ->
  exists xs tl, rest = tl ++ skipn (length tl) rest /\ length xs = length l /\ counts' = done ++ xs ++ skipn (length l) rest /\
    (length l <= length rest)%nat /\
    forall i v, nth_error l i = Some v ->
      check (length done + i)%nat v = None /\ exists x, nth_error xs i = Some x /\ bind (jget key v) jreal = Ok x.
Proof.
  induction l as [|v l IH]; intros done rest counts' H; cbn [load_bins] in H.
  - injection H as <-. exists [], []. cbn. repeat split; auto; try lia; destruct i; discriminate.
  - destruct (check (length done) v) eqn:Hc; [discriminate|].
    destruct (bind (jget key v) jreal) as [x|] eqn:Hv; [|discriminate].
    destruct (Nat.ltb_spec (length done) (length (done ++ rest))) as [Hl|]; [|discriminate].
    destruct rest as [|r rest]; [rewrite app_nil_r in Hl; lia|].
    rewrite set_nth_app in H.
    specialize (IH (done ++ [x]) rest counts'). rewrite app_length in IH. cbn in IH. rewrite Nat.add_1_r in IH.
    rewrite <- app_assoc in IH. cbn in IH. destruct (IH H) as (xs & tl & Ht & Hlen & Hc' & Hle & Hall).
    exists (x :: xs), (r :: tl). cbn. repeat split; auto; try lia.
    + rewrite Ht at 1. reflexivity.
    + rewrite Hc', <- app_assoc. reflexivity.
    + destruct i; cbn in H0; [injection H0 as <-; rewrite Nat.add_0_r; exact Hc|].
      destruct (Hall i v0 H0) as [A _]. replace (length done + S i)%nat with (S (length done) + i)%nat by lia. exact A.
    + destruct i; cbn in H0; [injection H0 as <-; exists x; auto|].
      destruct (Hall i v0 H0) as [_ A]. exact A.
Qed.

Lemma load_bins_length check key : forall l b counts, length (fst (load_bins check key b l counts)) = length counts.
Proof.
  induction l as [|v l IH]; intros b counts; cbn [load_bins]; [reflexivity|].
  destruct (check b v); [reflexivity|]. destruct (bind (jget key v) jreal); [|reflexivity].
  destruct (Nat.ltb _ _); [|reflexivity]. rewrite IH. apply set_nth_length.
Qed.

Lemma load_dataset_length c d counts : length (fst (load_dataset c d counts)) = length counts.
Proof.
  unfold load_dataset. destruct (dget "name" d) as [[]|]; try reflexivity.
  destruct (negb _); [reflexivity|].
  assert (forall check key e, length (fst match dget "bins" d with
        | None => errE counts KeyError
        | Some (JList l) => if (length l =? nbins c)%nat then load_bins check key 0 l counts else errE counts e
        | Some _ => errE counts TypeError end) = length counts) as HB.
  { intros. destruct (dget "bins" d) as [[]|]; try reflexivity. destruct (Nat.eqb _ _); [apply load_bins_length|reflexivity]. }
  destruct (ch_kind c); auto.
  destruct (single_type_error d); [reflexivity|]. destruct (dget "counts" d); [|reflexivity].
  destruct (jreal j), counts; reflexivity.
Qed.

Lemma load_bins_run check key : forall l done rest xs,
  length xs = length l -> (length l <= length rest)%nat ->
  (forall i v, nth_error l i = Some v -> check (length done + i)%nat v = None /\
     exists x, nth_error xs i = Some x /\ bind (jget key v) jreal = Ok x) ->
  load_bins check key (length done) l (done ++ rest) = (done ++ xs ++ skipn (length l) rest, None).
Proof.
  induction l as [|v l IH]; intros done rest xs Hx Hr H.
  - destruct xs; [reflexivity|discriminate].
  - destruct xs as [|x xs]; [discriminate|]. destruct rest as [|r rest]; [cbn in Hr; lia|].
    cbn [load_bins]. destruct (H 0%nat v eq_refl) as [Hc (x' & [= <-] & Hv)].
    rewrite Nat.add_0_r in Hc. rewrite Hc, Hv.
    destruct (Nat.ltb_spec (length done) (length (done ++ r :: rest))) as [_|Hl]; [|rewrite app_length in Hl; cbn in Hl; lia].
    rewrite set_nth_app. specialize (IH (done ++ [x]) rest xs). rewrite app_length in IH. cbn in IH. rewrite Nat.add_1_r in IH.
    rewrite <- !app_assoc in IH. cbn in IH. rewrite IH.
    + reflexivity.
    + cbn in Hx; lia.
    + cbn in Hr; lia.
    + intros i w Hw. specialize (H (S i) w Hw). cbn in H. replace (length done + S i)%nat with (S (length done + i)) in H by lia. exact H.
Qed.

Lemma nth_error_zip_some {A B C} (f : A -> B -> C) l m i v : nth_error (zipwith f l m) i = Some v ->
  exists a b, nth_error l i = Some a /\ nth_error m i = Some b /\ v = f a b.
Proof.
  revert m i; induction l as [|a l IH]; intros [|b m] [|i]; cbn; try discriminate.
  - intros [= <-]. eauto.
  - apply IH.
Qed.

Lemma save_load_dataset c counts old : is_gaussian c = false -> length counts = nbins c -> length old = nbins c ->
  exists d, save_dataset c counts = Ok d /\ load_dataset c d old = (map (fun x => IZR (py_int x)) counts, None).
Proof.
  intros Hg Hc Ho. unfold save_dataset. rewrite (proj2 (Nat.eqb_eq _ _) Hc). cbn [negb].
  eexists; split; [reflexivity|]. unfold load_dataset. unfold nbins, is_gaussian in *.
  destruct (ch_kind c) as [|bins on ou|bins|bins h] eqn:Hk; try discriminate; cbn [dget String.eqb Ascii.eqb Bool.eqb];
    rewrite String.eqb_refl; cbn [negb].
  - unfold single_type_error. cbn. destruct counts as [|x [|]]; try discriminate. destruct old as [|y [|]]; try discriminate. reflexivity.
  - rewrite zipwith_length, Hc, Nat.min_id, Nat.eqb_refl.
    pose proof (load_bins_run (check_range bins) "counts" (zipwith (fun b x => JObj [("lo_edge", JFlt (fst b)); ("hi_edge", JFlt (snd b)); ("counts", JInt (py_int x))]) bins counts) [] old (map (fun x => IZR (py_int x)) counts)) as L.
    cbn [length app] in L. rewrite L.
    + rewrite zipwith_length, Hc, Nat.min_id, <- Ho, skipn_all, app_nil_r. reflexivity.
    + rewrite map_length, zipwith_length. lia.
    + rewrite zipwith_length. lia.
    + intros i v Hv. apply nth_error_zip_some in Hv as (b & x & Hb & Hx & ->). cbn. unfold check_range. rewrite Hb. destruct b as [lo hi].
      cbn. rewrite !(proj2 (Reqb_true _ _) eq_refl). split; [reflexivity|]. exists (IZR (py_int x)).
      rewrite nth_error_map, Hx. split; reflexivity.
  - rewrite zipwith_length, Hc, Nat.min_id, Nat.eqb_refl.
    pose proof (load_bins_run (check_name bins) "counts" (zipwith (fun b x => JObj [("name", JStr b); ("counts", JInt (py_int x))]) bins counts) [] old (map (fun x => IZR (py_int x)) counts)) as L.
    cbn [length app] in L. rewrite L.
    + rewrite zipwith_length, Hc, Nat.min_id, <- Ho, skipn_all, app_nil_r. reflexivity.
    + rewrite map_length, zipwith_length. lia.
    + rewrite zipwith_length. lia.
    + intros i v Hv. apply nth_error_zip_some in Hv as (b & x & Hb & Hx & ->). cbn. unfold check_name. rewrite Hb.
      cbn. rewrite String.eqb_refl. split; [reflexivity|]. exists (IZR (py_int x)).
      rewrite nth_error_map, Hx. split; reflexivity.
Qed.

(** Channel markup round trip *)
Definition samples_ok (float_of : string -> option R) (sm : dict Sample) : Prop :=
  NoDup (keys sm) /\ forall k s, In (k, s) sm -> s_name s = k /\ norm_reloadable float_of (s_norm s).

Lemma foldM_samples float_of : forall sm acc, (forall k s, In (k, s) sm -> s_name s = k /\ norm_reloadable float_of (s_norm s)) ->
  NoDup (keys acc ++ keys sm) ->
  foldM (fun acc v => match v with
                      | JObj d => let! s := sample_load float_of d in Ok (dset (s_name s) s acc)
                      | _ => Err TypeError
                      end) (map (fun s => JObj (sample_fill s [])) (values sm)) acc = Ok (acc ++ sm).
Proof.
  induction sm as [|[k s] sm IH]; intros acc H HN; cbn [foldM map values snd]; [now rewrite app_nil_r|].
  destruct (H k s (or_introl eq_refl)) as [Hk Hr]. rewrite (sample_roundtrip _ _ Hr). cbn [bind].
  rewrite Hk. rewrite dset_app_new.
  - fold (values sm). rewrite IH; [now rewrite <- app_assoc|intros; apply H; now right|].
    unfold keys in *. rewrite map_app, <- app_assoc. exact HN.
  - intros Hin. apply (NoDup_app_disj _ _ k HN Hin). cbn. now left.
Qed.

Lemma samples_roundtrip float_of sm d : samples_ok float_of sm ->
  dget "samples" d = Some (JList (map (fun s => JObj (sample_fill s [])) (values sm))) -> samples_load float_of d = Ok sm.
Proof.
  intros [HN H] Hd. unfold samples_load, dgetE. rewrite Hd. cbn [bind jlist].
  change (map (fun s : Sample => JObj (sample_fill s [])) (values sm)) with (map (fun s : Sample => JObj (sample_fill s [])) (values sm)).
  rewrite foldM_samples; auto.
Qed.

Lemma mapM_jstr l : mapM jstr (map JStr l) = Ok l.
Proof. induction l; cbn; [reflexivity|]. rewrite IHl. reflexivity. Qed.
Lemma mapM_range l : mapM range_bin (map (fun b => JObj [("lo_edge", JFlt (fst b)); ("hi_edge", JFlt (snd b))]) l) = Ok l.
Proof. induction l as [|[lo hi] l IH]; cbn [map mapM]; [reflexivity|]. rewrite IH. reflexivity. Qed.

Lemma channel_roundtrip float_of inv c d : is_gaussian c = false -> samples_ok float_of (ch_samples c) ->
  channel_fill inv c = Ok d -> channel_load float_of inv d = Ok c.
Proof.
  intros Hg Hs Hf. unfold channel_fill, is_gaussian in *. destruct c as [nm k sm]; cbn [ch_kind ch_name ch_samples] in *.
  destruct k as [|bins on ou|bins|bins h]; try discriminate; injection Hf as <-; unfold channel_load; cbn [dget String.eqb Ascii.eqb Bool.eqb].
  - cbn [dgetE dget String.eqb Ascii.eqb Bool.eqb bind jstr]. erewrite samples_roundtrip by (eauto; reflexivity). reflexivity.
  - cbn [dgetE dget String.eqb Ascii.eqb Bool.eqb bind jstr jlist]. erewrite samples_roundtrip by (eauto; reflexivity).
    cbn [bind]. rewrite mapM_range. cbn [bind]. destruct on, ou; reflexivity.
  - cbn [dgetE dget String.eqb Ascii.eqb Bool.eqb bind jstr jlist]. erewrite samples_roundtrip by (eauto; reflexivity).
    cbn [bind]. rewrite mapM_jstr. reflexivity.
Qed.

Lemma gaussian_reload float_of inv nm bins h cov sm : samples_ok float_of sm -> inv (length bins) h = Ok cov ->
  exists d, channel_fill inv (mkChannel nm (KGauss bins (Some h)) sm) = Ok d /\
    channel_load float_of inv d = Ok (mkChannel nm (KMulti bins) sm).
Proof.
  intros Hs Hi. unfold channel_fill; cbn [ch_kind ch_name ch_samples]. rewrite Hi. cbn [bind]. eexists; split; [reflexivity|].
  unfold channel_load; cbn [dget String.eqb Ascii.eqb Bool.eqb]. cbn [dgetE dget String.eqb Ascii.eqb Bool.eqb bind jstr jlist].
  erewrite samples_roundtrip by (eauto; reflexivity).
  cbn [bind]. rewrite mapM_jstr. reflexivity.
Qed.

Lemma fold_samples_clone : forall sm acc, (forall k s, In (k, s) sm -> s_name s = k) -> NoDup (keys acc ++ keys sm) ->
  fold_left (fun d s => dset (s_name s) s d) (values sm) acc = acc ++ sm.
Proof.
  induction sm as [|[k s] sm IH]; intros acc H HN; cbn [fold_left map values snd]; [now rewrite app_nil_r|].
  rewrite (H k s (or_introl eq_refl)), dset_app_new.
  - fold (values sm). rewrite IH; [now rewrite <- app_assoc|intros; apply H; now right|].
    unfold keys in *. rewrite map_app, <- app_assoc. exact HN.
  - intros Hin. apply (NoDup_app_disj _ _ k HN Hin). cbn. now left.
Qed.

(** exact characterization of a successful load of a list of bins into a whole array *)
Lemma load_bins_iff check key l counts counts' : length l = length counts ->
  load_bins check key 0 l counts = (counts', None) <->
  (length counts' = length counts /\ forall i v, nth_error l i = Some v -> check i v = None /\
     bind (jget key v) jreal = Ok (nth i counts' 0)).
Proof.
  intros HL. split.
  - intros H. pose proof (load_bins_ok check key l [] counts counts' H) as (xs & tl & _ & Hx & Hc & _ & Hall).
    rewrite HL, skipn_all, app_nil_r in Hc. cbn in Hc. subst counts'. split; [congruence|].
    intros i v Hv. destruct (Hall i v Hv) as [A (x & B & C)]. cbn in A. split; [exact A|].
    rewrite (nth_error_nth _ _ 0 B). exact C.
  - intros [H1 H2]. pose proof (load_bins_run check key l [] counts counts') as L. cbn [length app] in L. rewrite L.
    + rewrite HL, skipn_all, app_nil_r. reflexivity.
    + congruence.
    + lia.
    + intros i v Hv. destruct (H2 i v Hv) as [A B]. split; [exact A|]. exists (nth i counts' 0). split; [|exact B].
      apply nth_error_nth'. assert (i < length l)%nat by (apply nth_error_Some; congruence). lia.
Qed.

Lemma check_name_None bins i v : check_name bins i v = None <-> exists n, nth_error bins i = Some n /\ jget "name" v = Ok (JStr n).
Proof.
  unfold check_name. destruct (nth_error bins i) as [n|]; [|split; [discriminate|intros (n & H & _); discriminate]].
  destruct (jget "name" v) as [w|]; [|split; [discriminate|intros (m & _ & H); discriminate]].
  split.
  - destruct w; try discriminate. destruct (String.eqb_spec s n); [|discriminate]. intros _. subst. eauto.
  - intros (m & [= <-] & [= ->]). rewrite String.eqb_refl. reflexivity.
Qed.

Lemma check_range_None bins i v : check_range bins i v = None <->
  exists lo hi, nth_error bins i = Some (lo, hi) /\ bind (jget "lo_edge" v) jreal = Ok lo /\ bind (jget "hi_edge" v) jreal = Ok hi.
Proof.
  unfold check_range. destruct (nth_error bins i) as [[lo hi]|]; [|split; [discriminate|intros (n & m & H & _); discriminate]].
  destruct (bind (jget "lo_edge" v) jreal) as [x|]; [|split; [discriminate|intros (n & m & _ & H & _); discriminate]].
  destruct (Reqb x lo) eqn:E.
  - apply Reqb_true in E as ->. destruct (bind (jget "hi_edge" v) jreal) as [y|]; [|split; [discriminate|intros (n & m & _ & _ & H); discriminate]].
    destruct (Reqb y hi) eqn:E.
    + apply Reqb_true in E as ->. split; eauto.
    + apply Reqb_false in E. split; [discriminate|]. intros (n & m & [= <- <-] & _ & [= H]). congruence.
  - apply Reqb_false in E. split; [discriminate|]. intros (n & m & [= <- <-] & [= H] & _). congruence.
Qed.

Lemma load_named_iff c bins key e d counts counts' : nbins c = length bins -> length counts = nbins c ->
  match dget "bins" d with
        | None => errE counts KeyError
        | Some (JList l) => if (length l =? nbins c)%nat then load_bins (check_name bins) key 0 l counts else errE counts e
        | Some _ => errE counts TypeError end = (counts', None) <->
  (length counts' = length bins /\ exists l, dget "bins" d = Some (JList l) /\ length l = length bins /\
   forall i v, nth_error l i = Some v -> (exists n, nth_error bins i = Some n /\ jget "name" v = Ok (JStr n)) /\
      bind (jget key v) jreal = Ok (nth i counts' 0)).
Proof.
  intros Hn Hc. split.
  - destruct (dget "bins" d) as [[]|]; try discriminate. destruct (Nat.eqb_spec (length l) (nbins c)) as [E|]; [|discriminate].
    intros H. apply load_bins_iff in H; [|lia]. destruct H as [A B]. split; [lia|]. exists l. repeat split; [lia| |]; apply (B i v) in H as [H1 H2]; auto.
    now apply check_name_None.
  - intros (A & l & -> & B & C). rewrite (proj2 (Nat.eqb_eq _ _)) by lia. apply load_bins_iff; [lia|]. split; [lia|].
    intros i v H. apply C in H as [H1 H2]. split; [now apply check_name_None|auto].
Qed.

Lemma load_range_iff c bins key e d counts counts' : nbins c = length bins -> length counts = nbins c ->
  match dget "bins" d with
        | None => errE counts KeyError
        | Some (JList l) => if (length l =? nbins c)%nat then load_bins (check_range bins) key 0 l counts else errE counts e
        | Some _ => errE counts TypeError end = (counts', None) <->
  (length counts' = length bins /\ exists l, dget "bins" d = Some (JList l) /\ length l = length bins /\
   forall i v, nth_error l i = Some v -> 
      (exists lo hi, nth_error bins i = Some (lo, hi) /\ bind (jget "lo_edge" v) jreal = Ok lo /\ bind (jget "hi_edge" v) jreal = Ok hi) /\
      bind (jget key v) jreal = Ok (nth i counts' 0)).
Proof.
  intros Hn Hc. split.
  - destruct (dget "bins" d) as [[]|]; try discriminate. destruct (Nat.eqb_spec (length l) (nbins c)) as [E|]; [|discriminate].
    intros H. apply load_bins_iff in H; [|lia]. destruct H as [A B]. split; [lia|]. exists l. repeat split; [lia| |]; apply (B i v) in H as [H1 H2]; auto.
    now apply check_range_None.
  - intros (A & l & -> & B & C). rewrite (proj2 (Nat.eqb_eq _ _)) by lia. apply load_bins_iff; [lia|]. split; [lia|].
    intros i v H. apply C in H as [H1 H2]. split; [now apply check_range_None|auto].
Qed.
