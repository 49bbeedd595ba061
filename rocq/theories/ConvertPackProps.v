(** C97: packing of the per-bin impacts by the converter (convert_ws.py: pack). *)
From Verif Require Import Py PyFacts ConvertWs ConvertWsFacts ConvertWsSpec.
Local Open Scope string_scope.
Local Open Scope list_scope.
Local Open Scope R_scope.

(** * Specification.
    The impact that a packed table gives for a bin and a variation: nothing is an impact of zero; a single table holds for all the bins. *)
Definition packed_value (r : packed) (b : nat) (key : string) : option R :=
  match r with PNone => Some 0 | POne d => dget key d | PMany l => dget key (nth b l []) end.
(** the average over the bins *)
Definition value (key : string) (d : dict R) : R := match dget key d with Some x => x | None => 0 end.
Definition average (l : list (dict R)) (key : string) : R := lsum (map (value key) l) / INR (length l).
(** tables of the same variations for all the bins *)
Definition same_keys (ks : list string) (l : list (dict R)) : Prop := NoDup ks /\ forall d, In d l -> keys d = ks.
(** rounding to a number of digits: a relative error of at most [delta] *)
Definition rounds (delta : R) (trim : R -> R) : Prop := 0 <= delta < 1 /\ forall x, Rabs (trim x - x) <= delta * Rabs x.
Definition trim_of (otrim : option (R -> R)) : R -> R := match otrim with Some t => t | None => fun x => x end.
Definition otrim_ok (delta : R) (otrim : option (R -> R)) : Prop := rounds delta (trim_of otrim).

(** * Facts *)
Lemma dget_tab (f : string -> R) ks k : In k ks -> dget k (map (fun q => (q, f q)) ks) = Some (f k).
Proof. induction ks as [|a ks IH]; intros H; [contradiction|]. cbn. destruct (String.eqb k a) eqn:E; [apply String.eqb_eq in E; now subst|]. apply IH. destruct H as [->|H]; [rewrite String.eqb_refl in E; discriminate|exact H]. Qed.
Lemma dget_keys {V} k (d : dict V) : In k (keys d) -> exists x, dget k d = Some x.
Proof.
  induction d as [|[a v] d IH]; intros H; [contradiction|]. cbn in *. destruct (String.eqb k a) eqn:E; [eauto|]. apply IH. destruct H as [->|H]; [rewrite String.eqb_refl in E; discriminate|exact H].
Qed.
Lemma avg_step ks im n : (forall k, In k ks -> dget k im = Some (value k im)) -> forall f,
  mapM (fun kv : string * R => let! x := dgetE (fst kv) im in Ok (fst kv, snd kv + x / n)) (map (fun k => (k, f k)) ks) = Ok (map (fun k => (k, f k + value k im / n)) ks).
Proof.
  induction ks as [|k ks IH]; intros H f; [reflexivity|]. cbn [map mapM fst snd]. unfold dgetE at 1. rewrite (H k (or_introl eq_refl)). cbn [bind].
  rewrite IH by (intros; apply H; now right). reflexivity.
Qed.
Lemma avg_fold ks n l : (forall d k, In d l -> In k ks -> dget k d = Some (value k d)) -> forall f,
  foldM (fun avg im => mapM (fun kv : string * R => let! x := dgetE (fst kv) im in Ok (fst kv, snd kv + x / n)) avg) l (map (fun k => (k, f k)) ks) =
  Ok (map (fun k => (k, f k + lsum (map (value k) l) / n)) ks).
Proof.
  induction l as [|d l IH]; intros H f.
  - cbn. f_equal. apply map_ext. intros k. f_equal. unfold Rdiv. ring.
  - cbn [foldM]. rewrite avg_step by (intros; apply H; [now left|assumption]). cbn [bind]. rewrite (IH (fun d k Hd => H d k (or_intror Hd)) (fun k => f k + value k d / n)).
    f_equal. apply map_ext. intros k. f_equal. cbn. unfold Rdiv. ring.
Qed.
Lemma value_some k d ks : keys d = ks -> In k ks -> dget k d = Some (value k d).
Proof. intros E H. rewrite <- E in H. destruct (dget_keys k d H) as (x & Hx). unfold value. now rewrite Hx. Qed.
Lemma pack_average_spec ks l : l <> [] -> same_keys ks l -> pack_average l = Ok (map (fun k => (k, average l k)) ks).
Proof.
  intros Hl (ND & HK). destruct l as [|d0 l0] eqn:E; [contradiction|]. unfold pack_average. rewrite <- E in *. 
  assert (E0 : map (fun kv : string * R => (fst kv, 0)) d0 = map (fun k => (k, (fun _ => 0) k)) ks).
  { rewrite <- (HK d0) by (rewrite E; now left). unfold keys. rewrite map_map. reflexivity. }
  rewrite E0, avg_fold by (intros d k Hd Hk; eapply value_some; [now apply HK|exact Hk]). f_equal. apply map_ext. intros k. f_equal. unfold average. ring.
Qed.
Lemma keys_dset_in {V} k (x : V) d : In k (keys d) -> keys (dset k x d) = keys d.
Proof.
  induction d as [|[a v] d IH]; intros H; [contradiction|]. cbn in *. destruct (String.eqb k a) eqn:E; [apply String.eqb_eq in E; now subst|]. cbn. f_equal. apply IH. destruct H as [->|H]; [rewrite String.eqb_refl in E; discriminate|exact H].
Qed.
Definition off_average (tol : R) (A : string -> R) (im : dict R) (k : string) : bool := Rltb tol (Rabs (value k im - A k)).
Lemma pack_bin_spec tol trim (A : string -> R) ks : NoDup ks -> forall im ok, incl ks (keys im) ->
  exists im', foldM (pack_entry tol trim) (map (fun k => (k, A k)) ks) (im, ok) = Ok (im', ok && forallb (fun k => negb (off_average tol A im k)) ks) /\ keys im' = keys im /\
    (forall k, In k ks -> dget k im' = Some (if off_average tol A im k then trim (value k im) else value k im)) /\ (forall k, ~ In k ks -> dget k im' = dget k im).
Proof.
  induction ks as [|k ks IH]; intros ND im ok Hi.
  - exists im. cbn. rewrite andb_true_r. split; [reflexivity|]. split; [reflexivity|]. split; [intros k []|reflexivity].
  - inversion ND as [|? ? Hni ND']; subst. assert (Hk : In k (keys im)) by (apply Hi; now left). destruct (dget_keys k im Hk) as (x & Hx).
    assert (Vx : value k im = x) by (unfold value; now rewrite Hx).
    assert (ES : pack_entry tol trim (im, ok) (k, A k) = if Rltb tol (Rabs (x - A k)) then Ok (dset k (trim x) im, false) else Ok (im, ok)) by (unfold pack_entry, dgetE; cbn [fst snd]; rewrite Hx; reflexivity).
    cbn [map foldM]. rewrite ES. clear ES.
    assert (OA : off_average tol A im k = Rltb tol (Rabs (x - A k))) by (unfold off_average; now rewrite Vx).
    destruct (Rltb tol (Rabs (x - A k))) eqn:E; cbn [bind].
    + destruct (IH ND' (dset k (trim x) im) false) as (im' & F & K & G1 & G2); [rewrite keys_dset_in by exact Hk; intros q Hq; apply Hi; now right|].
      assert (VV : forall q, In q ks -> value q (dset k (trim x) im) = value q im) by (intros q Hq; unfold value; rewrite dget_dset_ne; [reflexivity|intros ->; contradiction]).
      exists im'. split; [|split; [rewrite K; now apply keys_dset_in|split]].
      * rewrite F. cbn [forallb]. rewrite OA. cbn. now rewrite andb_false_r.
      * intros q [<-|Hq]; [rewrite OA, G2 by exact Hni; rewrite dget_dset_eq, Vx; reflexivity|].
        rewrite G1 by exact Hq. unfold off_average. now rewrite VV.
      * intros q Hq. rewrite G2 by (intros X; apply Hq; now right). apply dget_dset_ne. intros ->. apply Hq. now left.
    + destruct (IH ND' im ok) as (im' & F & K & G1 & G2); [intros q Hq; apply Hi; now right|].
      exists im'. split; [|split; [exact K|split]].
      * rewrite F. cbn [forallb]. now rewrite OA.
      * intros q [<-|Hq]; [rewrite OA, G2 by exact Hni; rewrite Hx, Vx; reflexivity|now apply G1].
      * intros q Hq. apply G2. intros X. apply Hq. now right.
Qed.
Lemma pack_bins_spec tol trim (A : string -> R) ks l : NoDup ks -> (forall d, In d l -> keys d = ks) ->
  exists r, mapM (pack_bin tol trim (map (fun k => (k, A k)) ks)) l = Ok r /\ length r = length l /\
    forallb snd r = forallb (fun d => forallb (fun k => negb (off_average tol A d k)) ks) l /\
    forall b, (b < length l)%nat -> keys (nth b (map fst r) []) = ks /\ forall k, In k ks -> let x := value k (nth b l []) in
      dget k (nth b (map fst r) []) = Some (if Rltb tol (Rabs (x - A k)) then trim x else x).
Proof.
  intros ND. induction l as [|d l IH]; intros HK.
  - exists []. cbn. repeat split; intros; lia.
  - destruct (IH (fun d Hd => HK d (or_intror Hd))) as (r & R1 & R2 & R3 & R4).
    destruct (pack_bin_spec tol trim A ks ND d true) as (im' & F & K & G1 & _); [rewrite HK by (now left); apply incl_refl|].
    exists ((im', forallb (fun k => negb (off_average tol A d k)) ks) :: r). cbn [mapM]. unfold pack_bin at 1. rewrite F, R1. cbn [bind andb]. split; [reflexivity|]. split; [cbn; now rewrite R2|].
    split; [cbn; now rewrite R3|]. intros [|b] Hb.
    + cbn [map nth fst]. split; [rewrite K; apply HK; now left|]. exact G1.
    + cbn [map nth]. apply R4. cbn in Hb. lia.
Qed.

(** * C97 *)

(** Packing never fails on tables with the same variations in all the bins, and gives for each bin and variation an impact that is within
    twice the tolerance of the original one, and the rounding. *)
Theorem C97_packed_within_tolerance tol otrim delta ks l : 0 <= tol -> otrim_ok delta otrim -> l <> [] -> same_keys ks l ->
  exists r, pack tol otrim l = Ok r /\
    forall b k, (b < length l)%nat -> In k ks -> exists y, packed_value r b k = Some y /\
      let x := value k (nth b l []) in
      match r with
      | PNone => y = 0 /\ Rabs x <= tol + tol / (1 - delta)
      | POne _ => Rabs (y - x) <= tol + delta * (Rabs x + tol)
      | PMany _ => Rabs (y - x) <= delta * Rabs x
      end.
Proof.
  intros Ht (Hd & HT) Hl HS. pose proof HS as (ND & HK). unfold pack. destruct l as [|d0 l0] eqn:E; [contradiction|]. rewrite <- E in *. clear d0 l0 E.
  rewrite (pack_average_spec ks l Hl HS). cbn [bind]. fold (trim_of otrim). set (trim := trim_of otrim) in *.
  destruct (pack_bins_spec tol trim (average l) ks l ND HK) as (r & R1 & R2 & R3 & R4). rewrite R1. cbn [bind].
  destruct (forallb snd r) eqn:EO.
  - assert (C : forall b k, (b < length l)%nat -> In k ks -> Rabs (value k (nth b l []) - average l k) <= tol).
    { intros b k Hb Hk. symmetry in R3. rewrite forallb_forall in R3. specialize (R3 _ (nth_In l [] Hb)). rewrite forallb_forall in R3. specialize (R3 k Hk).
      apply negb_true_iff in R3. apply Rltb_false in R3. exact R3. }
    destruct (forallb _ (map _ _)) eqn:EN.
    + exists PNone. split; [reflexivity|]. intros b k Hb Hk. exists 0. split; [reflexivity|]. cbv zeta. split; [reflexivity|].
      rewrite forallb_forall in EN. specialize (EN (k, trim (average l k))). rewrite in_map_iff in EN. specialize (EN (ex_intro _ (k, average l k) (conj eq_refl (in_map (fun k => (k, average l k)) _ _ Hk)))).
      cbn in EN. apply Rleb_true in EN. specialize (C b k Hb Hk). specialize (HT (average l k)). set (a := average l k) in *. set (x := value k (nth b l [])) in *.
      assert (Ha : Rabs a * (1 - delta) <= tol).
      { assert (Rabs a <= Rabs (trim a) + Rabs (trim a - a)); [|lra]. replace a with (trim a - (trim a - a)) at 1 by ring. eapply Rle_trans; [apply Rabs_triang|]. rewrite Rabs_Ropp. lra. }
      assert (Rabs a <= tol / (1 - delta)).
      { apply (Rmult_le_reg_r (1 - delta)); [lra|]. unfold Rdiv. rewrite Rmult_assoc, Rinv_l by lra. lra. }
      replace x with ((x - a) + a) by ring. eapply Rle_trans; [apply Rabs_triang|]. lra.
    + eexists. split; [reflexivity|]. intros b k Hb Hk. exists (trim (average l k)). split.
      * cbn. rewrite map_map. cbn. apply (dget_tab (fun k => trim (average l k))). exact Hk.
      * cbv zeta. specialize (C b k Hb Hk). specialize (HT (average l k)). set (a := average l k) in *. set (x := value k (nth b l [])) in *.
        assert (Rabs a <= Rabs x + tol). { replace a with (x - (x - a)) by ring. eapply Rle_trans; [apply Rabs_triang|]. rewrite Rabs_Ropp. lra. }
        replace (trim a - x) with ((trim a - a) - (x - a)) by ring. eapply Rle_trans; [apply Rabs_triang|]. rewrite Rabs_Ropp.
        assert (delta * Rabs a <= delta * (Rabs x + tol)) by (apply Rmult_le_compat_l; lra). lra.
  - destruct otrim as [t|].
    + eexists. split; [reflexivity|]. intros b k Hb Hk. destruct (R4 b Hb) as (_ & G). specialize (G k Hk). cbv zeta in G. eexists. split; [exact G|]. cbv zeta.
      set (x := value k (nth b l [])) in *. destruct (Rltb _ _); [apply HT|]. rewrite Rminus_diag_eq by reflexivity. rewrite Rabs_R0. apply Rmult_le_pos; [lra|apply Rabs_pos].
    + eexists. split; [reflexivity|]. intros b k Hb Hk. exists (value k (nth b l [])). split.
      * cbn. eapply value_some; [apply HK, nth_In, Hb|exact Hk].
      * cbv zeta. rewrite Rminus_diag_eq by reflexivity. rewrite Rabs_R0. apply Rmult_le_pos; [lra|apply Rabs_pos].
Qed.
Print Assumptions C97_packed_within_tolerance.

(** The single table is the average over the bins; the impact is left out only if the average vanishes within the tolerance for all the
    variations; and bins are kept apart exactly if one differs from the average by more than the tolerance. *)
Theorem C97_packing_rule tol otrim ks l r : l <> [] -> same_keys ks l -> pack tol otrim l = Ok r ->
  let trim := trim_of otrim in
  let close := forall b k, (b < length l)%nat -> In k ks -> Rabs (value k (nth b l []) - average l k) <= tol in
  match r with
  | PNone => close /\ forall k, In k ks -> Rabs (trim (average l k)) <= tol
  | POne d => close /\ (exists k, In k ks /\ tol < Rabs (trim (average l k))) /\ keys d = ks /\ forall k, In k ks -> dget k d = Some (trim (average l k))
  | PMany l' => ~ close /\ length l' = length l /\ forall b, (b < length l)%nat -> keys (nth b l' []) = ks
  end.
Proof.
  intros Hl HS H. pose proof HS as (ND & HK). unfold pack in H. destruct l as [|d0 l0] eqn:E; [contradiction|]. rewrite <- E in *. clear d0 l0 E.
  rewrite (pack_average_spec ks l Hl HS) in H. cbn [bind] in H. fold (trim_of otrim) in H. cbv zeta. set (trim := trim_of otrim) in *.
  destruct (pack_bins_spec tol trim (average l) ks l ND HK) as (q & R1 & R2 & R3 & R4). rewrite R1 in H. cbn [bind] in H.
  destruct (forallb snd q) eqn:EO.
  - assert (C : forall b k, (b < length l)%nat -> In k ks -> Rabs (value k (nth b l []) - average l k) <= tol).
    { intros b k Hb Hk. symmetry in R3. rewrite forallb_forall in R3. specialize (R3 _ (nth_In l [] Hb)). rewrite forallb_forall in R3. specialize (R3 k Hk).
      apply negb_true_iff in R3. apply Rltb_false in R3. exact R3. }
    rewrite map_map in H. cbn [fst snd] in H. destruct (forallb (fun kv => Rleb _ _) _) eqn:EN; injection H as <-.
    + split; [exact C|]. intros k Hk. rewrite forallb_forall in EN. apply Rleb_true. apply (EN (k, trim (average l k))). apply (in_map (fun x => (x, trim (average l x)))). exact Hk.
    + split; [exact C|]. split; [|split].
      * assert (X : exists kv, In kv (map (fun x => (x, trim (average l x))) ks) /\ Rleb (Rabs (snd kv)) tol = false).
        { clear -EN. induction (map (fun x => (x, trim (average l x))) ks) as [|a m IH]; [discriminate|]. cbn in EN. destruct (Rleb (Rabs (snd a)) tol) eqn:Ea; [|exists a; split; [now left|exact Ea]].
          destruct (IH EN) as (kv & I1 & I2). exists kv. split; [now right|exact I2]. }
        destruct X as (kv & Hin & Hf). apply in_map_iff in Hin. destruct Hin as (k & <- & Hk). exists k. split; [exact Hk|]. cbn in Hf. apply Rleb_false in Hf. exact Hf.
      * unfold keys. rewrite map_map. cbn. apply map_id.
      * intros k Hk. apply (dget_tab (fun k => trim (average l k))). exact Hk.
  - assert (NC : ~ forall b k, (b < length l)%nat -> In k ks -> Rabs (value k (nth b l []) - average l k) <= tol).
    { intros C. symmetry in R3. apply not_true_iff_false in R3. apply R3. apply forallb_forall. intros d Hd. apply forallb_forall. intros k Hk.
      destruct (In_nth l d [] Hd) as (b & Hb & <-). apply negb_true_iff. apply Rltb_false. now apply C. }
    destruct otrim as [t|]; injection H as <-; (split; [exact NC|split]).
    + rewrite map_length. exact R2.
    + intros b Hb. apply R4. exact Hb.
    + reflexivity.
    + intros b Hb. apply HK, nth_In, Hb.
Qed.
Print Assumptions C97_packing_rule.

(** The bound of twice the tolerance is reached up to any amount: an impact may be dropped although it exceeds the tolerance. *)
Theorem C97_dropped_above_tolerance_refuted : exists l k, same_keys ["+1"] l /\ pack 1 None l = Ok PNone /\ (k < length l)%nat /\ value "+1" (nth k l []) = 2 /\ 1 < 2.
Proof.
  exists [[("+1", 2)]; [("+1", 0)]], 0%nat.
  assert (S : same_keys ["+1"] [[("+1", 2)]; [("+1", 0)]]) by (split; [repeat constructor; intros []|intros d [<-|[<-|[]]]; reflexivity]).
  split; [exact S|]. split; [|cbn; repeat split; [lia|lra]].
  pose proof (C97_packed_within_tolerance 1 None 0 ["+1"] [[("+1", 2)]; [("+1", 0)]] ltac:(lra)) as P.
  destruct P as (r & R1 & _); [split; [lra|intros x; cbn; rewrite Rminus_diag_eq by reflexivity; rewrite Rabs_R0; lra]|discriminate|exact S|].
  rewrite R1. f_equal. pose proof (C97_packing_rule 1 None ["+1"] [[("+1", 2)]; [("+1", 0)]] r ltac:(discriminate) S R1) as Q. cbv zeta in Q.
  assert (A : average [[("+1", 2)]; [("+1", 0)]] "+1" = 1) by (unfold average, value; cbn; lra).
  destruct r as [|d|l']; [reflexivity| |]; exfalso.
  - destruct Q as (_ & (k & [<-|[]] & Hk) & _). rewrite A in Hk. cbn in Hk. rewrite Rabs_R1 in Hk. lra.
  - destruct Q as (Q & _). apply Q. intros b k Hb [<-|[]]. rewrite A. destruct b as [|[|b]]; [| |cbn in Hb; lia]; unfold value; cbn.
    + replace (2 - 1) with 1 by lra. rewrite Rabs_R1. lra.
    + replace (0 - 1) with (-(1)) by lra. rewrite Rabs_Ropp, Rabs_R1. lra.
Qed.
Print Assumptions C97_dropped_above_tolerance_refuted.

Example C97_nonvacuous : exists l : list (dict R), l <> [] /\ same_keys ["+1"; "-1"] l /\ otrim_ok (1/10) (Some (fun x => x * (11/10))).
Proof.
  exists [[("+1", 1/10); ("-1", -1/10)]; [("+1", 2/10); ("-1", -2/10)]]. split; [discriminate|]. split.
  - split; [repeat constructor; cbn; intuition discriminate|]. intros d [<-|[<-|[]]]; reflexivity.
  - split; [lra|]. intros x. cbn. replace (x * (11/10) - x) with (1/10 * x) by lra. rewrite Rabs_mult, (Rabs_right (1/10)) by lra. lra.
Qed.
