(** Facts about the model of the calculators *)
From Verif Require Import Py PyFacts Base Expressions Norms Sample Channels Params Core NpMin PoiMin TestStat FitData Calculators.
Local Open Scope string_scope.
Local Open Scope list_scope.

Definition separated (hash : list string -> Z) (hs : list Hypo) : Prop := forall a b, In a hs -> In b hs -> same_key hash a b = true -> a = b.

Lemma same_key_refl hash h : NoDup (keys h) -> same_key hash h h = true.
Proof.
  intros N. unfold same_key. rewrite Z.eqb_refl. cbn. unfold hypo_eqb. rewrite Nat.eqb_refl. cbn. apply forallb_forall. intros [k v] Hin. cbn.
  rewrite (In_dget _ _ _ N Hin). apply Reqb_true. reflexivity.
Qed.

Lemma hset_in {V} hash hs (d : hdict V) h v : separated hash hs -> (forall x w, In (x, w) d -> In x hs) -> In h hs ->
  forall x w, In (x, w) (hset hash h v d) -> (x = h /\ w = v) \/ In (x, w) d.
Proof.
  intros S K Hh. induction d as [|[h' v'] d IH]; cbn; intros x w Hin.
  - destruct Hin as [[= <- <-]|[]]. now left.
  - destruct (same_key hash h' h) eqn:E.
    + destruct Hin as [[= <- <-]|Hin]; [|now right; right]. left. split; [|reflexivity]. apply (S h' h); auto. eapply K. now left.
    + destruct Hin as [Hin|Hin]; [now right; left|]. destruct (IH (fun x w H => K x w (or_intror H)) x w Hin); auto.
Qed.
Lemma hset_has {V} hash (d : hdict V) h v hs : separated hash hs -> (forall x w, In (x, w) d -> In x hs) -> In h hs -> In (h, v) (hset hash h v d).
Proof.
  intros S K Hh. induction d as [|[h' v'] d IH]; cbn; [now left|]. destruct (same_key hash h' h) eqn:E.
  - left. f_equal. apply (S h' h); auto. eapply K. now left.
  - right. apply IH. intros x w H. apply (K x w). now right.
Qed.
Lemma hset_keeps {V} hash (d : hdict V) h v x w : In (x, w) d -> exists w', In (x, w') (hset hash h v d).
Proof.
  induction d as [|[h' v'] d IH]; cbn; [intros []|]. intros [[= <- <-]|Hin].
  - destruct (same_key hash h' h); eexists; left; reflexivity.
  - destruct (same_key hash h' h); [eexists; right; exact Hin|]. destruct (IH Hin) as [w' Hw]. exists w'. now right.
Qed.

(** the state of the calculator's minimizer only enters through what its clones keep *)
Lemma tmu_point_state m I F s h full p s' : tmu_point m I F false s h full = Ok (p, s') -> mini_clone s' = mini_clone s.
Proof.
  unfold tmu_point. intros H. apply bind_Ok in H as (u & _ & H). apply bind_Ok in H as (ib & _ & H). apply bind_Ok in H as (hib & _ & H). apply bind_Ok in H as ([r hm] & _ & H).
  apply bind_Ok in H as (hn & _ & H). apply bind_Ok in H as (fx & _ & H). injection H as <- <-. reflexivity.
Qed.
Lemma tmu_point_clone m I F s s2 h full p s' : mini_clone s2 = mini_clone s -> tmu_point m I F false s h full = Ok (p, s') -> exists s2', tmu_point m I F false s2 h full = Ok (p, s2').
Proof.
  intros E H. unfold tmu_point in *. rewrite E. apply bind_Ok in H as (u & -> & H). apply bind_Ok in H as (ib & -> & H). cbn [bind with_pois mi_bounds] in *. apply bind_Ok in H as (hib & -> & H).
  cbn [bind]. apply bind_Ok in H as ([r hm] & -> & H). cbn [bind]. apply bind_Ok in H as (hn & -> & H). cbn [bind]. apply bind_Ok in H as (fx & -> & H). injection H as <- <-. cbn [bind]. eauto.
Qed.

(** the points after the loop, in the modes that do not fit the free parameters at each point *)
Lemma tmu_loop hash m I F full hs0 : separated hash hs0 -> forall hs d s d' s', incl hs hs0 ->
  (forall x w, In (x, w) d -> In x hs0) ->
  foldM (tmu_step hash m I F false full) (map HObj hs) (d, s) = Ok (d', s') ->
  mini_clone s' = mini_clone s /\
  (forall h p, In (h, p) d' -> In (h, p) d \/ (In h hs /\ exists s1, tmu_point m I F false s h (hget hash h full) = Ok (p, s1))) /\
  (forall h, In h hs -> exists p, In (h, p) d') /\ (forall h p, In (h, p) d -> exists p', In (h, p') d').
Proof.
  intros S. induction hs as [|h hs IH]; intros d s d' s' Hincl K H.
  - cbn in H. injection H as <- <-. split; [reflexivity|]. split; [auto|]. split; [intros h []|eauto].
  - cbn [map foldM tmu_step] in H. apply bind_Ok in H as ([d1 s1] & Hp & H). apply bind_Ok in Hp as ([p s1'] & Hp & E). injection E as <- <-. cbn [fst snd] in *.
    assert (Hh : In h hs0) by (apply Hincl; now left).
    assert (K1 : forall x w, In (x, w) (hset hash h p d) -> In x hs0) by (intros x w Hin; destruct (hset_in hash hs0 d h p S K Hh x w Hin) as [[-> _]|Hin']; eauto).
    destruct (IH _ _ _ _ (fun x Hx => Hincl x (or_intror Hx)) K1 H) as (A & B & C & D).
    pose proof (tmu_point_state _ _ _ _ _ _ _ _ Hp) as Hc. split; [congruence|]. split; [|split].
    + intros h1 p1 Hin. destruct (B h1 p1 Hin) as [Hin'|[Hin' [s2 Hp1]]].
      * destruct (hset_in hash hs0 d h p S K Hh _ _ Hin') as [[-> ->]|?]; [right; split; [now left|eauto]|now left].
      * right. split; [now right|]. eapply tmu_point_clone; [symmetry; exact Hc|exact Hp1].
    + intros x [<-|Hx]; [|apply C, Hx]. eapply D. eapply hset_has; eauto.
    + intros x w Hin. destruct (hset_keeps hash d h p x w Hin) as [w' Hw]. eapply D, Hw.
Qed.

(** the points in the 'all' mode *)
Lemma tmu_loop_all hash m I F full hs0 : separated hash hs0 -> forall hs d s d' s', incl hs hs0 ->
  (forall x w, In (x, w) d -> In x hs0) ->
  foldM (tmu_step hash m I F true full) (map HObj hs) (d, s) = Ok (d', s') ->
  (forall h p, In (h, p) d' -> In (h, p) d \/ (In h hs /\ exists s0 s1, tmu_point m I F true s0 h (hget hash h full) = Ok (p, s1))) /\
  (forall h, In h hs -> exists p, In (h, p) d') /\ (forall h p, In (h, p) d -> exists p', In (h, p') d').
Proof.
  intros S. induction hs as [|h hs IH]; intros d s d' s' Hincl K H.
  - cbn in H. injection H as <- <-. split; [auto|]. split; [intros h []|eauto].
  - cbn [map foldM tmu_step] in H. apply bind_Ok in H as ([d1 s1] & Hp & H). apply bind_Ok in Hp as ([p s1'] & Hp & E). injection E as <- <-. cbn [fst snd] in *.
    assert (Hh : In h hs0) by (apply Hincl; now left).
    assert (K1 : forall x w, In (x, w) (hset hash h p d) -> In x hs0) by (intros x w Hin; destruct (hset_in hash hs0 d h p S K Hh x w Hin) as [[-> _]|Hin']; eauto).
    destruct (IH _ _ _ _ (fun x Hx => Hincl x (or_intror Hx)) K1 H) as (B & C & D). split; [|split].
    + intros h1 p1 Hin. destruct (B h1 p1 Hin) as [Hin'|[Hin' [s2 Hp1]]].
      * destruct (hset_in hash hs0 d h p S K Hh _ _ Hin') as [[-> ->]|?]; [right; split; [now left|eauto]|now left].
      * right. split; [now right|eauto].
    + intros x [<-|Hx]; [|apply C, Hx]. eapply D. eapply hset_has; eauto.
    + intros x w Hin. destruct (hset_keeps hash d h p x w Hin) as [w' Hw]. eapply D, Hw.
Qed.

Lemma best_fixed_from_spec l : forall b v r, fr_nll (pt_fixed (snd b)) = Some v -> best_fixed_from l b v = Ok r ->
  exists w, fr_nll (pt_fixed (snd r)) = Some w /\ (r = b \/ In r l) /\ w <= v /\ forall x, In x l -> exists u, fr_nll (pt_fixed (snd x)) = Some u /\ w <= u.
Proof.
  induction l as [|x l IH]; intros b v r Hb H; cbn in H.
  - injection H as <-. exists v. split; [exact Hb|]. split; [now left|]. split; [lra|intros x []].
  - destruct (fr_nll (pt_fixed (snd x))) as [u|] eqn:E; [|discriminate].
    destruct (Rltb u v) eqn:L; [apply Rltb_true in L|apply Rltb_false in L].
    + destruct (IH _ _ _ E H) as (w & A & B & C & D). exists w. split; [exact A|]. split; [right; destruct B as [->|B]; [now left|now right]|]. split; [lra|].
      intros y [<-|Hy]; [exists u; split; [exact E|exact C]|apply D, Hy].
    + destruct (IH _ _ _ Hb H) as (w & A & B & C & D). exists w. split; [exact A|]. split; [destruct B as [->|B]; [now left|right; now right]|]. split; [lra|].
      intros y [<-|Hy]; [exists u; split; [exact E|lra]|apply D, Hy].
Qed.
Lemma best_fixed_spec l r : best_fixed l = Ok r -> exists w, fr_nll (pt_fixed (snd r)) = Some w /\ In r l /\ forall x, In x l -> exists u, fr_nll (pt_fixed (snd x)) = Some u /\ w <= u.
Proof.
  destruct l as [|x l]; cbn; [discriminate|]. destruct (fr_nll (pt_fixed (snd x))) as [v|] eqn:E; [|discriminate]. intros H.
  destruct (best_fixed_from_spec l x v r E H) as (w & A & B & C & D). exists w. split; [exact A|]. split; [destruct B as [->|B]; [now left|now right]|].
  intros y [<-|Hy]; [eauto|apply D, Hy].
Qed.

Lemma set_global_id pts pts' : set_global_best_fit pts = Ok pts' -> pts' = pts.
Proof. unfold set_global_best_fit. destruct pts as [|a [|b l]]; try congruence. destruct (forallb _ _); congruence. Qed.

(** points of a raster built from completed points *)
Lemma raster_points pts g m r : raster_new pts g true m = Ok r ->
  Forall2 (fun hp hp' => fst hp' = fst hp /\ exists a b, fr_nll (plr_fixed (snd hp)) = Some a /\ fr_nll (plr_free (snd hp)) = Some b /\
    snd hp' = with_ts (snd hp) (dset "tmu" (VNum (2 * (a - b))) (plr_ts (snd hp)))) pts (ra_points r) /\ ra_model r = m.
Proof.
  unfold raster_new. intros H. apply bind_Ok in H as (p1 & H1 & H). apply bind_Ok in H as (p2 & H2 & H). apply bind_Ok in H as (ps & _ & H). injection H as <-. cbn.
  assert (p1 = pts) as -> by (destruct g; [now apply set_global_id|congruence]). split; [|reflexivity].
  apply mapM_Forall2 in H2. eapply Forall2_impl_in; [|exact H2]. intros [h p] [h' p'] _ E. cbn in *. apply bind_Ok in E as (q & E & E'). injection E' as <- <-.
  unfold compute_tmu in E. destruct (fr_nll (plr_fixed p)) as [a|]; [|discriminate]. destruct (fr_nll (plr_free p)) as [b|]; [|discriminate]. injection E as <-. split; [reflexivity|eauto 6].
Qed.

Lemma fill_all_points D k r r' : fill_all_pv D k r = Ok r' -> Forall2 (fun hp hp' => fst hp' = fst hp /\ fill_pv D k (snd hp) = Ok (snd hp')) (ra_points r) (ra_points r').
Proof.
  unfold fill_all_pv. intros H. apply bind_Ok in H as (l & H & E). injection E as <-. cbn. apply mapM_Forall2 in H. eapply Forall2_impl_in; [|exact H].
  intros [h p] [h' p'] _ E. cbn in *. apply bind_Ok in E as (q & E & E'). injection E' as <- <-. auto.
Qed.

Lemma Forall2_compose {A B C} (P : A -> B -> Prop) (Q : B -> C -> Prop) l1 : forall l2 l3, Forall2 P l1 l2 -> Forall2 Q l2 l3 -> Forall2 (fun a c => exists b, P a b /\ Q b c) l1 l3.
Proof. induction l1 as [|a l1 IH]; intros l2 l3 H1 H2; inversion H1; subst; inversion H2; subst; constructor; eauto. Qed.
Lemma Forall2_in_r {A B} (P : A -> B -> Prop) l r b : Forall2 P l r -> In b r -> exists a, In a l /\ P a b.
Proof. induction 1 as [|x y l r H1 H IH]; intros Hin; [destruct Hin|]. destruct Hin as [<-|Hin]; [exists x; split; [now left|exact H1]|]. destruct (IH Hin) as (a & ? & ?). exists a. split; [now right|assumption]. Qed.

(** from the points of the loop to the points of the returned raster *)
Lemma tmu_finish D I common pts plrs r0 r : mapM (finish_point I common) pts = Ok plrs -> raster_new plrs true true (Some (i_pm I)) = Ok r0 -> fill_all_pv D CalcTMu r0 = Ok r ->
  Forall2 (fun hp hp' => fst hp' = fst hp /\ exists free a b, (common = Some free \/ common = None /\ pt_free (snd hp) = Some free) /\
      fr_nll (pt_fixed (snd hp)) = Some a /\ fr_nll free = Some b /\ plr_free (snd hp') = free /\ plr_fixed (snd hp') = pt_fixed (snd hp) /\ plr_hypo (snd hp') = fst hp /\
      dget "tmu" (plr_ts (snd hp')) = Some (VNum (2 * (a - b))) /\
      dget "pv" (plr_pvs (snd hp')) = Some (VNum (chi2sf D (2 * (a - b)) (length (fst hp))))) pts (ra_points r).
Proof.
  intros H1 H2 H3. apply mapM_Forall2 in H1. destruct (raster_points _ _ _ _ H2) as [H2' _]. apply fill_all_points in H3.
  eapply Forall2_impl_in; [|exact (Forall2_compose _ _ _ _ _ (Forall2_compose _ _ _ _ _ H1 H2') H3)].
  intros [h pt] [h3 p3] _ ([h2 p2] & ([h1 p1] & E1 & (E2 & a & b & Ea & Eb & E2')) & (E3 & E3')). cbn [fst snd] in *. subst h3 h2.
  unfold finish_point in E1. cbn [fst snd] in E1.
  assert (exists free, (common = Some free \/ common = None /\ pt_free pt = Some free) /\
    bind (plr_update (mkPLR h free (pt_fixed pt) [] [] (pt_full pt) (Some (i_pm I)) None)) (fun p => Ok (h, p)) = Ok (h1, p1)) as (free & Hf & E).
  { destruct common as [f|]; [eauto|]. destruct (pt_free pt) as [f|]; [eauto|discriminate]. }
  apply bind_Ok in E as (q & Eq & E). injection E as <- <-. split; [reflexivity|].
  assert (Eq' : exists ts, q = mkPLR h free (pt_fixed pt) ts [] (pt_full pt) (Some (i_pm I)) None).
  { unfold plr_update in Eq. apply bind_Ok in Eq as (u & _ & Eq). cbn in Eq. unfold compute_tmu in Eq. cbn in Eq. destruct (fr_nll (pt_fixed pt)); [|discriminate]. destruct (fr_nll free); [|discriminate].
    injection Eq as <-. eexists. reflexivity. }
  destruct Eq' as [ts ->]. subst p2. cbn in Ea, Eb. exists free, a, b.
  cbn [fill_pv] in E3'. apply bind_Ok in E3' as (u & _ & E3'). apply bind_Ok in E3' as (t & Et & E3'). injection E3' as <-.
  assert (t = 2 * (a - b)) as ->.
  { unfold ts_num, dgetE in Et. cbn in Et. rewrite dget_dset_eq in Et. cbn in Et. congruence. }
  cbn. rewrite dget_dset_eq. repeat (split; [assumption || reflexivity|]). unfold tmu_pv. cbn. unfold keys. rewrite map_length. reflexivity.
Qed.
