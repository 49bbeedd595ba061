(** Property theorems about scans: C48, C49, C50, C74, C75. *)
From Verif Require Import Py PyFacts Base BaseFacts Params FitData FitDataFacts FitDataProps Scans.
Local Open Scope string_scope.
Local Open Scope list_scope.

(** ** Specification *)

(** the entry of a point under a key: the p-value, or else the test statistic *)
Definition raw_value (key : string) (p : PLR) (raw : pyval) : Prop :=
  dget key (plr_pvs p) = Some raw \/ (dget key (plr_pvs p) = None /\ dget key (plr_ts p) = Some raw).
(** its value [k] standard deviations away from the central value *)
Definition reads (key : string) (p : PLR) (k v : R) : Prop :=
  exists raw, raw_value key p raw /\ ((raw = VNum v /\ k = 0) \/ exists c e, raw = VPair c e /\ v = c + k * e).
(** the curve points of a scan: POI value and reading, in the order of the raster *)
Definition scan_curve_points (s : Scan1D) (k : R) (pts : list (R * R)) : Prop :=
  Forall2 (fun hp xy => dget (s1_poi s) (fst hp) = Some (fst xy) /\ reads (sc_key (s1_scan s)) (snd hp) k (snd xy)) (ra_points (sc_raster (s1_scan s))) pts.
(** the points that can be used: in logarithmic scale, only positive values *)
Definition usable (log : bool) (pts : list (R * R)) : list (R * R) := filter (fun xy => if log then Rltb 0 (snd xy) else true) pts.
(** what is interpolated: the distance to the level, or its logarithm *)
Definition shifted (log : bool) (level : R) (pts : list (R * R)) : list R :=
  map (fun xy => if log then ln (snd xy / level) else snd xy - level) pts.
(** the interpolated curve *)
Definition icurve (L : SplineLib) (log : bool) (level : R) (pts : list (R * R)) (x : R) : R :=
  if log then level * exp (sp_curve L 3 (map fst pts) (shifted log level pts) x) else level + sp_curve L 3 (map fst pts) (shifted log level pts) x.
(** What is assumed of scipy for given points: the cubic spline goes through them, is continuous, and roots() gives zeros of it
    within the range of the points, in increasing order. *)
Definition cubic_ok (L : SplineLib) (xs ys : list R) : Prop :=
  (forall i x y, nth_error xs i = Some x -> nth_error ys i = Some y -> sp_curve L 3 xs ys x = y) /\ continuity (sp_curve L 3 xs ys) /\
  (forall r, In r (sp_roots L xs ys) -> hd 0 xs <= r <= last xs 0 /\ sp_curve L 3 xs ys r = 0) /\ increasing (sp_roots L xs ys) = true.

(** ** Lemmas *)
Lemma scan_num_reads s p k v : scan_num s p k = Ok v <-> reads (sc_key s) p k v.
Proof.
  unfold scan_num, scan_value, reads, raw_value. split.
  - intros H. apply bind_Ok in H as (w & H & Hw). apply bind_Ok in H as (raw & Hr & H).
    exists raw. split.
    + destruct (dget (sc_key s) (plr_pvs p)) as [x|]; [left; congruence|]. unfold dgetE in Hr. destruct (dget (sc_key s) (plr_ts p)); [right; split; congruence|discriminate].
    + destruct raw as [x| |c e|l]; [|destruct (Reqb k 0); [injection H as <-; discriminate Hw|discriminate H]| |destruct (Reqb k 0); [injection H as <-; discriminate Hw|discriminate H]].
      * destruct (Reqb k 0) eqn:E; [|discriminate]. injection H as <-. injection Hw as ->. left. split; [reflexivity|now apply Reqb_true].
      * injection H as <-. injection Hw as <-. right. eauto.
  - intros (raw & Hr & H).
    assert ((match dget (sc_key s) (plr_pvs p) with Some v => Ok v | None => dgetE (sc_key s) (plr_ts p) end) = Ok raw) as ->.
    { unfold dgetE. destruct Hr as [->|[-> ->]]; reflexivity. }
    cbn [bind]. destruct H as [[-> ->]|(c & e & -> & ->)]; [rewrite (proj2 (Reqb_true 0 0)) by reflexivity|]; reflexivity.
Qed.

Lemma scan_points_spec s k xs vs ys : scan_points s k = Ok (xs, vs) -> Forall2 (fun v y => v = VNum y) vs ys ->
  length xs = length ys /\ scan_curve_points s k (combine xs ys).
Proof.
  unfold scan_points, scan_curve_points. intros H HF. apply bind_Ok in H as (l & H & E). injection E as <- <-. apply mapM_Forall2 in H.
  revert ys HF. induction H as [|[h p] [x v] pts l Hx H IH]; intros ys HF; cbn in HF |- *; inversion HF; subst; [split; [reflexivity|constructor]|].
  destruct (IH _ H4) as [A B]. split; [cbn; congruence|]. constructor; [|exact B]. cbn in Hx |- *.
  apply bind_Ok in Hx as (x' & Hx' & Hv). apply bind_Ok in Hv as (v' & Hv & E). injection E as <- ->. split.
  - unfold dgetE in Hx'. destruct (dget (s1_poi s) h); [congruence|discriminate].
  - apply scan_num_reads. unfold scan_num. rewrite Hv. reflexivity.
Qed.

Lemma interp_points_spec level log : forall xs vs pts, length xs = length vs -> interp_points level log xs vs = Ok pts ->
  exists ys, length vs = length ys /\
    (let u := usable log (combine xs ys) in pts = combine (map fst u) (shifted log level u) /\ (log = true -> u <> [] -> 0 < level) /\
       (log = false -> Forall2 (fun v y => v = VNum y) vs ys)) /\ Forall2 (fun v y => v = VNum y) vs ys.
Proof.
  induction xs as [|x xs IH]; intros [|v vs] pts HL H; try discriminate.
  - injection H as <-. exists []. cbn. split; [reflexivity|]. split; [|constructor]. split; [destruct log; reflexivity|]. split; [destruct log; congruence|constructor].
  - cbn [interp_points] in H. apply bind_Ok in H as (y & Hy & H). assert (v = VNum y) as -> by (destruct v; try discriminate; cbn in Hy; congruence).
    cbn in HL. injection HL as HL.
    assert (Ht : forall ys (u := usable log (combine (x :: xs) (y :: ys))), u = if (if log then Rltb 0 y else true) then (x, y) :: usable log (combine xs ys) else usable log (combine xs ys)) by reflexivity.
    destruct log.
    + destruct (Rleb y 0) eqn:Ey.
      * apply Rleb_true in Ey. destruct (IH vs pts HL H) as (ys & A & (B & C & _) & D). exists (y :: ys).
        split; [cbn; congruence|]. assert (Rltb 0 y = false) as E0 by (apply Rltb_false; lra). cbn zeta. rewrite Ht, E0. split; [split; [exact B|split; [exact C|discriminate]]|constructor; auto].
      * apply Rleb_false in Ey. destruct (Reqb level 0) eqn:E0; [discriminate|]. apply Reqb_false in E0. destruct (Rleb (y / level) 0) eqn:E1; [discriminate|]. apply Rleb_false in E1.
        apply bind_Ok in H as (l & Hl & H). injection H as <-. destruct (IH vs l HL Hl) as (ys & A & (B & C & _) & D). exists (y :: ys).
        split; [cbn; congruence|]. assert (Rltb 0 y = true) as E2 by (apply Rltb_true; lra). cbn zeta. rewrite Ht, E2. split; [|constructor; auto].
        split; [cbn; now rewrite B|]. split; [|discriminate]. intros _ _. destruct (Rlt_dec 0 level) as [|Hn]; [assumption|].
        exfalso. assert (level < 0) by lra. assert (y / level < 0); [|lra]. assert (H3 : / level < 0) by now apply Rinv_lt_0_compat. unfold Rdiv. nra.
    + apply bind_Ok in H as (l & Hl & H). injection H as <-. destruct (IH vs l HL Hl) as (ys & A & (B & C & E) & D). exists (y :: ys).
      split; [cbn; congruence|]. cbn zeta. rewrite Ht. split; [|constructor; auto]. split; [cbn; now rewrite B|]. split; [discriminate|]. intros _. constructor; auto.
Qed.

Lemma map_fst_combine2 {A B} (l : list A) (k : list B) : length l = length k -> map fst (combine l k) = l /\ map snd (combine l k) = k.
Proof. revert k; induction l; intros [|]; cbn; try discriminate; auto. intros H. injection H as H. destruct (IHl _ H). split; congruence. Qed.

Lemma shifted_length log level u : length (shifted log level u) = length (map fst u).
Proof. unfold shifted. now rewrite !map_length. Qed.

(** the crossings of one list of values *)
Lemma interpolate_crossings_spec L s k xs vs level order log l : scan_points s k = Ok (xs, vs) ->
  interpolate_crossings L xs vs level order log = Ok (Some l) ->
  exists pts, scan_curve_points s k pts /\ let u := usable log pts in
    ((order <> 3)%nat -> (order < length u)%nat -> l = []) /\ ((length u < 4)%nat -> l = []) /\
    (l = [] \/ (increasing (map fst u) = true /\ (4 <= length u)%nat /\ l = sp_roots L (map fst u) (shifted log level u) /\
      (cubic_ok L (map fst u) (shifted log level u) ->
       (forall x y, In (x, y) u -> icurve L log level u x = y) /\
       increasing l = true /\
       forall r, In r l -> hd 0 (map fst u) <= r <= last (map fst u) 0 /\ icurve L log level u r = level))).
Proof.
  intros HP H. unfold interpolate_crossings in H. apply bind_Ok in H as (pts & Hi & H).
  assert (HL : length xs = length vs).
  { unfold scan_points in HP. apply bind_Ok in HP as (z & _ & E). injection E as <- <-. now rewrite !map_length. }
  destruct (interp_points_spec level log xs vs pts HL Hi) as (ys & HLy & (Epts & Hpos & _) & HF).
  destruct (scan_points_spec s k xs vs ys HP HF) as [HLx HC]. exists (combine xs ys). split; [exact HC|]. cbn zeta.
  set (u := usable log (combine xs ys)) in *.
  destruct (map_fst_combine2 (map fst u) (shifted log level u)) as [F1 F2]; [symmetry; apply shifted_length|]. rewrite <- Epts in F1, F2.
  assert (Ln : length pts = length u) by (rewrite Epts, combine_length, shifted_length, map_length; lia).
  rewrite F1, F2, Ln in H. destruct (length u <? 2)%nat eqn:E2; [discriminate|]. apply Nat.ltb_ge in E2.
  destruct (increasing (map fst u)) eqn:Inc; [|discriminate]. cbn [negb] in H.
  set (o' := if (length u <? order + 1)%nat then (length u - 1)%nat else order) in *.
  assert (O1 : (order <> 3)%nat -> (order < length u)%nat -> o' <> 3%nat).
  { intros A B. subst o'. rewrite (proj2 (Nat.ltb_ge _ _)) by lia. exact A. }
  assert (O2 : (length u < 4)%nat -> o' <> 3%nat).
  { intros A. subst o'. destruct (Nat.ltb_spec (length u) (order + 1)); lia. }
  destruct (o' =? 3)%nat eqn:E3.
  - apply Nat.eqb_eq in E3. injection H as <-. split; [intros A B; destruct (O1 A B E3)|]. split; [intros A; destruct (O2 A E3)|]. right.
    assert (4 <= length u)%nat as E4. { destruct (Nat.le_gt_cases 4 (length u)) as [|G]; [assumption|]. destruct (O2 G E3). }
    split; [reflexivity|]. split; [exact E4|]. split; [reflexivity|]. intros (C1 & _ & C2 & C3).
    assert (Hne : u <> []) by (intros F; rewrite F in E4; cbn in E4; lia).
    split; [|split; [exact C3|]].
    + intros x y Hin. apply In_nth_error in Hin as [i Hi'].
      assert (X1 : nth_error (map fst u) i = Some x) by (rewrite nth_error_map, Hi'; reflexivity).
      assert (X2 : nth_error (shifted log level u) i = Some (if log then ln (y / level) else y - level)) by (unfold shifted; rewrite nth_error_map, Hi'; destruct log; reflexivity).
      unfold icurve. rewrite (C1 i x _ X1 X2). destruct log; [|lra].
      specialize (Hpos eq_refl Hne). assert (0 < y).
      { apply nth_error_In in Hi'. unfold u, usable in Hi'. apply filter_In in Hi' as [_ G]. cbn in G. now apply Rltb_true in G. }
      rewrite exp_ln; [field; lra|]. now apply Rdiv_lt_0_compat.
    + intros r Hr. destruct (C2 r Hr) as [A B]. split; [exact A|]. unfold icurve. rewrite B. destruct log; [rewrite exp_0|]; lra.
  - injection H as <-. split; [reflexivity|]. split; [reflexivity|]. now left.
Qed.

(** ** C48: crossings and limits *)

(** Every crossing is a point, within the range of the scan points used, where the interpolated curve, which goes through these
    points, equals the level.  The points used are all the scan points, or those with positive values in logarithmic scale. *)
Theorem C48_crossings : forall L s level order log l, crossings L s level order log = Ok (Some l) ->
  exists pts, scan_curve_points s 0 pts /\ let u := usable log pts in
    (l = [] \/ (cubic_ok L (map fst u) (shifted log level u) ->
       (forall x y, In (x, y) u -> icurve L log level u x = y) /\
       increasing l = true /\
       forall r, In r l -> hd 0 (map fst u) <= r <= last (map fst u) 0 /\ icurve L log level u r = level)).
Proof.
  intros L s level order log l H. unfold crossings in H. apply bind_Ok in H as ([xs vs] & HP & H). cbn [fst snd] in H.
  destruct (interpolate_crossings_spec _ _ _ _ _ _ _ _ _ HP H) as (pts & A & _ & _ & B). exists pts. split; [exact A|]. cbn zeta in *. destruct B as [B|(_ & _ & _ & B)]; [now left|now right].
Qed.
Print Assumptions C48_crossings.

(** With uncertainties: the three values of each crossing are crossings of the curves of the central values, of the values plus
    one standard deviation, and minus one standard deviation. *)
Theorem C48_crossings_with_errors : forall L s level order log l n up dn, crossings_err L s level order log = Ok l -> In (n, up, dn) l ->
  forall k x, (k = 0 /\ x = n) \/ (k = 1 /\ x = up) \/ (k = -1 /\ x = dn) ->
  exists pts, scan_curve_points s k pts /\ let u := usable log pts in
    (cubic_ok L (map fst u) (shifted log level u) -> hd 0 (map fst u) <= x <= last (map fst u) 0 /\ icurve L log level u x = level).
Proof.
  intros L s level order log l n up dn H Hin k x Hk. unfold crossings_err in H. apply bind_Ok in H as (z & _ & H).
  apply bind_Ok in H as ([xn vn] & Pn & H). apply bind_Ok in H as ([xu vu] & Pu & H). apply bind_Ok in H as ([xd vd] & Pd & H). cbn [fst snd] in H.
  assert (X : forall k k' xa va xb vb, scan_points s k = Ok (xa, va) -> scan_points s k' = Ok (xb, vb) -> xb = xa).
  { clear. unfold scan_points. intros k k' xa va xb vb H H'. apply bind_Ok in H as (l & H & E). apply bind_Ok in H' as (l' & H' & E'). injection E as <- _. injection E' as <- _.
    apply mapM_Forall2 in H, H'. revert l' H'. induction H as [|hp [x v] pts l Hx H IH]; intros l' H'; inversion H' as [|? [x' v'] ? ? Hx' H'']; subst; [reflexivity|].
    cbn. apply bind_Ok in Hx as (a & Ha & Hx). apply bind_Ok in Hx as (? & _ & E). injection E as <- _. apply bind_Ok in Hx' as (b & Hb & Hx'). apply bind_Ok in Hx' as (? & _ & E). injection E as <- _.
    rewrite (IH _ H''). congruence. }
  apply bind_Ok in H as (on & Cn & H). apply bind_Ok in H as (ou & Cu & H). apply bind_Ok in H as (od & Cd & H).
  apply bind_Ok in H as (cu & Eu & H). apply bind_Ok in H as (cn & En & H). destruct (negb (length cu =? length cn)%nat) eqn:E1; [discriminate|].
  apply bind_Ok in H as (cd & Ed & H). destruct (negb (length cd =? length cn)%nat) eqn:E2; [discriminate|]. injection H as <-.
  destruct ou as [?|]; [|discriminate]. injection Eu as ->. destruct on as [?|]; [|discriminate]. injection En as ->. destruct od as [?|]; [|discriminate]. injection Ed as ->.
  pose proof (in_combine_l _ _ _ _ Hin) as Hnu. pose proof (in_combine_r _ _ _ _ Hin) as Hd. pose proof (in_combine_l _ _ _ _ Hnu) as Hn. pose proof (in_combine_r _ _ _ _ Hnu) as Hu.
  assert (K : forall k xs vs l0 y, scan_points s k = Ok (xs, vs) -> interpolate_crossings L xs vs level order log = Ok (Some l0) -> In y l0 ->
     exists pts, scan_curve_points s k pts /\ let u := usable log pts in
    (cubic_ok L (map fst u) (shifted log level u) -> hd 0 (map fst u) <= y <= last (map fst u) 0 /\ icurve L log level u y = level)).
  { clear. intros k xs vs l0 y HP HI Hy. destruct (interpolate_crossings_spec _ _ _ _ _ _ _ _ _ HP HI) as (pts & A & _ & _ & B). exists pts. split; [exact A|]. cbn zeta in *. intros C.
    destruct B as [->|(_ & _ & _ & B)]; [destruct Hy|]. apply B in C as (_ & _ & C). apply C, Hy. }
  rewrite <- (X _ _ _ _ _ _ Pn Pu) in Cu. rewrite <- (X _ _ _ _ _ _ Pn Pd) in Cd.
  destruct Hk as [[-> ->]|[[-> ->]|[-> ->]]]; eapply K; eauto.
Qed.
Print Assumptions C48_crossings_with_errors.

(** The upper limit without uncertainties: the first crossing of the level 0.05. *)
Theorem C48_limit : forall L r key poi cl u order log x, ul_new r key poi cl = Ok u -> ul_limit L u order log = Ok (Some x) ->
  exists pts, scan_curve_points (ul_scan u) 0 pts /\ let v := usable log pts in
    (cubic_ok L (map fst v) (shifted log (1 - 95 / 100) v) ->
     hd 0 (map fst v) <= x <= last (map fst v) 0 /\ icurve L log (1 - 95 / 100) v x = 1 - 95 / 100 /\
     forall y, In y (sp_roots L (map fst v) (shifted log (1 - 95 / 100) v)) -> x <= y).
Proof.
  intros L r key poi cl u order log x Hu H. unfold ul_new in Hu. apply bind_Ok in Hu as (s & _ & E). injection E as <-. cbn [ul_scan].
  unfold ul_limit in H. apply bind_Ok in H as (o & H & E). apply bind_Ok in E as (l & Eo & E). destruct o as [l'|]; [|discriminate]. injection Eo as ->. cbn [ul_scan ul_cl] in H.
  destruct l as [|x' l]; [discriminate|]. injection E as ->. unfold crossings in H. apply bind_Ok in H as ([xs vs] & HP & H). cbn [fst snd] in H.
  destruct (interpolate_crossings_spec _ _ _ _ _ _ _ _ _ HP H) as (pts & A & _ & _ & B). exists pts. split; [exact A|]. cbn zeta in *. intros C.
  destruct B as [B|(_ & _ & El & B)]; [discriminate|]. destruct (B C) as (_ & Inc & D). destruct (D x (or_introl eq_refl)) as [D1 D2]. split; [exact D1|]. split; [exact D2|].
  rewrite <- El. clear - Inc. intros y [->|Hy]; [lra|]. revert x Inc Hy. induction l as [|z l IH]; intros x Inc Hy; [destruct Hy|].
  cbn in Inc. apply andb_true_iff in Inc as [I1 I2]. apply Rltb_true in I1. destruct Hy as [->|Hy]; [lra|]. specialize (IH z I2 Hy). lra.
Qed.
Print Assumptions C48_limit.

(** False part: the confidence level asked for is ignored, all levels give the limit at 95%. *)
Theorem C48_requested_level_refuted : forall L r key poi cl cl' order log,
  bind (ul_new r key poi cl) (fun u => ul_limit L u order log) = bind (ul_new r key poi cl') (fun u => ul_limit L u order log) /\
  forall u, ul_new r key poi cl = Ok u -> ul_cl u = 95 / 100.
Proof.
  intros. split; [reflexivity|]. intros u H. unfold ul_new in H. apply bind_Ok in H as (s & _ & E). injection E as <-. reflexivity.
Qed.
Print Assumptions C48_requested_level_refuted.

(** False part: an interpolation order other than 3 never finds a crossing, and neither does a scan with fewer than 4 usable points;
    with fewer than 2 the limit raises TypeError. *)
Theorem C48_other_orders_refuted : forall L s level order log l, crossings L s level order log = Ok (Some l) ->
  exists pts, scan_curve_points s 0 pts /\ ((order <> 3)%nat -> (order < length (usable log pts))%nat -> l = []) /\ ((length (usable log pts) < 4)%nat -> l = []).
Proof.
  intros L s level order log l H. unfold crossings in H. apply bind_Ok in H as ([xs vs] & HP & H). cbn [fst snd] in H.
  destruct (interpolate_crossings_spec _ _ _ _ _ _ _ _ _ HP H) as (pts & A & B & C & _). exists pts. auto.
Qed.
Print Assumptions C48_other_orders_refuted.
Theorem C48_few_points_refuted : forall L u order log, crossings L (ul_scan u) (1 - ul_cl u) order log = Ok None -> ul_limit L u order log = Err TypeError.
Proof. intros L u order log H. unfold ul_limit. rewrite H. reflexivity. Qed.
Print Assumptions C48_few_points_refuted.

(** an example: the parabola x^2 at -2..2, whose cubic spline is itself *)
Definition par_lib (rts ms : list R) : SplineLib := mkSpl (fun _ xs ys x => x * x + (hd 0 ys - 4)) (fun _ _ => rts) (fun _ _ => ms).
Definition par_point (x : R) : Hypo * PLR := ([("mu", x)], mkPLR [("mu", x)] (c53_fit 0) (c53_fit 0) [("tmu", VNum (x * x))] [] None None None).
Definition par_raster : Raster := mkRaster (map par_point [-2; -1; 0; 1; 2]) ["mu"] None.
Definition par_scan : Scan1D := mkScan1D (mkScan par_raster "tmu") "mu".
Lemma par_points : scan_points par_scan 0 = Ok ([-2; -1; 0; 1; 2], map (fun x => VNum (x * x)) [-2; -1; 0; 1; 2]).
Proof.
  unfold scan_points, scan_value. cbn. rewrite !(proj2 (Reqb_true 0 0)) by reflexivity. reflexivity.
Qed.
Lemma par_increasing : increasing [-2; -1; 0; 1; 2] = true.
Proof. cbn. rewrite !(proj2 (Rltb_true _ _)) by lra. reflexivity. Qed.
Lemma par_crossings rts ms : crossings (par_lib rts ms) par_scan 1 3 false = Ok (Some rts).
Proof.
  unfold crossings. rewrite par_points. cbn [bind fst snd]. unfold interpolate_crossings. cbn [map interp_points as_num bind length Nat.ltb Nat.leb fst snd].
  rewrite par_increasing. reflexivity.
Qed.
Definition par_pts : list (R * R) := map (fun x => (x, x * x)) [-2; -1; 0; 1; 2].
Lemma par_usable : usable false par_pts = par_pts.
Proof. reflexivity. Qed.
Lemma par_cubic ms : cubic_ok (par_lib [-1; 1] ms) (map fst par_pts) (shifted false 1 par_pts).
Proof.
  assert (E : forall x, sp_curve (par_lib [-1; 1] ms) 3 (map fst par_pts) (shifted false 1 par_pts) x = x * x - 1) by (intros x; cbn; lra).
  split; [|split; [|split]].
  - intros i x y Hx Hy. rewrite E. unfold shifted, par_pts in *. cbn in Hx, Hy.
    do 5 (destruct i as [|i]; [cbn in Hx, Hy; injection Hx as <-; injection Hy as <-; lra|]). destruct i; discriminate.
  - intros x. cbn. reg.
  - intros r Hr. rewrite E. cbn in Hr. destruct Hr as [<-|[<-|[]]]; cbn; lra.
  - cbn. rewrite (proj2 (Rltb_true _ _)) by lra. reflexivity.
Qed.
Example C48_nonvacuous : crossings (par_lib [-1; 1] [0]) par_scan 1 3 false = Ok (Some [-1; 1]) /\ scan_curve_points par_scan 0 par_pts /\
  cubic_ok (par_lib [-1; 1] [0]) (map fst (usable false par_pts)) (shifted false 1 (usable false par_pts)).
Proof.
  split; [apply par_crossings|]. split; [|rewrite par_usable; apply par_cubic].
  unfold scan_curve_points. cbn. repeat constructor; cbn; try (eexists; split; [right; split; reflexivity|left; split; [f_equal; cbn; lra|reflexivity]]).
Qed.

(** ** C49: minimum *)

(** The minimum of a scan is a point of the scan, with its own hypothesis, and no point has a smaller value *)
Lemma py_min_spec {A} (f : A -> R) l a : py_min f l = Ok a -> In a l /\ forall b, In b l -> f a <= f b.
Proof.
  destruct l as [|x l]; [discriminate|]. cbn. intros [= <-]. revert x. induction l as [|y l IH]; intros x; cbn [fold_left].
  - split; [now left|]. intros b [<-|[]]. lra.
  - destruct (IH (if Rltb (f y) (f x) then y else x)) as [A1 A2]. split.
    + destruct A1 as [E|Hin]; [|right; right; exact Hin]. rewrite <- E. destruct (Rltb (f y) (f x)); [right; now left|now left].
    + assert (f (if Rltb (f y) (f x) then y else x) <= f x /\ f (if Rltb (f y) (f x) then y else x) <= f y) as [B1 B2].
      { destruct (Rltb (f y) (f x)) eqn:E; [apply Rltb_true in E|apply Rltb_false in E]; lra. }
      pose proof (A2 _ (or_introl eq_refl)) as A3. intros b [<-|[<-|Hb]]; [lra|lra|apply A2; now right].
Qed.
Lemma hypo_values_spec s l : hypo_values s = Ok l -> Forall2 (fun hp hv => fst hv = fst hp /\ reads (sc_key s) (snd hp) 0 (snd hv)) (ra_points (sc_raster s)) l.
Proof.
  unfold hypo_values. intros H. apply mapM_Forall2 in H. eapply Forall2_impl_in; [|exact H]. intros [h p] [h' v] _ E. cbn in E |- *. apply bind_Ok in E as (w & Ew & E). injection E as <- <-.
  split; [reflexivity|]. now apply scan_num_reads.
Qed.
Theorem C49_minimum : forall s h v, scan_minimum s = Ok (h, v) ->
  (exists p, In (h, p) (ra_points (sc_raster s)) /\ reads (sc_key s) p 0 v) /\
  forall h' p', In (h', p') (ra_points (sc_raster s)) -> exists v', reads (sc_key s) p' 0 v' /\ v <= v'.
Proof.
  intros s h v H. unfold scan_minimum in H. apply bind_Ok in H as (l & Hl & H). apply hypo_values_spec in Hl. destruct (py_min_spec _ _ _ H) as [A B]. split.
  - clear - Hl A. induction Hl as [|[h0 p] [h1 v1] pts l [E1 E2] Hl IH]; [destruct A|]. cbn in *. destruct A as [E|A].
    + inversion E; subst. exists p. auto.
    + destruct (IH A) as (q & ? & ?). exists q. auto.
  - intros h' p' Hin. destruct (Forall2_in_l _ _ _ _ Hl Hin) as ([h2 v2] & Hv & E1 & E2). cbn in *. exists v2. split; [exact E2|]. apply (B _ Hv).
Qed.
Print Assumptions C49_minimum.
Theorem C49_maximum : forall s h v, scan_maximum s = Ok (h, v) ->
  (exists p, In (h, p) (ra_points (sc_raster s)) /\ reads (sc_key s) p 0 v) /\
  forall h' p', In (h', p') (ra_points (sc_raster s)) -> exists v', reads (sc_key s) p' 0 v' /\ v' <= v.
Proof.
  intros s h v H. unfold scan_maximum in H. apply bind_Ok in H as (l & Hl & H). apply hypo_values_spec in Hl. destruct (py_min_spec _ _ _ H) as [A B]. split.
  - clear - Hl A. induction Hl as [|[h0 p] [h1 v1] pts l [E1 E2] Hl IH]; [destruct A|]. cbn in *. destruct A as [E|A].
    + inversion E; subst. exists p. auto.
    + destruct (IH A) as (q & ? & ?). exists q. auto.
  - intros h' p' Hin. destruct (Forall2_in_l _ _ _ _ Hl Hin) as ([h2 v2] & Hv & E1 & E2). cbn in *. exists v2. split; [exact E2|]. specialize (B _ Hv). cbn in B. lra.
Qed.
Print Assumptions C49_maximum.
Example C49_nonvacuous : exists v, scan_minimum (s1_scan par_scan) = Ok ([("mu", 0)], v).
Proof.
  unfold scan_minimum, hypo_values, scan_num, scan_value. cbn. rewrite !(proj2 (Reqb_true 0 0)) by reflexivity. cbn.
  rewrite (proj2 (Rltb_true (-1 * -1) (-2 * -2))) by lra. cbn. rewrite (proj2 (Rltb_true (0 * 0) (-1 * -1))) by lra. cbn.
  rewrite (proj2 (Rltb_false (1 * 1) (0 * 0))) by lra. cbn. rewrite (proj2 (Rltb_false (2 * 2) (0 * 0))) by lra. cbn.
  eexists. reflexivity.
Qed.

(** False part: with fewer than five points the list of minima of a one-dimensional scan is the value, not the position, at the
    smallest hypothesis, not at the smallest value. *)
Theorem C49_minima_fallback_refuted : forall L s xs ys order, (4 <= order)%nat -> scan_points s 0 = Ok (xs, map VNum ys) -> increasing xs = true ->
  (2 <= length xs < 5)%nat -> length xs = length ys -> minima L s order = Ok [hd 0 ys].
Proof.
  intros L s xs ys order Ho HP Hinc HL HE. unfold minima. rewrite HP. cbn [bind fst snd].
  assert (mapM as_num (map VNum ys) = Ok ys) as -> by (clear; induction ys as [|y ys IH]; cbn; [reflexivity|]; rewrite IH; reflexivity). cbn [bind].
  unfold interpolate_minima. rewrite (proj2 (Nat.ltb_ge _ _)) by lia. rewrite (proj2 (Nat.ltb_lt _ _)) by lia. rewrite Hinc. cbn [negb].
  rewrite (proj2 (Nat.eqb_neq _ _)) by lia. cbn [bind not_none].
  assert (argmin xs = Ok 0%nat) as ->.
  { destruct xs as [|x xs]; [cbn in HL; lia|]. cbn. f_equal. clear - Hinc.
    assert (G : forall l i z, (forall y, In y l -> z <= y) -> argmin_from l i 0 z = 0%nat).
    { induction l as [|y l IH]; intros i z H; cbn; [reflexivity|]. rewrite (proj2 (Rltb_false y z)) by (apply H; now left). apply IH. intros; apply H; now right. }
    apply G. clear G. revert x Hinc. induction xs as [|z xs IH]; intros x Hinc y Hy; [destruct Hy|].
    cbn in Hinc. apply andb_true_iff in Hinc as [I1 I2]. apply Rltb_true in I1. destruct Hy as [->|Hy]; [lra|]. specialize (IH z I2 y Hy). lra. }
  cbn [bind]. destruct ys; [cbn in HE; lia|reflexivity].
Qed.
Print Assumptions C49_minima_fallback_refuted.
Definition four_raster : Raster := mkRaster (map par_point [-2; -1; 1; 2]) ["mu"] None.
Definition four_scan : Scan1D := mkScan1D (mkScan four_raster "tmu") "mu".
Lemma four_points : scan_points four_scan 0 = Ok ([-2; -1; 1; 2], map VNum [-2 * -2; -1 * -1; 1 * 1; 2 * 2]).
Proof. unfold scan_points, scan_value. cbn. rewrite !(proj2 (Reqb_true 0 0)) by reflexivity. reflexivity. Qed.
Lemma four_increasing : increasing [-2; -1; 1; 2] = true.
Proof. cbn. rewrite !(proj2 (Rltb_true _ _)) by lra. reflexivity. Qed.
Example C49_fallback_nonvacuous : forall L, exists m, minima L four_scan 4 = Ok [m] /\ m = 4 /\ ~ In m [-2; -1; 1; 2].
Proof.
  intros L. exists (hd 0 [-2 * -2; -1 * -1; 1 * 1; 2 * 2]).
  split; [apply (C49_minima_fallback_refuted L four_scan [-2; -1; 1; 2]); [lia|apply four_points|apply four_increasing|cbn; lia|reflexivity]|].
  cbn. split; [lra|]. intros [H|[H|[H|[H|[]]]]]; lra.
Qed.

(** ** C50: profile-likelihood intervals *)

(** The central value is the one of the reported minima with the lowest interpolated value; the errors are the distances to the
    first two crossings; with one crossing, it is used on its own side of the minimum and there is no error on the other
    side; with none there is no error. *)
Theorem C50_interval : forall L p order log m ehi elo, ps_interval L p order log = Ok (m, ehi, elo) ->
  exists cr ms, crossings L (ps_scan p) (ps_level p) order log = Ok (Some cr) /\ minima L (ps_scan p) (order + 1) = Ok ms /\ In m ms /\
    (forall xs vs ys, scan_points (ps_scan p) 0 = Ok (xs, vs) -> mapM as_num vs = Ok ys -> forall m', In m' ms -> sp_curve L order xs ys m <= sp_curve L order xs ys m') /\
    match cr with
    | [] => ehi = None /\ elo = None
    | [c] => (m < c -> ehi = Some (c - m) /\ elo = None) /\ (c <= m -> ehi = None /\ elo = Some (m - c))
    | lo :: hi :: _ => ehi = Some (hi - m) /\ elo = Some (m - lo)
    end.
Proof.
  intros L p order log m ehi elo H. unfold ps_interval in H. apply bind_Ok in H as (o & Hc & H). apply bind_Ok in H as (cr & Ho & H). destruct o as [c0|]; [|discriminate]. injection Ho as ->.
  apply bind_Ok in H as (ms & Hms & H). apply bind_Ok in H as (m0 & Hm & H). injection H as H. exists cr, ms. split; [exact Hc|]. split; [exact Hms|].
  assert (m0 = m) as -> by (unfold interval_of in H; destruct (match nth_error cr 1 with Some _ => _ | None => _ end); congruence).
  split; [|split].
  - destruct ms as [|a [|b l]]; [|injection Hm as <-; now left|]; apply bind_Ok in Hm as (pts & _ & Hm); apply bind_Ok in Hm as (ys & _ & Hm);
      destruct (negb _); try discriminate; apply (py_min_spec _ _ _ Hm).
  - intros xs vs ys HP HY m' Hm'. destruct ms as [|a [|b l]]; [destruct Hm'| |].
    + injection Hm as ->. destruct Hm' as [<-|[]]. lra.
    + rewrite HP in Hm. cbn [bind fst snd] in Hm. rewrite HY in Hm. cbn [bind] in Hm. destruct (negb _); [discriminate|]. apply (py_min_spec _ _ _ Hm), Hm'.
  - unfold interval_of in H. destruct cr as [|c [|hi l]]; cbn in H.
    + injection H as <- <-. auto.
    + destruct (Rltb m c) eqn:E; [apply Rltb_true in E|apply Rltb_false in E]; cbn in H; injection H as <- <-; (split; intros; [|]); try lra; auto.
    + injection H as <- <-. auto.
Qed.
Print Assumptions C50_interval.

(** When the interpolated curve is below the level at the reported minimum and above it at both ends of the scan, the two
    crossings are on either side of the minimum and both errors are positive, provided scipy finds all the crossings and
    there are two of them. *)
Theorem C50_two_sided : forall L p log m ehi elo pts lo hi, ps_interval L p 3 log = Ok (m, ehi, elo) ->
  scan_curve_points (ps_scan p) 0 pts -> let u := usable log pts in let f := icurve L log (ps_level p) u in
  crossings L (ps_scan p) (ps_level p) 3 log = Ok (Some [lo; hi]) ->
  cubic_ok L (map fst u) (shifted log (ps_level p) u) ->
  (log = true -> 0 < ps_level p) ->
  (forall x, hd 0 (map fst u) <= x <= last (map fst u) 0 -> f x = ps_level p -> In x [lo; hi]) ->
  hd 0 (map fst u) < m < last (map fst u) 0 -> f m < ps_level p -> ps_level p < f (hd 0 (map fst u)) -> ps_level p < f (last (map fst u) 0) ->
  lo < m < hi /\ ehi = Some (hi - m) /\ elo = Some (m - lo) /\ 0 < hi - m /\ 0 < m - lo /\ f lo = ps_level p /\ f hi = ps_level p.
Proof.
  intros L p log m ehi elo pts lo hi H HP u f HC Hok Hlog Hall [Hm1 Hm2] Hfm Hfl Hfr.
  destruct (C50_interval _ _ _ _ _ _ _ H) as (cr & ms & Hcr & _ & _ & _ & E). rewrite HC in Hcr. injection Hcr as <-. destruct E as [E1 E2].
  assert (Hf : continuity f).
  { destruct Hok as (_ & Hc & _). unfold f, icurve. destruct log.
    - apply (continuity_scal (fun x => exp (sp_curve L 3 (map fst u) (shifted true (ps_level p) u) x))). intros x. apply (continuity_pt_comp _ exp); [apply Hc|apply derivable_continuous_pt, derivable_pt_exp].
    - apply continuity_plus; [apply continuity_const; intros ? ?; reflexivity|exact Hc]. }
  set (a := hd 0 (map fst u)) in *. set (b := last (map fst u) 0) in *. set (t := ps_level p) in *.
  assert (C1 : continuity (fun x => f x - t)) by (apply continuity_minus; [exact Hf|apply continuity_const; intros ? ?; reflexivity]).
  assert (C2 : continuity (fun x => t - f x)) by (apply continuity_minus; [apply continuity_const; intros ? ?; reflexivity|exact Hf]).
  destruct (IVT (fun x => t - f x) a m C2 Hm1) as (z1 & Z1 & Y1); [lra|lra|].
  destruct (IVT (fun x => f x - t) m b C1 Hm2) as (z2 & Z2 & Y2); [lra|lra|].
  assert (z1 <> m) by (intros ->; lra). assert (z2 <> m) by (intros ->; lra).
  assert (I1 : In z1 [lo; hi]) by (apply Hall; lra). assert (I2 : In z2 [lo; hi]) by (apply Hall; lra).
  assert (lo < hi).
  { unfold crossings in HC. apply bind_Ok in HC as ([xs vs] & HP' & HC). cbn [fst snd] in HC.
    destruct (interpolate_crossings_spec _ _ _ _ _ _ _ _ _ HP' HC) as (pts' & A & _ & _ & [B|(_ & _ & El & B)]); [discriminate|].
    assert (pts' = pts) as ->.
    { clear - A HP. unfold scan_curve_points in *. revert pts HP. induction A as [|hp xy ? ? [A1 A2] A IH]; intros pts HP; inversion HP as [|? xy' ? ? [B1 B2] HP']; subst; [reflexivity|].
      f_equal; [|apply IH, HP']. destruct xy as [x y], xy' as [x' y']. cbn in *. f_equal; [congruence|]. apply (scan_num_reads (s1_scan (ps_scan p))) in A2, B2. congruence. }
    destruct (B Hok) as (_ & Inc & _). cbn in Inc. rewrite andb_true_r in Inc. now apply Rltb_true in Inc. }
  assert (lo < m < hi).
  { cbn in I1, I2. destruct I1 as [<-|[<-|[]]], I2 as [<-|[<-|[]]]; lra. }
  split; [lra|]. split; [exact E1|]. split; [exact E2|]. split; [lra|]. split; [lra|].
  assert (E : f z1 = t /\ f z2 = t) by lra.
  assert (z1 = lo) by (cbn in I1; destruct I1 as [<-|[<-|[]]]; lra). assert (z2 = hi) by (cbn in I2; destruct I2 as [<-|[<-|[]]]; lra). subst. tauto.
Qed.
Print Assumptions C50_two_sided.

Definition par_ps (lvl : R) : PLRScan1D := mkPS par_scan lvl.
Lemma par_num : mapM as_num (map (fun x => VNum (x * x)) [-2; -1; 0; 1; 2]) = Ok (map (fun x => x * x) [-2; -1; 0; 1; 2]).
Proof. reflexivity. Qed.
Lemma par_minima rts ms : ms <> [] -> minima (par_lib rts ms) par_scan 4 = Ok ms.
Proof.
  intros Hne. unfold minima. rewrite par_points. cbn [bind fst snd]. rewrite par_num. cbn [bind]. unfold interpolate_minima. rewrite par_increasing. cbn. destruct ms; [congruence|reflexivity].
Qed.
Example C50_nonvacuous : ps_interval (par_lib [-1; 1] [0]) (par_ps 1) 3 false = Ok (0, Some (1 - 0), Some (0 - -1)) /\
  let f := icurve (par_lib [-1; 1] [0]) false 1 (usable false par_pts) in
  (forall x, f x = 1 -> In x [-1; 1]) /\ f 0 < 1 /\ 1 < f (-2) /\ 1 < f 2.
Proof.
  split.
  - unfold ps_interval. cbn [ps_scan ps_level par_ps]. rewrite par_crossings. cbn [bind not_none]. change (3 + 1)%nat with 4%nat. rewrite par_minima by discriminate. reflexivity.
  - assert (E : forall x, icurve (par_lib [-1; 1] [0]) false 1 (usable false par_pts) x = x * x) by (intros x; cbn; lra). cbn zeta. split; [|rewrite !E; lra].
    intros x. rewrite E. intros Hx. cbn. assert ((x - 1) * (x + 1) = 0) as H by nra. apply Rmult_integral in H as [H|H]; [right; left; lra|left; lra].
Qed.

(** False part: with more than two crossings the first two are used even when they are on the same side of the minimum: the
    positive error is negative. *)
Theorem C50_more_crossings_refuted : exists L p m ehi elo, ps_interval L p 3 false = Ok (m, Some ehi, Some elo) /\ ehi < 0.
Proof.
  exists (par_lib [-2; -1; 1; 2] [3 / 2]), (par_ps 1), (3 / 2), (-1 - 3 / 2), (3 / 2 - -2). split; [|lra].
  unfold ps_interval. cbn [ps_scan ps_level par_ps]. rewrite par_crossings. cbn [bind not_none]. change (3 + 1)%nat with 4%nat. rewrite par_minima by discriminate. reflexivity.
Qed.
Print Assumptions C50_more_crossings_refuted.

(** False part: with four points the central value is a value of the test statistic, not a value of the parameter. *)
Theorem C50_four_points_refuted : forall L p xs ys log m ehi elo, scan_points (ps_scan p) 0 = Ok (xs, map VNum ys) -> increasing xs = true ->
  (2 <= length xs < 5)%nat -> length xs = length ys -> ps_interval L p 3 log = Ok (m, ehi, elo) -> m = hd 0 ys.
Proof.
  intros L p xs ys log m ehi elo HP HI HL HE H. destruct (C50_interval _ _ _ _ _ _ _ H) as (cr & ms & _ & Hms & Hin & _).
  change (3 + 1)%nat with 4%nat in Hms. rewrite (C49_minima_fallback_refuted L (ps_scan p) xs ys 4) in Hms; auto. injection Hms as <-. destruct Hin as [<-|[]]. reflexivity.
Qed.
Print Assumptions C50_four_points_refuted.
Example C50_four_points_nonvacuous : exists m e1 e2, ps_interval (par_lib [-1; 1] [0]) (mkPS four_scan 1) 3 false = Ok (m, e1, e2) /\ m = 4.
Proof.
  unfold ps_interval. cbn [ps_scan ps_level]. unfold crossings. rewrite four_points. cbn [bind fst snd]. unfold interpolate_crossings. cbn [map interp_points as_num bind length Nat.ltb Nat.leb fst snd].
  rewrite four_increasing. cbn [negb Nat.eqb Nat.add Nat.sub bind not_none].
  change 4%nat with (3 + 1)%nat at 1. rewrite (C49_minima_fallback_refuted _ four_scan [-2; -1; 1; 2] _ 4 ltac:(lia) four_points four_increasing ltac:(cbn; lia) eq_refl).
  cbn [bind]. eexists; eexists; eexists. split; [reflexivity|]. cbn. lra.
Qed.

(** ** C74: confidence level of intervals and contours *)

(** The confidence level an interval or contour reports is the one asked for; asked for in standard deviations, it is the two-sided
    normal probability, in one and in two dimensions. *)
Theorem C74_reported_level : forall T r key poi poi2 c n,
  (forall q k, 0 < q < 1 -> chi2_sf T (chi2_isf T q k) k = q) -> (forall x, chi2_sf T (x * x) 1 = 2 * norm_sf T x) ->
  0 < c < 1 -> 0 < 2 * norm_sf T n < 1 ->
  (forall o p, ps_new T r key poi (Some c) o = Ok p -> ps_cl T p = c) /\
  (forall p, ps_new T r key poi None (Some n) = Ok p -> ps_level p = n * n /\ ps_cl T p = 1 - 2 * norm_sf T n) /\
  (forall o p, p2_new T r key poi poi2 (Some c) o = Ok p -> p2_cl T p = c) /\
  (forall p, p2_new T r key poi poi2 None (Some n) = Ok p -> p2_cl T p = 1 - 2 * norm_sf T n).
Proof.
  intros T r key poi poi2 c n HT H1 Hc Hn. unfold ps_cl, p2_cl. split; [|split; [|split]].
  - intros o p H. unfold ps_new in H. apply bind_Ok in H as (s & _ & E). assert (p = mkPS s (chi2_isf T (1 - c) 1)) as -> by (destruct o; congruence). cbn. rewrite HT by lra. lra.
  - intros p H. unfold ps_new in H. apply bind_Ok in H as (s & _ & E). injection E as <-. cbn. rewrite H1. auto.
  - intros o p H. unfold p2_new in H. apply bind_Ok in H as (s & _ & H). apply bind_Ok in H as (a & _ & H). apply bind_Ok in H as (b & _ & E).
    assert (p = mkPS2 s a b (chi2_isf T (1 - c) 2)) as -> by (destruct o; congruence). cbn. rewrite HT by lra. lra.
  - intros p H. unfold p2_new in H. apply bind_Ok in H as (s & _ & H). apply bind_Ok in H as (a & _ & H). apply bind_Ok in H as (b & _ & E). injection E as <-. cbn. rewrite HT by lra. lra.
Qed.
Print Assumptions C74_reported_level.
(** without a level or a number of standard deviations, construction is refused *)
Theorem C74_level_required : forall T r key poi poi2,
  (forall p, ps_new T r key poi None None <> Ok p) /\ (forall p, p2_new T r key poi poi2 None None <> Ok p).
Proof.
  intros. split; intros p H; [unfold ps_new in H; apply bind_Ok in H as (? & _ & H); discriminate|].
  unfold p2_new in H. apply bind_Ok in H as (s & _ & H). apply bind_Ok in H as (a & _ & H). apply bind_Ok in H as (b & _ & E). discriminate.
Qed.
Print Assumptions C74_level_required.
Example C74_nonvacuous : exists T, (forall q k, 0 < q < 1 -> chi2_sf T (chi2_isf T q k) k = q) /\ (forall x, chi2_sf T (x * x) 1 = 2 * norm_sf T x) /\ 0 < 2 * norm_sf T 1 < 1 /\
  exists p, ps_new T par_raster "tmu" None (Some (9 / 10)) (Some 1) = Ok p.
Proof.
  exists (mkStat (fun x _ => exp (- x)) (fun q _ => - ln q) (fun x => exp (- (x * x)) / 2)). cbn [chi2_sf chi2_isf norm_sf]. split; [|split; [|split]].
  - intros q k Hq. rewrite Ropp_involutive. apply exp_ln. lra.
  - intros x. lra.
  - pose proof (exp_pos (- (1 * 1))). pose proof (exp_increasing (- (1 * 1)) 0). rewrite exp_0 in *. lra.
  - eexists. reflexivity.
Qed.

(** ** C75: the parameters of a scan, and the best fit of a two-dimensional scan *)
Theorem C75_find_poi : forall s n i x, find_poi s (Some n) i = Ok x \/ find_poi s None i = Ok x ->
  In x (ra_pois (sc_raster s)) /\ (find_poi s (Some n) i = Ok x -> x = n) /\ (find_poi s None i = Ok x -> nth_error (ra_pois (sc_raster s)) i = Some x).
Proof.
  intros s n i x H. unfold find_poi in *. split; [|split].
  - destruct H as [H|H].
    + destruct (existsb _ _) eqn:E; [|discriminate]. injection H as <-. apply existsb_exists in E as (y & Hy & E). apply String.eqb_eq in E. now subst.
    + destruct (nth_error _ i) eqn:E; [|discriminate]. injection H as <-. eapply nth_error_In, E.
  - destruct (existsb _ _); congruence.
  - destruct (nth_error _ i); congruence.
Qed.
Print Assumptions C75_find_poi.
Example C75_nonvacuous : find_poi (s1_scan par_scan) None 0 = Ok "mu" /\ find_poi (s1_scan par_scan) (Some "mu") 3 = Ok "mu".
Proof. split; reflexivity. Qed.
(** False part: an unknown name is announced by NameError instead of the KeyError of the code's own message; and a raster of a single
    point has no parameter to scan. *)
Theorem C75_unknown_name_refuted : forall s n i, ~ In n (ra_pois (sc_raster s)) -> find_poi s (Some n) i = Err NameError.
Proof.
  intros s n i H. unfold find_poi. destruct (existsb _ _) eqn:E; [|reflexivity]. apply existsb_exists in E as (y & Hy & E). apply String.eqb_eq in E. subst. contradiction.
Qed.
Print Assumptions C75_unknown_name_refuted.
Theorem C75_single_point_refuted : forall h p m g r key, raster_new [(h, p)] g true m = Ok r -> scan1d_new r key None = Err IndexError \/ scan1d_new r key None = Err KeyError.
Proof.
  intros h p m g r key H. assert (ra_pois r = []) as E.
  { unfold raster_new in H. apply bind_Ok in H as (a & Ha & H). apply bind_Ok in H as (b & Hb & H). apply bind_Ok in H as (c & Hc & H). injection H as <-. cbn.
    assert (a = [(h, p)]) as -> by (destruct g; cbn in Ha; congruence). unfold raster_compute_tmu in Hb. cbn [mapM] in Hb. apply bind_Ok in Hb as (x & _ & Hb). cbn in Hb. injection Hb as <-. cbn in Hc. congruence. }
  unfold scan1d_new, scan_new, find_poi. destruct (is_filled r key false false); cbn [bind sc_raster]; [|now right]. rewrite E. now left.
Qed.
Print Assumptions C75_single_point_refuted.

(** the best fit of a two-dimensional scan, when the minimization fails, is the point of the raster with the smallest value *)
Theorem C75_best_fit_fallback : forall opt s x, p2_best_fit opt s = Ok x -> (forall a b, opt a b = None) ->
  exists h v, scan_minimum (p2_scan s) = Ok (h, v) /\ dget (p2_poi1 s) h = Some (fst x) /\ dget (p2_poi2 s) h = Some (snd x).
Proof.
  intros opt s x H Ho. unfold p2_best_fit in H. apply bind_Ok in H as ([h v] & Hm & H). apply bind_Ok in H as (a & Ha & H). apply bind_Ok in H as (b & Hb & H). rewrite Ho in H. injection H as <-.
  exists h, v. split; [exact Hm|]. unfold dgetE in *. cbn [fst snd] in *. destruct (dget (p2_poi1 s) h); [|discriminate]. destruct (dget (p2_poi2 s) h); [|discriminate]. split; congruence.
Qed.
Print Assumptions C75_best_fit_fallback.
