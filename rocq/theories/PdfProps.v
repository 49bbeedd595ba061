(** Model of the asymptotic densities of src/fastprof/test_statistics.py, and property C95. *)
From Coquelicot Require Import Coquelicot.
From Verif Require Import Py PyFacts TestStat NormalSf.
Local Open Scope R_scope.

(** What a Python function that should return a number returns: a number, or a frozen scipy distribution object
    chi2(df, loc). *)
Inductive pyret := RNum (x : R) | RFrozenChi2 (df loc : R).

(** test_statistics.py:159-172 TMu.asymptotic_pdf: the distribution is built with sqrt(ts) degrees of freedom and
    location 1, and is returned as such.  math.sqrt of a negative number: ValueError.  [ts = None] is the Python None. *)
Definition tmu_pdf (q : TMu) (ts : option R) : res pyret :=
  let t := match ts with None => tmu_value q | Some t => t end in
  if Rltb t 0 then Err ValueError else Ok (RFrozenChi2 (sqrt t) 1).
(** test_statistics.py:307-321 QMu.asymptotic_pdf; [dens] is scipy.stats.norm.pdf *)
Definition qmu_pdf (dens : R -> R) (q : QMu) (ts : option R) : res R :=
  let t := match ts with None => qmu_value q | Some t => t end in
  let! l := ncp q in
  let p := dens (signed_sqrt t - sqrt l) in
  Ok (if negb (Reqb t 0) then p / 2 / sqrt (Rabs t) else 0).
(** test_statistics.py:458-475 QMuTilda.asymptotic_pdf: the division by the square root of the threshold comes before the
    test that it is positive *)
Definition qmt_pdf (dens : R -> R) (q : QMuTilda) (ts : option R) : res R :=
  let t := match ts with None => qmt_value q | Some t => t end in
  let! h := threshold q in
  if Rltb t h then qmu_pdf dens (qt_base q) (Some t)
  else if Reqb h 0 then Err ZeroDivisionError
  else let! l := ncp (qt_base q) in
       let p := dens ((t + h) / (2 * sqrt h) - sqrt l) in
       Ok (if Rltb 0 h then p / (2 * sqrt h) else 0).

(** * Specification: [dens] is the density that belongs to the survival function [s]; and "the density reported by
    [pdf] is the rate at which the p-value reported by [pv] decreases at [t]". *)
Definition density_of (s dens : R -> R) : Prop := forall x, 0 <= dens x /\ is_derive s x (- dens x).
Definition is_density_at (pv pdf : option R -> res R) (t : R) : Prop :=
  exists (f : R -> R) (d : R), (forall x, pv (Some x) = Ok (f x)) /\ pdf (Some t) = Ok d /\ 0 <= d /\ is_derive f t (- d).
(** same, with p-values only defined to the left of [h] *)
Definition is_density_below (pv pdf : option R -> res R) (h t : R) : Prop :=
  exists (f : R -> R) (d : R), (forall x, x < h -> pv (Some x) = Ok (f x)) /\ pdf (Some t) = Ok d /\ 0 <= d /\ is_derive f t (- d).

(** * Facts *)
Lemma glue_derive (A B : R -> R) h d :
  A h = B h -> is_derive A h d -> is_derive B h d -> is_derive (fun x => if Rltb x h then A x else B x) h d.
Proof.
  intros E HA HB. apply is_derive_Reals. apply is_derive_Reals in HA, HB. intros eps He.
  destruct (HA eps He) as (d1 & H1), (HB eps He) as (d2 & H2).
  assert (Hm : 0 < Rmin d1 d2) by (apply Rmin_pos; apply cond_pos).
  exists (mkposreal _ Hm). cbn. intros k Hk Hk'.
  assert (Rabs k < d1) by (eapply Rlt_le_trans; [exact Hk'|apply Rmin_l]).
  assert (Rabs k < d2) by (eapply Rlt_le_trans; [exact Hk'|apply Rmin_r]).
  assert (Eh : Rltb h h = false) by (unfold Rltb; destruct (Rlt_dec h h); [lra|reflexivity]). rewrite Eh.
  unfold Rltb. destruct (Rlt_dec (h + k) h); [rewrite <- E; now apply H1|now apply H2].
Qed.
Lemma local_derive (A f : R -> R) x d e : 0 < e -> (forall y, Rabs (y - x) < e -> f y = A y) -> is_derive A x d -> is_derive f x d.
Proof.
  intros He HE H. apply (is_derive_ext_loc A f); [|exact H]. exists (mkposreal e He). intros y Hy. symmetry. apply HE. exact Hy.
Qed.
Lemma Rltb_T x y : x < y -> Rltb x y = true. Proof. unfold Rltb; destruct (Rlt_dec x y); [reflexivity|lra]. Qed.
Lemma Rltb_F x y : y <= x -> Rltb x y = false. Proof. unfold Rltb; destruct (Rlt_dec x y); [lra|reflexivity]. Qed.

Lemma signed_sqrt_derive t : t <> 0 -> is_derive signed_sqrt t (/ (2 * sqrt (Rabs t))).
Proof.
  intros H. destruct (Rle_lt_dec 0 t) as [H1|H1].
  - assert (0 < t) by lra. rewrite Rabs_right by lra. apply (local_derive sqrt _ t _ t); [lra| |].
    + intros y Hy. apply Rabs_def2 in Hy. unfold signed_sqrt, Rleb. destruct (Rle_dec 0 y); [reflexivity|lra].
    + auto_derive; [lra|]. field. apply Rgt_not_eq, sqrt_lt_R0; lra.
  - rewrite Rabs_left by lra. apply (local_derive (fun x => - sqrt (- x)) _ t _ (- t)); [lra| |].
    + intros y Hy. apply Rabs_def2 in Hy. unfold signed_sqrt, Rleb. destruct (Rle_dec 0 y); [lra|reflexivity].
    + auto_derive; [lra|]. field. apply Rgt_not_eq, sqrt_lt_R0; lra.
Qed.
Lemma comp_derive (s u : R -> R) t du ds : is_derive u t du -> is_derive s (u t) ds -> is_derive (fun x => s (u x)) t (ds * du).
Proof.
  intros Hu Hs. replace (ds * du) with (scal du ds) by (unfold scal; cbn; unfold mult; cbn; ring).
  apply (is_derive_comp s u); assumption.
Qed.
Lemma qmu_density D dens q l t : density_of (sf D) dens -> ncp q = Ok l -> t <> 0 ->
  exists d, qmu_pdf dens q (Some t) = Ok d /\ 0 <= d /\ is_derive (fun x => sf D (signed_sqrt x - sqrt l)) t (- d).
Proof.
  intros Hd El Ht. unfold qmu_pdf. rewrite El. cbn [bind].
  assert (En : Reqb t 0 = false) by (unfold Reqb; destruct (Req_EM_T t 0); [contradiction|reflexivity]). rewrite En. cbn [negb].
  assert (Hs : 0 < sqrt (Rabs t)) by (apply sqrt_lt_R0, Rabs_pos_lt; exact Ht).
  eexists; split; [reflexivity|]. destruct (Hd (signed_sqrt t - sqrt l)) as (P & Der). split.
  - unfold Rdiv. rewrite Rmult_assoc. apply Rmult_le_pos; [exact P|]. left. apply Rmult_lt_0_compat; apply Rinv_0_lt_compat; lra.
  - replace (- (dens (signed_sqrt t - sqrt l) / 2 / sqrt (Rabs t))) with (- dens (signed_sqrt t - sqrt l) * / (2 * sqrt (Rabs t))) by (field; lra).
    apply (comp_derive (sf D) (fun x => signed_sqrt x - sqrt l)); [|exact Der].
    replace (/ (2 * sqrt (Rabs t))) with (/ (2 * sqrt (Rabs t)) - 0) by ring.
    apply (is_derive_minus (V := R_NormedModule) signed_sqrt (fun _ => sqrt l)); [now apply signed_sqrt_derive|apply @is_derive_const].
Qed.
Lemma qmt_upper D dens l h t : density_of (sf D) dens -> 0 < h ->
  is_derive (fun x => sf D ((x + h) / (2 * sqrt h) - sqrt l)) t (- (dens ((t + h) / (2 * sqrt h) - sqrt l) / (2 * sqrt h))).
Proof.
  intros Hd Hh. destruct (Hd ((t + h) / (2 * sqrt h) - sqrt l)) as (P & Der). assert (0 < sqrt h) by (apply sqrt_lt_R0; lra).
  replace (- (dens ((t + h) / (2 * sqrt h) - sqrt l) / (2 * sqrt h))) with (- dens ((t + h) / (2 * sqrt h) - sqrt l) * / (2 * sqrt h)) by (field; lra).
  apply (comp_derive (sf D) (fun x => (x + h) / (2 * sqrt h) - sqrt l)); [|exact Der]. auto_derive; [lra|field; lra].
Qed.

(** * C95: the asymptotic density is the density of the asymptotic p-value *)

(** q_mu: at every value of the test statistic other than zero, the reported density is the rate of decrease of the
    reported p-value, whatever non-centrality is in use. *)
Theorem C95_qmu_density D dens q t : density_of (sf D) dens -> (exists l, ncp q = Ok l) -> t <> 0 ->
  is_density_at (qmu_pv D q) (qmu_pdf dens q) t.
Proof.
  intros Hd (l & El) Ht. destruct (qmu_density D dens q l t Hd El Ht) as (d & E & P & Der).
  exists (fun x => sf D (signed_sqrt x - sqrt l)), d. split; [intros x; unfold qmu_pv; rewrite El; reflexivity|]. split; [exact E|]. split; assumption.
Qed.
Print Assumptions C95_qmu_density.

(** q~_mu: the same at every value other than zero, including the threshold between the two regimes, when the threshold
    is positive. *)
Theorem C95_qmt_density D dens q h t : density_of (sf D) dens -> (exists l, ncp (qt_base q) = Ok l) -> qt_A0 q = Some h -> 0 < h -> t <> 0 ->
  is_density_at (qmt_pv D q) (qmt_pdf dens q) t.
Proof.
  intros Hd (l & El) EA Hh Ht.
  assert (Eth : threshold q = Ok h) by (unfold threshold; rewrite EA, Rltb_F by lra; reflexivity).
  assert (Hs : 0 < sqrt h) by (apply sqrt_lt_R0; lra).
  assert (Enz : Reqb h 0 = false) by (unfold Reqb; destruct (Req_EM_T h 0); [lra|reflexivity]).
  set (A := fun x => sf D (signed_sqrt x - sqrt l)). set (B := fun x => sf D ((x + h) / (2 * sqrt h) - sqrt l)).
  destruct (qmu_density D dens (qt_base q) l t Hd El Ht) as (d & E & P & Der). fold A in Der.
  pose proof (qmt_upper D dens l h t Hd Hh) as DerB. fold B in DerB.
  exists (fun x => if Rltb x h then A x else B x).
  assert (Hpv : forall x, qmt_pv D q (Some x) = Ok (if Rltb x h then A x else B x)).
  { intros x. unfold qmt_pv. rewrite Eth. cbn [bind]. destruct (Rltb x h); [unfold qmu_pv; rewrite El; reflexivity|]. rewrite Enz, El. reflexivity. }
  assert (PB : 0 <= dens ((t + h) / (2 * sqrt h) - sqrt l) / (2 * sqrt h)).
  { apply Rmult_le_pos; [apply Hd|]. left. apply Rinv_0_lt_compat. lra. }
  destruct (Rtotal_order t h) as [H|[H|H]].
  - exists d. split; [exact Hpv|]. split; [unfold qmt_pdf; rewrite Eth; cbn [bind]; rewrite Rltb_T by exact H; exact E|]. split; [exact P|].
    apply (local_derive A _ t _ (h - t)); [lra| |exact Der]. intros y Hy. apply Rabs_def2 in Hy. rewrite Rltb_T by lra. reflexivity.
  - eexists. split; [exact Hpv|]. split; [unfold qmt_pdf; rewrite Eth; cbn [bind]; rewrite Rltb_F by lra; rewrite Enz, El; cbn [bind]; rewrite Rltb_T by exact Hh; reflexivity|]. split; [exact PB|].
    subst t. apply glue_derive; [| |exact DerB].
    + unfold A, B. unfold signed_sqrt, Rleb. destruct (Rle_dec 0 h); [|lra]. f_equal. f_equal. rewrite <- (sqrt_sqrt h) at 2 3 by lra. field. lra.
    + replace (dens ((h + h) / (2 * sqrt h) - sqrt l) / (2 * sqrt h)) with d; [exact Der|].
      unfold qmu_pdf in E. rewrite El in E. cbn [bind] in E. rewrite Enz in E. cbn [negb] in E. injection E as <-.
      rewrite Rabs_right by lra. unfold signed_sqrt, Rleb. destruct (Rle_dec 0 h); [|lra].
      replace ((h + h) / (2 * sqrt h)) with (sqrt h) by (rewrite <- (sqrt_sqrt h) at 2 3 by lra; field; lra). field. lra.
  - eexists. split; [exact Hpv|]. split; [unfold qmt_pdf; rewrite Eth; cbn [bind]; rewrite Rltb_F by lra; rewrite Enz, El; cbn [bind]; rewrite Rltb_T by exact Hh; reflexivity|]. split; [exact PB|].
    apply (local_derive B _ t _ (t - h)); [lra| |exact DerB]. intros y Hy. apply Rabs_def2 in Hy. rewrite Rltb_F by lra. reflexivity.
Qed.
Print Assumptions C95_qmt_density.

(** q~_mu with a zero (or negative) Asimov reference: below zero the density is that of the p-value; from zero on neither
    is available, the call ends in a division by zero. *)
Theorem C95_qmt_zero_threshold D dens q h : density_of (sf D) dens -> (exists l, ncp (qt_base q) = Ok l) -> qt_A0 q = Some h -> h <= 0 ->
  (forall t, t < 0 -> is_density_below (qmt_pv D q) (qmt_pdf dens q) 0 t) /\
  (forall t, 0 <= t -> qmt_pdf dens q (Some t) = Err ZeroDivisionError /\ qmt_pv D q (Some t) = Err ZeroDivisionError).
Proof.
  intros Hd (l & El) EA Hh.
  assert (Eth : threshold q = Ok 0) by (unfold threshold; rewrite EA; unfold Rltb; destruct (Rlt_dec h 0); [reflexivity|]; replace h with 0 by lra; reflexivity).
  assert (E0 : Reqb 0 0 = true) by (unfold Reqb; destruct (Req_EM_T 0 0); [reflexivity|lra]).
  split; intros t Ht.
  - destruct (qmu_density D dens (qt_base q) l t Hd El ltac:(lra)) as (d & E & P & Der).
    exists (fun x => sf D (signed_sqrt x - sqrt l)), d. split; [intros x Hx; unfold qmt_pv; rewrite Eth; cbn [bind]; rewrite Rltb_T by exact Hx; unfold qmu_pv; rewrite El; reflexivity|].
    split; [unfold qmt_pdf; rewrite Eth; cbn [bind]; rewrite Rltb_T by exact Ht; exact E|split; assumption].
  - unfold qmt_pdf, qmt_pv. rewrite Eth. cbn [bind]. rewrite Rltb_F by exact Ht. rewrite E0. split; reflexivity.
Qed.
Print Assumptions C95_qmt_zero_threshold.

(** Without an argument, the density at the value of the test statistic is reported. *)
Theorem C95_default_argument dens q qt :
  qmu_pdf dens q None = qmu_pdf dens q (Some (qmu_value q)) /\ qmt_pdf dens qt None = qmt_pdf dens qt (Some (qmt_value qt)).
Proof. split; reflexivity. Qed.
Print Assumptions C95_default_argument.

(** At zero the true density of q_mu is unbounded; the reported one is 0. *)
Theorem C95_at_zero D dens q : density_of (sf D) dens -> (forall x, 0 < dens x) -> (exists l, ncp q = Ok l) ->
  qmu_pdf dens q (Some 0) = Ok 0 /\
  (forall f, (forall x, qmu_pv D q (Some x) = Ok (f x)) -> ~ exists d, is_derive f 0 d).
Proof.
  intros Hd Hp (l & El). split.
  - unfold qmu_pdf. rewrite El. cbn [bind]. unfold Reqb. destruct (Req_EM_T 0 0); [reflexivity|lra].
  - intros f Hf (d & Der).
    assert (Ef : forall x, f x = sf D (signed_sqrt x - sqrt l)) by (intros x; specialize (Hf x); unfold qmu_pv in Hf; rewrite El in Hf; now injection Hf as <-).
    (* y = signed_sqrt x, x = y*y for y >= 0: derivative at 0 of f (y*|y|) would be 0 *)
    assert (K : is_derive (fun y => f (y * Rabs y)) 0 (d * 0)).
    { apply (comp_derive f (fun y => y * Rabs y)); [|now replace (0 * Rabs 0) with 0 by ring].
      apply is_derive_Reals. intros eps He. exists (mkposreal eps He). intros k Hk Hk'. rewrite Rplus_0_l, Rmult_0_l, !Rminus_0_r.
      replace (k * Rabs k / k) with (Rabs k) by (field; exact Hk). rewrite Rabs_Rabsolu. exact Hk'. }
    rewrite Rmult_0_r in K.
    assert (K2 : is_derive (fun y => sf D (y - sqrt l)) 0 0).
    { apply (is_derive_ext (fun y => f (y * Rabs y))); [|exact K]. intros y. rewrite Ef. f_equal. f_equal. unfold signed_sqrt, Rleb.
      destruct (Rle_dec 0 (y * Rabs y)) as [H|H]; destruct (Rle_lt_dec 0 y) as [Hy|Hy].
      - rewrite Rabs_right by lra. now apply sqrt_square.
      - rewrite Rabs_left in H by lra. nra.
      - rewrite Rabs_right in H by lra. nra.
      - rewrite Rabs_left by lra. replace (- (y * - y)) with ((- y) * (- y)) by ring. rewrite sqrt_square by lra. ring. }
    destruct (Hd (0 - sqrt l)) as (P & Dd).
    assert (K3 : is_derive (fun y => sf D (y - sqrt l)) 0 (- dens (0 - sqrt l) * 1)).
    { apply (comp_derive (sf D) (fun y => y - sqrt l)); [auto_derive; [exact Logic.I|ring]|exact Dd]. }
    apply is_derive_unique in K2. apply is_derive_unique in K3. rewrite K2 in K3. specialize (Hp (0 - sqrt l)). lra.
Qed.
Print Assumptions C95_at_zero.

(** t_mu: no call returns a number: a distribution object (or an error) comes out, for every state and argument. *)
Theorem C95_tmu_density_refuted q ts : ~ exists x, tmu_pdf q ts = Ok (RNum x).
Proof. intros (x & H). unfold tmu_pdf in H. destruct (Rltb _ 0); discriminate. Qed.
Print Assumptions C95_tmu_density_refuted.

(** The normal distribution meets the hypotheses. *)
Definition normal_pdf (x : R) : R := gauss x / (2 * halfZ).
Lemma normal_density_of : density_of normal_sf normal_pdf.
Proof.
  intros x. pose proof halfZ_pos as Hz. split; [left; apply Rdiv_lt_0_compat; [apply gauss_pos|lra]|].
  unfold normal_sf, normal_pdf. replace (- (gauss x / (2 * halfZ))) with (0 - gauss x / (2 * halfZ)) by ring.
  apply (is_derive_minus (V := R_NormedModule) (fun _ => 1 / 2) (fun x => G x / (2 * halfZ))); [apply @is_derive_const|].
  apply (is_derive_ext (fun x => / (2 * halfZ) * G x)); [intros; unfold Rdiv; apply Rmult_comm|].
  replace (gauss x / (2 * halfZ)) with (/ (2 * halfZ) * gauss x) by (unfold Rdiv; apply Rmult_comm). apply is_derive_scal, G_der.
Qed.
Example C95_nonvacuous :
  let D := mkDist normal_sf normal_isf (fun _ _ => 0) in
  let q := make_qmt 2 3 1 4 in
  density_of (sf D) normal_pdf /\ (forall x, 0 < normal_pdf x) /\ (exists l, ncp (qt_base q) = Ok l) /\ qt_A0 q = Some 4 /\
  is_density_at (qmt_pv D q) (qmt_pdf normal_pdf q) 4 /\ is_density_at (qmt_pv D q) (qmt_pdf normal_pdf q) (-1) /\
  is_density_at (qmu_pv D (mkQMu 2 3 1 0 (Some 5) None)) (qmu_pdf normal_pdf (mkQMu 2 3 1 0 (Some 5) None)) 7.
Proof.
  cbv zeta.
  assert (N : forall q, Reqb (q_comp q) (q_test q) = true -> exists l, ncp q = Ok l) by (intros q E; exists 0; unfold ncp; rewrite E; reflexivity).
  assert (H22 : Reqb 2 2 = true) by (unfold Reqb; destruct (Req_EM_T 2 2); [reflexivity|lra]).
  split; [apply normal_density_of|]. split; [|split; [|split; [reflexivity|split; [|split]]]].
  - intros x. apply Rdiv_lt_0_compat; [apply gauss_pos|pose proof halfZ_pos; lra].
  - now apply N.
  - apply (C95_qmt_density _ _ _ 4); [apply normal_density_of|now apply N|reflexivity|lra|lra].
  - apply (C95_qmt_density _ _ _ 4); [apply normal_density_of|now apply N|reflexivity|lra|lra].
  - apply C95_qmu_density; [apply normal_density_of| |lra]. exists 5. unfold ncp. cbn.
    assert (Reqb 0 2 = false) as -> by (unfold Reqb; destruct (Req_EM_T 0 2); [lra|reflexivity]). rewrite Rltb_F by lra. reflexivity.
Qed.
