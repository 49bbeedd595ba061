(** C96, C97: conversion of a workspace channel (convert_ws.py). *)
From Coq Require Import FunctionalExtensionality.
From Verif Require Import Py PyFacts Base BaseFacts Expressions Norms RSort Sample SampleFacts ConvertWs ConvertWsFacts ConvertWsSpec SampleProps.
Local Open Scope string_scope.
Local Open Scope list_scope.
Local Open Scope R_scope.

(** * Specification.
    A channel whose yield is a sum of one term per normalization parameter, which vanishes with it, and of a remainder:
    none of the terms depends on the other normalization parameters. *)
Definition additive (I : env -> R) (ns : list string) (T : string -> R -> env -> R) (U : env -> R) : Prop :=
  (forall e, I e = U (off ns e) + lsum (map (fun n => T n (e n) (off ns e)) ns)) /\ (forall n e, T n 0 e = 0).
(** the nominal values, and zero for the normalization parameters, are inside of the ranges of the variables; the NPs have distinct names
    and are at their nominal values *)
Definition inputs_ok (rng : ranges) (e : env) (samples : list WSample) (pars : list WPar) : Prop :=
  (forall n, In n (norms samples) -> in_range rng n 0 /\ in_range rng n (e n)) /\
  NoDup (map p_name pars) /\
  forall p, In p pars -> p_nominal p = e (p_name p) /\ in_range rng (p_name p) (p_nominal p).
(** the workspace with one NP moved by [x] times its variation, or to the end of its range if that is closer *)
Definition shifted (rng : ranges) (p : WPar) (x : R) (e : env) : env := put (p_name p) (clip (rng (p_name p)) (p_nominal p + x * p_error p)) e.

Lemma init_keys {A : Type} pars : NoDup (map p_name pars) -> keys (fold_left (fun (d : dict (list A)) p => dset (p_name p) [] d) pars []) = map p_name pars.
Proof.
  induction pars as [|p pars IH] using rev_ind; intros ND; [reflexivity|]. rewrite fold_left_app, map_app in *. cbn [fold_left map] in *. apply NoDup_remove in ND. rewrite app_nil_r in ND. destruct ND as (ND & Hni).
  rewrite keys_dset_app; rewrite IH by exact ND; [reflexivity|exact Hni].
Qed.

(** * C96: what is tabulated is what the workspace gives *)

(** The variables of the workspace are as before; each sample has as yields in each bin its separated yield, as normalization the value
    of its parameter; and for each NP, bin and variation, the relative change of the separated yield. *)
Theorem C96_tabulated_yields rng fmt trim eps I nbins dflt pars variations valid samples e l' e' :
  inputs_ok rng e samples pars ->
  fill_channel_yields rng fmt trim eps I nbins dflt pars variations valid samples e = Ok (l', e') ->
  (forall x, e' x = e x) /\ length l' = length samples /\
  forall k s, nth_error samples k = Some s -> exists s', nth_error l' k = Some s' /\
    w_name s' = w_name s /\ w_norm s' = w_norm s /\ (forall n, w_norm s = Some n -> w_nn s' = e n) /\
    let Y b := sep (norms samples) (I b) dflt k (w_norm s) in
    w_nom s' = map (fun b => trim (Y b e)) (seq 0 nbins) /\ keys (w_imps s') = map p_name pars /\
    forall p, In p pars -> 
      (exists tables, dget (p_name p) (w_imps s') = Some tables /\ length tables = nbins /\
        forall b, (b < nbins)%nat ->
          (NoDup (map fmt variations) -> keys (nth b tables []) = map fmt variations) /\
          forall v, In v variations -> (forall v', In v' variations -> fmt v' = fmt v -> v' = v) ->
            exists x, dget (fmt v) (nth b tables []) = Some x /\ imp_value eps (Y b e) (Y b (shifted rng p (v * eps) e)) = Ok x) /\
      (forall pts, valid = Some pts ->
        dget (p_name p) (w_valid s') = Some (map (fun b => map (fun v => trim (Y b (shifted rng p v e) / Rmax (Y b e) (1 / 100000))) pts) (seq 0 nbins))).
Proof.
  intros (Hn & ND & Hp) H. destruct (channel_spec _ _ _ _ _ _ _ _ _ _ _ _ _ _ Hn Hp H) as (-> & L & P). split; [reflexivity|]. split; [now symmetry|].
  intros k s Hk. destruct (P k s Hk) as (s' & Hs' & F). exists s'. split; [exact Hs'|].
  assert (K : keeps (start nbins pars e s) s').
  { apply (keeps_fold (fun k s b => P_bin rng fmt trim eps I dflt variations valid e (norms samples) pars k s b) (seq 0 nbins)) in F; [exact F|]. intros b. apply keeps_P_bin. }
  destruct K as (K1 & K2 & K3 & K4). split; [rewrite K1; unfold start; destruct (w_norm s); reflexivity|].
  split; [rewrite K2; unfold start; destruct (w_norm s) eqn:E; cbn; auto|].
  split; [intros n En; rewrite K3; unfold start; rewrite En; reflexivity|].
  destruct (bins_fold rng fmt trim eps I dflt variations valid e (norms samples) pars nbins k s ND nbins s' (Nat.le_refl _) F) as (B1 & B2 & B3).
  cbv zeta. rewrite Nat.sub_diag, app_nil_r in B2. split; [exact B2|].
  split; [rewrite K4; unfold start, init_sample; cbn; now apply init_keys|]. intros p Hin. destruct (B3 p Hin) as ((tables & T1 & T2 & T3) & V). split.
  - exists tables. split; [exact T1|]. split; [exact T2|]. intros b Hb. specialize (T3 b Hb). split.
    + intros NDv. now apply table_keys in T3.
    + intros v Hv Hd. apply (table_lookup _ _ _ _ _ _ _ T3 v Hv Hd).
  - intros pts Ev. rewrite V. f_equal. unfold vrows. rewrite Ev. clear. induction (seq 0 nbins) as [|b l IH]; [reflexivity|]. cbn. now rewrite IH.
Qed.
Print Assumptions C96_tabulated_yields.

(** Nothing fails when the variations are not rescaled (epsilon = 1). *)
Lemma mapM_ok {A B} (f : A -> res B) l : (forall a, In a l -> exists b, f a = Ok b) -> exists l', mapM f l = Ok l'.
Proof.
  induction l as [|a l IH]; intros H; [exists []; reflexivity|]. destruct (H a (or_introl eq_refl)) as (b & E). destruct (IH (fun x Hx => H x (or_intror Hx))) as (l' & E').
  exists (b :: l'). cbn. now rewrite E, E'.
Qed.
Lemma mapM_all {A B} (f : A -> res B) (Q : B -> Prop) l l' : mapM f l = Ok l' -> (forall a b, In a l -> f a = Ok b -> Q b) -> forall b, In b l' -> Q b.
Proof.
  revert l'. induction l as [|a l IH]; intros l' H HQ b Hb; cbn in H; [injection H as <-; contradiction|].
  destruct (f a) as [x|] eqn:E; [|discriminate]. cbn in H. destruct (mapM f l) as [xs|]; [|discriminate]. injection H as <-.
  destruct Hb as [<-|Hb]; [apply (HQ a); [now left|exact E]|]. apply (IH xs eq_refl); [|exact Hb]. intros a' b' Ha'. apply HQ. now right.
Qed.
Lemma foldM_ok {A S} (f : S -> A -> res S) (Q : S -> Prop) l : (forall a s, In a l -> Q s -> exists s', f s a = Ok s' /\ Q s') -> forall s, Q s -> exists s', foldM f l s = Ok s' /\ Q s'.
Proof.
  induction l as [|a l IH]; intros H s Hs; [exists s; split; [reflexivity|exact Hs]|]. destruct (H a s (or_introl eq_refl) Hs) as (s1 & E1 & Q1).
  destruct (IH (fun a' s' Ha => H a' s' (or_intror Ha)) s1 Q1) as (s2 & E2 & Q2). exists s2. cbn. rewrite E1. now split.
Qed.
Definition has (pars : list WPar) (nom : bool) (s : WSample) : Prop :=
  (forall p, In p pars -> dget (p_name p) (w_imps s) <> None /\ dget (p_name p) (w_valid s) <> None) /\ (nom = true -> dget "nominal" (w_yields s) <> None).
Definition hasl (pars : list WPar) (nom : bool) (l : list WSample) : Prop := forall s, In s l -> has pars nom s.
Lemma dget_dset_some {V} k q (x : V) d : dget q d <> None -> dget q (dset k x d) <> None.
Proof. intros H. destruct (string_dec q k) as [->|Hne]; [rewrite dget_dset_eq; discriminate|now rewrite dget_dset_ne]. Qed.
Lemma fill_samples_has rng I key nun pars nom l : forall e, hasl pars nom l -> forall s, In s (fst (fill_samples rng I key nun l e)) -> has pars nom s /\ dget key (w_yields s) <> None.
Proof.
  assert (W : forall y s, has pars nom s -> has pars nom (with_yield key y s)).
  { intros y s (A & B). split; [exact A|]. intros Hn. cbn. apply dget_dset_some. now apply B. }
  induction l as [|s l IH]; intros e H t Ht; [contradiction|]. cbn in Ht.
  destruct (w_norm s); cbn in Ht; (destruct Ht as [<-|Ht]; [split; [apply W, H; now left|cbn; rewrite dget_dset_eq; discriminate]|eapply IH; [|exact Ht]; intros x Hx; apply H; now right]).
Qed.
Lemma add_default_has key nun pars nom l : forall dflt, (forall s, In s l -> has pars nom s /\ dget key (w_yields s) <> None) ->
  forall s, In s (add_default dflt key nun l) -> has pars nom s /\ dget key (w_yields s) <> None.
Proof.
  induction l as [|s l IH]; intros dflt H t Ht; [destruct dflt; contradiction|]. destruct dflt as [|d]; cbn in Ht.
  - destruct Ht as [<-|Ht]; [|apply H; now right]. destruct (H s (or_introl eq_refl)) as ((A & B) & C). split; [split; [exact A|]|].
    + intros Hn. cbn. apply dget_dset_some. now apply B.
    + cbn. rewrite dget_dset_eq. discriminate.
  - destruct Ht as [<-|Ht]; [apply H; now left|]. eapply IH; [|exact Ht]. intros x Hx. apply H. now right.
Qed.
Lemma fill_yields_has rng I dflt key pars nom l e : hasl pars nom l -> forall s, In s (fst (fill_yields rng I dflt key l e)) -> has pars nom s /\ dget key (w_yields s) <> None.
Proof.
  intros H s Hs. unfold fill_yields in Hs. cbn [fst] in Hs. eapply add_default_has; [|exact Hs]. intros t Ht. eapply fill_samples_has; [|exact Ht].
  intros x Hx. unfold save_normpars in Hx. apply in_map_iff in Hx. destruct Hx as (y & <- & Hy). destruct (w_norm y); [|now apply H]. destruct (H y Hy) as (A & B). now split.
Qed.
Theorem C96_no_failure rng fmt trim I nbins dflt pars variations valid samples e :
  exists l' e', fill_channel_yields rng fmt trim 1 I nbins dflt pars variations valid samples e = Ok (l', e').
Proof.
  assert (N : forall {A} (o : option A), o <> None -> exists x, o = Some x) by (intros A [x|] H; [eauto|contradiction]).
  assert (HV : forall b p st v, In p pars -> hasl pars true (fst st) -> exists st', do_variation rng fmt 1 (I b) dflt p st v = Ok st' /\ hasl pars true (fst st')).
  { intros b p st v Hp H. unfold do_variation. set (r := fill_yields _ _ _ _ _ _). assert (Hr : forall s, In s (fst r) -> has pars true s /\ dget "var" (w_yields s) <> None) by (intros s Hs; eapply fill_yields_has; [exact H|exact Hs]).
    clearbody r. assert (Q : forall s, In s (fst r) -> exists x t, sample_impact 1 s = Ok x /\ dgetE (p_name p) (w_imps s) = Ok t).
    { intros s Hs. destruct (Hr s Hs) as ((A & B) & C). destruct (A p Hp) as (A1 & _). apply N in A1, C. specialize (B eq_refl). apply N in B. destruct A1 as (t & Et), B as (y & Ey), C as (z & Ez).
      unfold sample_impact, dgetE. rewrite Et, Ey, Ez. cbn [bind]. destruct (Reqb y 0); [eauto|]. assert (Reqb 1 0 = false) as -> by (apply Reqb_false; lra).
      unfold py_pow. assert (Reqb (1 / 1) 1 = true) as -> by (apply Reqb_true; lra). cbn [bind]. eauto. }
    destruct (mapM_ok (record_impact fmt 1 (p_name p) v) (fst r)) as (l & El).
    { intros s Hs. destruct (Q s Hs) as (x & t & E1 & E2). unfold record_impact. rewrite E1. cbn [bind]. rewrite E2. cbn [bind]. eauto. }
    rewrite El. eexists. split; [reflexivity|]. cbn [fst]. intros s' Hs'. revert s' Hs'. apply (mapM_all _ _ _ _ El). intros s s' Hs Es.
    destruct (Q s Hs) as (x & t & E1 & E2). unfold record_impact in Es. rewrite E1 in Es. cbn [bind] in Es. rewrite E2 in Es. injection Es as <-.
    destruct (Hr s Hs) as ((A & B) & _). split; [|exact B]. intros q Hq. destruct (A q Hq) as (A1 & A2). split; [cbn; now apply dget_dset_some|exact A2]. }
  assert (HW : forall b p st v, In p pars -> hasl pars true (fst st) -> exists st', do_valid rng trim (I b) dflt p st v = Ok st' /\ hasl pars true (fst st')).
  { intros b p st v Hp H. unfold do_valid. set (r := fill_yields _ _ _ _ _ _). assert (Hr : forall s, In s (fst r) -> has pars true s /\ dget "valid" (w_yields s) <> None) by (intros s Hs; eapply fill_yields_has; [exact H|exact Hs]).
    clearbody r. assert (Q : forall s, In s (fst r) -> exists t, record_valid trim (p_name p) s = Ok (with_valid (dset (p_name p) t (w_valid s)) s)).
    { intros s Hs. destruct (Hr s Hs) as ((A & B) & C). destruct (A p Hp) as (_ & A1). apply N in A1, C. specialize (B eq_refl). apply N in B. destruct A1 as (t & Et), B as (y & Ey), C as (z & Ez).
      unfold record_valid, dgetE. rewrite Et, Ey, Ez. cbn [bind]. eauto. }
    destruct (mapM_ok (record_valid trim (p_name p)) (fst r)) as (l & El); [intros s Hs; destruct (Q s Hs); eauto|].
    rewrite El. eexists. split; [reflexivity|]. cbn [fst]. intros s' Hs'. revert s' Hs'. apply (mapM_all _ _ _ _ El). intros s s' Hs Es.
    destruct (Q s Hs) as (t & E1). rewrite E1 in Es. injection Es as <-. destruct (Hr s Hs) as ((A & B) & _). split; [|exact B]. intros q Hq. destruct (A q Hq) as (A1 & A2). split; [exact A1|cbn; now apply dget_dset_some]. }
  assert (HP : forall b p st, In p pars -> hasl pars true (fst st) -> exists st', do_par rng fmt trim 1 (I b) dflt variations valid st p = Ok st' /\ hasl pars true (fst st')).
  { intros b p st Hp H. unfold do_par. destruct (mapM_ok (new_bin (p_name p)) (fst st)) as (l & El).
    { intros s Hs. destruct (H s Hs) as (A & _). destruct (A p Hp) as (A1 & _). apply N in A1. destruct A1 as (t & Et). unfold new_bin, dgetE. rewrite Et. cbn. eauto. }
    rewrite El. cbn [bind]. assert (Hl : hasl pars true l).
    { intros s' Hs'. revert s' Hs'. apply (mapM_all _ _ _ _ El). intros s s' Hs Es. destruct (H s Hs) as (A & B). unfold new_bin in Es. destruct (dgetE (p_name p) (w_imps s)); [|discriminate]. injection Es as <-.
      split; [|exact B]. intros q Hq. destruct (A q Hq). split; [cbn; now apply dget_dset_some|assumption]. }
    destruct (foldM_ok (do_variation rng fmt 1 (I b) dflt p) (fun st => hasl pars true (fst st)) variations (fun v s _ Hs => HV b p s v Hp Hs) (l, snd st) Hl) as (st1 & E1 & H1).
    rewrite E1. cbn [bind]. destruct valid as [pts|]; [|eauto].
    destruct (mapM_ok (new_valid_bin (p_name p)) (fst st1)) as (l1 & El1).
    { intros s Hs. destruct (H1 s Hs) as (A & _). destruct (A p Hp) as (_ & A1). apply N in A1. destruct A1 as (t & Et). unfold new_valid_bin, dgetE. rewrite Et. cbn. eauto. }
    rewrite El1. cbn [bind]. assert (Hl1 : hasl pars true l1).
    { intros s' Hs'. revert s' Hs'. apply (mapM_all _ _ _ _ El1). intros s s' Hs Es. destruct (H1 s Hs) as (A & B). unfold new_valid_bin in Es. destruct (dgetE (p_name p) (w_valid s)); [|discriminate]. injection Es as <-.
      split; [|exact B]. intros q Hq. destruct (A q Hq). split; [assumption|cbn; now apply dget_dset_some]. }
    destruct (foldM_ok (do_valid rng trim (I b) dflt p) (fun st => hasl pars true (fst st)) pts (fun v s _ Hs => HW b p s v Hp Hs) (l1, snd st1) Hl1) as (st2 & E2 & H2). eauto. }
  assert (HB : forall b st, hasl pars false (fst st) -> exists st', do_bin rng fmt trim 1 I dflt pars variations valid st b = Ok st' /\ hasl pars false (fst st')).
  { intros b st H. unfold do_bin. set (r := fill_yields _ _ _ _ _ _). assert (Hr : forall s, In s (fst r) -> has pars false s /\ dget "nominal" (w_yields s) <> None) by (intros s Hs; eapply fill_yields_has; [exact H|exact Hs]).
    clearbody r. destruct (mapM_ok (set_nominal trim b) (fst r)) as (l & El).
    { intros s Hs. destruct (Hr s Hs) as (_ & A1). apply N in A1. destruct A1 as (t & Et). unfold set_nominal, dgetE. rewrite Et. cbn. eauto. }
    rewrite El. cbn [bind]. assert (Hl : hasl pars true l).
    { intros s' Hs'. revert s' Hs'. apply (mapM_all _ _ _ _ El). intros s s' Hs Es. destruct (Hr s Hs) as ((A & _) & B). unfold set_nominal in Es. destruct (dgetE "nominal" (w_yields s)); [|discriminate]. injection Es as <-. split; [exact A|intros _; exact B]. }
    destruct (foldM_ok (do_par rng fmt trim 1 (I b) dflt variations valid) (fun st => hasl pars true (fst st)) pars (fun p s Hp Hs => HP b p s Hp Hs) (l, snd r) Hl) as (st1 & E1 & H1).
    exists st1. split; [exact E1|]. intros s Hs. destruct (H1 s Hs) as (A & _). split; [exact A|discriminate]. }
  unfold fill_channel_yields. cbv zeta. match goal with |- context [foldM ?f ?l ?st0] => destruct (foldM_ok f (fun st => hasl pars false (fst st)) l (fun b s _ Hs => HB b s Hs) st0) as (st & E & _) end.
  - cbn [fst]. intros s Hs. apply in_map_iff in Hs. destruct Hs as (s0 & <- & _). split; [|discriminate]. intros p Hp. cbn. rewrite !init_fold by now apply in_map. split; discriminate.
  - rewrite E. cbn [bind]. eauto.
Qed.
Print Assumptions C96_no_failure.

(** The separated yields of an additive channel with one normalization parameter per sample: the term of the parameter, and for the
    default sample the remainder too. *)
Lemma off_off ns e : off ns (off ns e) = off ns e.
Proof. apply functional_extensionality. intros x. unfold off. destruct (mem x ns); reflexivity. Qed.
Lemma off_only ns n e : In n ns -> off ns (only ns n e) = off ns e.
Proof. intros H. apply functional_extensionality. intros x. unfold only, off. destruct (mem x ns) eqn:E; [reflexivity|]. destruct (String.eqb x n); reflexivity. Qed.
Lemma lsum_zero {A} (f : A -> R) l : (forall a, In a l -> f a = 0) -> lsum (map f l) = 0.
Proof. induction l as [|a l IH]; intros H; cbn; [reflexivity|]. rewrite H by now left. rewrite IH by (intros; apply H; now right). ring. Qed.
Lemma lsum_one ns n (T : string -> R -> env -> R) (f e : env) : NoDup ns -> In n ns -> (forall n e, T n 0 e = 0) -> (forall m, In m ns -> m <> n -> f m = 0) ->
  lsum (map (fun m => T m (f m) e) ns) = T n (f n) e.
Proof.
  intros ND Hn HT Hf. induction ns as [|m ns IH]; [contradiction|]. inversion ND; subst. cbn. destruct Hn as [->|Hn].
  - rewrite (lsum_zero (fun m => T m (f m) e)); [ring|]. intros m Hm. rewrite Hf; [apply HT|now right|]. intros ->. contradiction.
  - rewrite IH; [|assumption|exact Hn|intros; apply Hf; [now right|assumption]]. rewrite Hf; [rewrite HT; ring|now left|]. intros ->. contradiction.
Qed.
Theorem C96_separated_terms I ns T U dflt k o e : additive I ns T U -> NoDup ns -> (forall n, o = Some n -> In n ns) ->
  sep ns I dflt k o e = match o with Some n => T n (e n) (off ns e) | None => 0 end + (if (k =? dflt)%nat then U (off ns e) else 0).
Proof.
  intros (HI & HT) ND Ho. assert (E0 : I (off ns e) = U (off ns e)).
  { rewrite HI, off_off. rewrite lsum_zero; [ring|]. intros n Hn. unfold off at 1. apply mem_true in Hn. rewrite Hn. apply HT. }
  unfold sep. rewrite E0. destruct o as [n|]; [|reflexivity]. specialize (Ho n eq_refl). rewrite HI, off_only by exact Ho.
  rewrite (lsum_one ns n T (only ns n e)); [|exact ND|exact Ho|exact HT|].
  - unfold only at 1. rewrite String.eqb_refl. ring.
  - intros m Hm Hne. unfold only, off. apply String.eqb_neq in Hne. rewrite Hne. apply mem_true in Hm. now rewrite Hm.
Qed.
Print Assumptions C96_separated_terms.

(** ... so that the samples together give the yield of the channel. *)
Theorem C96_samples_add_up I T U dflt samples e : additive I (norms samples) T U -> NoDup (norms samples) -> (dflt < length samples)%nat ->
  lsum (mapi (fun k s => sep (norms samples) I dflt k (w_norm s) e) 0 samples) = I e.
Proof.
  intros HA ND Hd. pose proof HA as (HI & HT). set (ns := norms samples) in *.
  assert (G : forall l k, incl (norms l) ns -> lsum (mapi (fun k s => sep ns I dflt k (w_norm s) e) k l) =
      lsum (map (fun n => T n (e n) (off ns e)) (norms l)) + (if (k <=? dflt)%nat && (dflt <? k + length l)%nat then U (off ns e) else 0)).
  { induction l as [|s l IH]; intros k Hi.
    - unfold norms. cbn [mapi lsum flat_map map length]. rewrite Nat.add_0_r. destruct (k <=? dflt)%nat eqn:E1, (dflt <? k)%nat eqn:E2; cbn [andb]; try ring. apply Nat.leb_le in E1. apply Nat.ltb_lt in E2. lia.
    - rewrite norms_cons in *. cbn [mapi lsum]. rewrite IH by (destruct (w_norm s); [intros x Hx; apply Hi; now right|exact Hi]).
      rewrite (C96_separated_terms I ns T U) by (try assumption; intros n En; rewrite En in Hi; apply Hi; now left).
      assert (EE : (if (k =? dflt)%nat then U (off ns e) else 0) + (if ((S k <=? dflt) && (dflt <? S k + length l))%nat then U (off ns e) else 0) =
                   (if ((k <=? dflt) && (dflt <? k + S (length l)))%nat then U (off ns e) else 0)).
      { rewrite Nat.add_succ_r, Nat.add_succ_l. destruct (k =? dflt)%nat eqn:E1.
        - apply Nat.eqb_eq in E1. subst. rewrite Nat.leb_refl. assert ((S dflt <=? dflt)%nat = false) as -> by (apply Nat.leb_gt; lia). assert ((dflt <? S (dflt + length l))%nat = true) as -> by (apply Nat.ltb_lt; lia). cbn. ring.
        - apply Nat.eqb_neq in E1. assert ((S k <=? dflt)%nat = (k <=? dflt)%nat) as -> by (apply Bool.eq_iff_eq_true; rewrite !Nat.leb_le; lia). ring. }
      cbn [length]. rewrite <- EE. destruct (w_norm s) as [n|]; cbn [map lsum]; ring. }
  rewrite (G samples 0%nat (incl_refl _)). cbn [Nat.leb plus]. apply Nat.ltb_lt in Hd. rewrite Hd. cbn. rewrite HI. fold ns. ring.
Qed.
Print Assumptions C96_samples_add_up.

(** Two samples with the same normalization parameter each get the yield of both. *)
Theorem C96_shared_parameter_refuted : exists I T U samples e, additive I ["mu"] T U /\ (forall s, In s samples -> w_norm s = Some "mu" \/ w_norm s = None) /\
  lsum (mapi (fun k s => sep (norms samples) I 2 k (w_norm s) e) 0 samples) <> I e.
Proof.
  exists (fun e => 5 + 2 * e "mu"), (fun _ x _ => 2 * x), (fun _ => 5),
    [mkWS "s1" (Some "mu") 0 0 [] [] [] []; mkWS "s2" (Some "mu") 0 0 [] [] [] []; mkWS "b" None 0 0 [] [] [] []], (fun _ => 1).
  split; [split; [intros e; cbn; ring|intros; ring]|]. split; [intros s [<-|[<-|[<-|[]]]]; auto|].
  unfold norms. cbn -[Rplus Rminus Rmult]. unfold sep, only, off, mem. cbn -[Rplus Rminus Rmult]. lra.
Qed.
Print Assumptions C96_shared_parameter_refuted.


(** A variation that would take the parameter out of its range is cut at the end of the range, but is tabulated under its full size. *)
Definition rx_rng : ranges := fun _ => (Some (-1/2), Some 2).
Definition rx_I : nat -> env -> R := fun _ e => 10 * e "mu" * (1 + e "np1").
Definition rx_samples : list WSample := [mkWS "sig" (Some "mu") 0 0 [] [] [] []; mkWS "bkg" None 0 0 [] [] [] []].
Definition rx_env : env := fun x => if String.eqb x "mu" then 1 else 0.
Definition rx_fmt : R -> string := fun v => if Rltb 0 v then "+1" else "-1".
Lemma rx_in : forall n v, -1/2 <= v <= 2 -> in_range rx_rng n v.
Proof.
  intros n v H. unfold in_range, clip, rx_rng. cbn. assert (Rltb v (-1/2) = false) as -> by (apply Rltb_false; lra). assert (Rltb 2 v = false) as -> by (apply Rltb_false; lra). reflexivity.
Qed.
Lemma rx_ok : inputs_ok rx_rng rx_env rx_samples [mkWPar "np1" 0 1].
Proof.
  split; [|split].
  - intros n [<-|[]]. cbn. split; apply rx_in; lra.
  - repeat constructor. intros [].
  - intros p [<-|[]]. cbn. split; [reflexivity|apply rx_in; lra].
Qed.
Theorem C96_out_of_range_refuted : exists rng e p samples l' e' s' tables x,
  inputs_ok rng e samples [p] /\
  fill_channel_yields rng rx_fmt (fun y => y) 1 rx_I 1 1 [p] [1; -1] None samples e = Ok (l', e') /\
  nth_error l' 0 = Some s' /\ dget (p_name p) (w_imps s') = Some tables /\ dget "-1" (nth 0 tables []) = Some x /\
  rx_I 0%nat (put (p_name p) (p_nominal p + -1 * p_error p) e) = 0 /\ rx_I 0%nat e = 10 /\ x = -1/2.
Proof.
  destruct (C96_no_failure rx_rng rx_fmt (fun y => y) rx_I 1 1 [mkWPar "np1" 0 1] [1; -1] None rx_samples rx_env) as (l' & e' & E).
  pose proof (C96_tabulated_yields _ _ _ _ _ _ _ _ _ _ _ _ _ _ rx_ok E) as (_ & _ & P).
  destruct (P 0%nat _ eq_refl) as (s' & S1 & _ & _ & _ & _ & _ & S2). destruct (S2 _ (or_introl eq_refl)) as ((tables & T1 & _ & T2) & _).
  destruct (T2 0%nat ltac:(lia)) as (_ & T3). destruct (T3 (-1)) as (x & X1 & X2); [right; now left| |].
  - intros v' [<-|[<-|[]]] H; [|reflexivity]. unfold rx_fmt in H. assert (Rltb 0 1 = true) as Q1 by (apply Rltb_true; lra). assert (Rltb 0 (-1) = false) as Q2 by (apply Rltb_false; lra). rewrite Q1, Q2 in H. discriminate.
  - exists rx_rng, rx_env, (mkWPar "np1" 0 1), rx_samples, l', e', s', tables, x. split; [exact rx_ok|]. split; [exact E|]. split; [exact S1|]. split; [exact T1|].
    unfold rx_fmt in X1. assert (Rltb 0 (-1) = false) as Q2 by (apply Rltb_false; lra). rewrite Q2 in X1. split; [exact X1|].
    assert (C : clip (rx_rng "np1") (0 + -1 * 1 * 1) = -1/2).
    { unfold clip, rx_rng. cbn [fst snd]. assert (Rltb (0 + -1 * 1 * 1) (-1/2) = true) as -> by (apply Rltb_true; lra). assert (Rltb 2 (-1/2) = false) as -> by (apply Rltb_false; lra). reflexivity. }
    unfold shifted in X2. cbn [p_name p_nominal p_error] in X2. replace (0 + -1 * 1 * 1) with (0 + (-1 * 1) * 1) in C by ring. rewrite C in X2.
    unfold sep, norms, only, off, put, mem, rx_I, rx_env in X2. cbn -[Rplus Rminus Rmult Rdiv] in X2. unfold imp_value in X2.
    assert (Reqb (10 * 1 * (1 + 0) - 10 * 0 * (1 + 0) + 0) 0 = false) as Q by (apply Reqb_false; lra). rewrite Q in X2.
    assert (Reqb 1 0 = false) as Q3 by (apply Reqb_false; lra). rewrite Q3 in X2. unfold py_pow in X2. assert (Reqb (1/1) 1 = true) as Q4 by (apply Reqb_true; lra). rewrite Q4 in X2. cbn [bind] in X2. injection X2 as <-.
    unfold rx_I, put, rx_env. cbn -[Rplus Rminus Rmult Rdiv]. split; [ring|]. split; [ring|]. field.
Qed.
Print Assumptions C96_out_of_range_refuted.

Example C96_nonvacuous : inputs_ok rx_rng rx_env rx_samples [mkWPar "np1" 0 1] /\
  additive (rx_I 0) (norms rx_samples) (fun _ x e => 10 * x * (1 + e "np1")) (fun _ => 0) /\ NoDup (norms rx_samples) /\ (1 < length rx_samples)%nat /\
  exists l' e', fill_channel_yields rx_rng rx_fmt (fun y => y) 1 rx_I 1 1 [mkWPar "np1" 0 1] [1; -1] (Some [0; 1]) rx_samples rx_env = Ok (l', e').
Proof.
  split; [exact rx_ok|]. split; [|split; [repeat constructor; intros []|split; [cbn; lia|apply C96_no_failure]]].
  split; [intros e; unfold rx_I, off, mem; cbn -[Rplus Rmult]; ring|intros; ring].
Qed.
