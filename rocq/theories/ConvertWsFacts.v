(** Facts on the conversion of workspaces: the loops with their changes of the workspace variables compute, for each sample, what a
    program without any state computes. *)
From Coq Require Import FunctionalExtensionality.
From Verif Require Import Py PyFacts ConvertWs.
Local Open Scope string_scope.
Local Open Scope list_scope.
Local Open Scope R_scope.

(** * Specification: separated yields.
    [off ns e]: the values of [e] with the normalization parameters [ns] all set to zero; [only ns n e]: all but [n]. *)
Definition mem (x : string) (l : list string) : bool := existsb (String.eqb x) l.
Definition off (ns : list string) (e : env) : env := fun x => if mem x ns then 0 else e x.
Definition only (ns : list string) (n : string) (e : env) : env := fun x => if String.eqb x n then e x else off ns e x.
Definition put (n : string) (v : R) (e : env) : env := fun x => if String.eqb x n then v else e x.
(** the part of the channel yield [I] at [e] that belongs to the sample number [k] with normalization parameter [o]: what its parameter
    adds to the yield without any; and for the default sample, that remaining yield too *)
Definition sep (ns : list string) (I : env -> R) (dflt k : nat) (o : option string) (e : env) : R :=
  match o with Some n => I (only ns n e) - I (off ns e) | None => 0 end + (if (k =? dflt)%nat then I (off ns e) else 0).
Definition norms (l : list WSample) : list string := flat_map (fun s => match w_norm s with Some n => [n] | None => [] end) l.
(** the impact of a variation: (varied/nominal)^(1/epsilon) - 1, or 0 without nominal yield *)
Definition imp_value (eps y0 y : R) : res R :=
  if Reqb y0 0 then Ok 0 else if Reqb eps 0 then Err ZeroDivisionError else let! p := py_pow (y / y0) (1 / eps) in Ok (p - 1).
(** a value that setVal stores as it is *)
Definition in_range (rng : ranges) (n : string) (v : R) : Prop := clip (rng n) v = v.

Lemma mem_true x l : mem x l = true <-> In x l.
Proof. unfold mem. rewrite existsb_exists. split; [intros (y & H & E); apply String.eqb_eq in E; now subst|intros H; exists x; split; [exact H|apply String.eqb_refl]]. Qed.
Lemma mem_false x l : mem x l = false <-> ~ In x l.
Proof. rewrite <- mem_true. destruct (mem x l); split; congruence. Qed.
Lemma put_same n e : put n (e n) e = e.
Proof. apply functional_extensionality. intros x. unfold put. destruct (String.eqb x n) eqn:E; [apply String.eqb_eq in E; now subst|reflexivity]. Qed.
Lemma setval_put rng n v e : in_range rng n v -> setval rng n v e = put n v e.
Proof. intros H. apply functional_extensionality. intros x. unfold setval, put. rewrite H. reflexivity. Qed.

Lemma clip_idem r v : clip r (clip r v) = clip r v.
Proof.
  destruct r as [[lo|] [hi|]]; unfold clip; cbn [fst snd]; try reflexivity;
  repeat match goal with |- context [Rltb ?a ?b] => is_var a; is_var b; let E := fresh "E" in destruct (Rltb a b) eqn:E; [apply Rltb_true in E|apply Rltb_false in E] end; try reflexivity; lra.
Qed.
Lemma norms_cons s l : norms (s :: l) = match w_norm s with Some n => n :: norms l | None => norms l end.
Proof. unfold norms. cbn. destruct (w_norm s); reflexivity. Qed.
Lemma in_norms s n l : In s l -> w_norm s = Some n -> In n (norms l).
Proof. intros H E. unfold norms. apply in_flat_map. exists s. split; [exact H|]. rewrite E. now left. Qed.

Lemma set_zero rng l : forall e, (forall n, In n (norms l) -> in_range rng n 0) -> set_normpars rng (Some 0) l e = off (norms l) e.
Proof.
  induction l as [|s l IH]; intros e H.
  - cbn. apply functional_extensionality. intros x. reflexivity.
  - rewrite norms_cons in *. unfold set_normpars in *. cbn [fold_left]. destruct (w_norm s) as [n|]; [|apply IH; exact H].
    rewrite IH by (intros; apply H; now right). rewrite setval_put by (apply H; now left).
    apply functional_extensionality. intros x. unfold off, put, mem. cbn [existsb].
    destruct (existsb (String.eqb x) (norms l)) eqn:E; [now rewrite orb_true_r|]. rewrite orb_false_r. destruct (String.eqb x n); reflexivity.
Qed.
Lemma set_nominal_env rng e0 l : (forall s n, In s l -> w_norm s = Some n -> w_nn s = e0 n /\ in_range rng n (e0 n)) ->
  forall e, set_normpars rng None l e = fun x => if mem x (norms l) then e0 x else e x.
Proof.
  induction l as [|s l IH]; intros H e.
  - cbn. apply functional_extensionality. intros x. reflexivity.
  - rewrite norms_cons. unfold set_normpars in *. cbn [fold_left]. destruct (w_norm s) as [n|] eqn:E.
    + destruct (H s n (or_introl eq_refl) E) as (E1 & E2). rewrite IH by (intros; eapply H; [now right|eassumption]).
      rewrite E1, setval_put by exact E2. apply functional_extensionality. intros x. unfold put, mem. cbn [existsb].
      destruct (existsb (String.eqb x) (norms l)); [now rewrite orb_true_r|]. rewrite orb_false_r.
      destruct (String.eqb x n) eqn:Ex; [apply String.eqb_eq in Ex; now subst|reflexivity].
    + apply IH. intros; eapply H; [now right|eassumption].
Qed.
Definition agree (ns : list string) (e0 e : env) : Prop := forall x, ~ In x ns -> e x = e0 x.
Lemma restore rng e0 l e : (forall s n, In s l -> w_norm s = Some n -> w_nn s = e0 n /\ in_range rng n (e0 n)) -> agree (norms l) e0 e ->
  set_normpars rng None l e = e0.
Proof.
  intros H A. rewrite (set_nominal_env rng e0 l H). apply functional_extensionality. intros x.
  destruct (mem x (norms l)) eqn:E; [reflexivity|]. apply A. now apply mem_false.
Qed.

Fixpoint mapi {A B} (f : nat -> A -> B) (k : nat) (l : list A) : list B :=
  match l with [] => [] | a :: l' => f k a :: mapi f (S k) l' end.
Lemma mapi_nth {A B} (f : nat -> A -> B) l : forall k i, nth_error (mapi f k l) i = option_map (f (k + i)%nat) (nth_error l i).
Proof.
  induction l as [|a l IH]; intros k i; [destruct i; reflexivity|]. destruct i as [|i]; cbn.
  - now rewrite Nat.add_0_r.
  - rewrite IH. now rewrite Nat.add_succ_r.
Qed.
Lemma mapi_length {A B} (f : nat -> A -> B) l : forall k, length (mapi f k l) = length l.
Proof. induction l; intros k; cbn; [reflexivity|now rewrite IHl]. Qed.

(** what fill_yields does to one sample *)
Definition saved (e : env) (s : WSample) : WSample := match w_norm s with Some n => with_save (e n) s | None => s end.
Definition upd_y (ns : list string) (I : env -> R) (dflt : nat) (key : string) (e : env) (k : nat) (s : WSample) : WSample :=
  with_yield key (sep ns I dflt k (w_norm s) e) (saved e s).
Lemma norms_saved e l : norms (save_normpars e l) = norms l.
Proof. induction l as [|s l IH]; [reflexivity|]. cbn [save_normpars map]. rewrite !norms_cons. fold (save_normpars e l). rewrite IH. destruct (w_norm s) eqn:E; cbn; rewrite E; reflexivity. Qed.

Lemma fill_samples_spec rng I key ns ec : (forall n, In n ns -> in_range rng n 0 /\ in_range rng n (ec n)) ->
  forall l nun, incl (norms l) ns -> 
  fill_samples rng I key nun (save_normpars ec l) (off ns ec) =
  (map (fun s => with_yield key (match w_norm s with Some n => I (only ns n ec) - nun | None => 0 end) (saved ec s)) l, off ns ec).
Proof.
  intros Hr. induction l as [|s l IH]; intros nun Hi; [reflexivity|]. cbn [save_normpars map fill_samples].
  rewrite norms_cons in Hi. fold (save_normpars ec l). unfold saved. destruct (w_norm s) as [n|] eqn:E.
  - cbn [with_save w_norm w_save]. rewrite E. 
    assert (Hn : In n ns) by (apply Hi; now left). destruct (Hr n Hn) as (H0 & H1).
    rewrite (setval_put rng n (ec n)) by exact H1.
    assert (E1 : put n (ec n) (off ns ec) = only ns n ec).
    { apply functional_extensionality. intros x. unfold put, only. destruct (String.eqb x n) eqn:Ex; [apply String.eqb_eq in Ex; now subst|reflexivity]. }
    rewrite E1. rewrite (setval_put rng n 0) by exact H0.
    assert (E2 : put n 0 (only ns n ec) = off ns ec).
    { apply functional_extensionality. intros x. unfold put, only. destruct (String.eqb x n) eqn:Ex; [|reflexivity]. apply String.eqb_eq in Ex. subst.
      unfold off. apply mem_true in Hn. now rewrite Hn. }
    rewrite E2. rewrite IH by (intros y Hy; apply Hi; now right). reflexivity.
  - rewrite E. rewrite IH by exact Hi. reflexivity.
Qed.
Lemma dset_dset {V} k (x y : V) d : dset k x (dset k y d) = dset k x d.
Proof. induction d as [|[k' v] d IH]; cbn; [now rewrite String.eqb_refl|]. destruct (String.eqb k k') eqn:E; cbn; rewrite E; [reflexivity|now rewrite IH]. Qed.
Lemma dget_dset_eq {V} k (x : V) d : dget k (dset k x d) = Some x.
Proof. induction d as [|[k' v] d IH]; cbn; [now rewrite String.eqb_refl|]. destruct (String.eqb k k') eqn:E; cbn; rewrite E; [reflexivity|exact IH]. Qed.
Lemma dget_dset_ne {V} k k' (x : V) d : k <> k' -> dget k (dset k' x d) = dget k d.
Proof.
  intros H. induction d as [|[k2 v] d IH]; cbn.
  - destruct (String.eqb k k') eqn:E; [apply String.eqb_eq in E; contradiction|reflexivity].
  - destruct (String.eqb k' k2) eqn:E; cbn; [|now rewrite IH]. destruct (String.eqb k k2) eqn:E2; [|reflexivity].
    apply String.eqb_eq in E, E2. congruence.
Qed.
Lemma add_default_spec dflt key nun (f : WSample -> WSample) (y : WSample -> R) l : forall k,
  add_default (dflt - k) key nun (map (fun s => with_yield key (y s) (f s)) l) =
  if (dflt <? k)%nat then add_default (dflt - k) key nun (map (fun s => with_yield key (y s) (f s)) l)
  else mapi (fun i s => with_yield key (y s + (if (i =? dflt)%nat then nun else 0)) (f s)) k l.
Proof.
  induction l as [|s l IH]; intros k.
  - destruct (dflt <? k)%nat; [reflexivity|]. destruct (dflt - k)%nat; reflexivity.
  - destruct (dflt <? k)%nat eqn:Ek; [reflexivity|]. apply Nat.ltb_ge in Ek. cbn [map mapi].
    destruct (dflt - k)%nat as [|d] eqn:Ed.
    + assert (dflt = k) by lia. subst k. cbn [add_default]. rewrite Nat.eqb_refl. f_equal.
      * unfold with_yield. cbn. rewrite dget_dset_eq, dset_dset. reflexivity.
      * clear IH Ek Ed. assert (H : forall k, (dflt < k)%nat -> map (fun s0 => with_yield key (y s0) (f s0)) l = mapi (fun i s0 => with_yield key (y s0 + (if (i =? dflt)%nat then nun else 0)) (f s0)) k l).
        { clear s. induction l as [|s l IH]; intros k Hk; [reflexivity|]. cbn. rewrite (IH (S k)) by lia. destruct (k =? dflt)%nat eqn:E; [apply Nat.eqb_eq in E; lia|]. now rewrite Rplus_0_r. }
        apply H. lia.
    + cbn [add_default]. assert (Hk : (k =? dflt)%nat = false) by (apply Nat.eqb_neq; lia). rewrite Hk, Rplus_0_r. f_equal.
      specialize (IH (S k)). replace (dflt - S k)%nat with d in IH by lia. rewrite IH.
      assert (E : (dflt <? S k)%nat = false) by (apply Nat.ltb_ge; lia). rewrite E. reflexivity.
Qed.
Lemma fill_yields_spec rng I dflt key l e : (forall n, In n (norms l) -> in_range rng n 0 /\ in_range rng n (e n)) ->
  fill_yields rng I dflt key l e = (mapi (upd_y (norms l) I dflt key e) 0 l, off (norms l) e).
Proof.
  intros H. unfold fill_yields. rewrite set_zero by (intros n Hn; rewrite norms_saved in Hn; now apply H). rewrite norms_saved.
  rewrite (fill_samples_spec rng I key (norms l) e H l _ (incl_refl _)). cbn [fst snd]. f_equal.
  pose proof (add_default_spec dflt key (I (off (norms l) e)) (saved e) (fun s => match w_norm s with Some n => I (only (norms l) n e) - I (off (norms l) e) | None => 0 end) l 0%nat) as E.
  rewrite Nat.sub_0_r in E. cbn [Nat.ltb Nat.leb] in E. exact E.
Qed.

(** * Projection on one sample *)
Definition proj (F : nat -> WSample -> res WSample) (l l' : list WSample) : Prop :=
  length l = length l' /\ forall k s, nth_error l k = Some s -> exists s', nth_error l' k = Some s' /\ F k s = Ok s'.
Lemma proj_comp F G l l1 l2 : proj F l l1 -> proj G l1 l2 -> proj (fun k s => bind (F k s) (G k)) l l2.
Proof.
  intros (E1 & H1) (E2 & H2). split; [congruence|]. intros k s Hs. destruct (H1 k s Hs) as (s1 & Hs1 & F1). destruct (H2 k s1 Hs1) as (s2 & Hs2 & F2).
  exists s2. split; [exact Hs2|]. rewrite F1. exact F2.
Qed.
Lemma proj_ext F G l l' : (forall k s, F k s = G k s) -> proj F l l' -> proj G l l'.
Proof. intros H (E & P). split; [exact E|]. intros k s Hs. destruct (P k s Hs) as (s' & A & B). exists s'. now rewrite <- H. Qed.
Lemma mapM_nth {A B} (f : A -> res B) l : forall l' , mapM f l = Ok l' -> length l = length l' /\ forall k a, nth_error l k = Some a -> exists b, nth_error l' k = Some b /\ f a = Ok b.
Proof.
  induction l as [|a l IH]; intros l' H; cbn in H.
  - injection H as <-. split; [reflexivity|]. intros [|k] a H; discriminate.
  - destruct (f a) as [b|] eqn:E; [|discriminate]. cbn in H. destruct (mapM f l) as [bs|]; [|discriminate]. injection H as <-.
    destruct (IH bs eq_refl) as (L & N). split; [cbn; now rewrite L|]. intros [|k] a' Ha; cbn in *; [injection Ha as <-; eauto|now apply N].
Qed.
Lemma proj_mapi (g : WSample -> res WSample) f l l' : mapM g (mapi f 0 l) = Ok l' -> proj (fun k s => g (f k s)) l l'.
Proof.
  intros H. apply mapM_nth in H. destruct H as (L & N). rewrite mapi_length in L. split; [exact L|]. intros k s Hs. apply N. rewrite mapi_nth, Hs. reflexivity.
Qed.
Lemma proj_map (g : WSample -> res WSample) l l' : mapM g l = Ok l' -> proj (fun _ s => g s) l l'.
Proof. intros H. apply mapM_nth in H. exact H. Qed.

(** the parts of a sample that the loops do not touch *)
Definition keeps (s s' : WSample) : Prop := w_name s' = w_name s /\ w_norm s' = w_norm s /\ w_nn s' = w_nn s /\ keys (w_imps s') = keys (w_imps s).
Lemma keys_dset_old {V} k (x y : V) d : dgetE k d = Ok y -> keys (dset k x d) = keys d.
Proof.
  unfold dgetE. induction d as [|[a v] d IH]; intros H; [discriminate|]. cbn in *. destruct (String.eqb k a) eqn:E; [apply String.eqb_eq in E; now subst|]. cbn. f_equal. now apply IH.
Qed.
Lemma keeps_refl s : keeps s s. Proof. repeat split. Qed.
Lemma keeps_trans a b c : keeps a b -> keeps b c -> keeps a c.
Proof. intros (A & B & C & G) (D & E & F & H). repeat split; congruence. Qed.
Lemma keeps_upd ns I dflt key e k s : keeps s (upd_y ns I dflt key e k s).
Proof. unfold upd_y, saved. destruct (w_norm s) eqn:E; repeat split; cbn; auto. Qed.
Definition keepsF (F : nat -> WSample -> res WSample) : Prop := forall k s s', F k s = Ok s' -> keeps s s'.

Definition nominal_ok (rng : ranges) (e0 : env) (l : list WSample) : Prop :=
  forall s n, In s l -> w_norm s = Some n -> w_nn s = e0 n /\ in_range rng n 0 /\ in_range rng n (e0 n).
Lemma norms_ext l : forall l', length l = length l' -> (forall k s, nth_error l k = Some s -> exists s', nth_error l' k = Some s' /\ w_norm s' = w_norm s) -> norms l' = norms l.
Proof.
  induction l as [|s l IH]; intros [|s' l'] L H; try discriminate; [reflexivity|].
  rewrite !norms_cons. destruct (H 0%nat s eq_refl) as (x & Hx & E). cbn in Hx. injection Hx as <-. rewrite E, (IH l'); [reflexivity|now injection L|].
  intros k t Ht. exact (H (S k) t Ht).
Qed.
Lemma proj_keeps F rng e0 l l' : keepsF F -> proj F l l' -> nominal_ok rng e0 l -> norms l' = norms l /\ nominal_ok rng e0 l'.
Proof.
  intros K (L & P) H. split.
  - apply norms_ext; [exact L|]. intros k s Hs. destruct (P k s Hs) as (s' & A & B). exists s'. split; [exact A|]. apply K in B. apply B.
  - intros s' n Hs' En. apply In_nth_error in Hs'. destruct Hs' as (k & Hk).
    assert (Hlt : (k < length l)%nat) by (rewrite L; apply nth_error_Some; congruence).
    destruct (nth_error l k) as [s|] eqn:Es; [|apply nth_error_None in Es; lia].
    destruct (P k s Es) as (s2 & A & B). rewrite Hk in A. injection A as <-. apply K in B. destruct B as (_ & B1 & B2 & _).
    destruct (H s n (nth_error_In _ _ Es) ltac:(congruence)) as (E1 & E2). split; [congruence|exact E2].
Qed.

Section Conv.
Context (rng : ranges) (fmt : R -> string) (trim : R -> R) (eps : R) (I : nat -> env -> R) (nbins dflt : nat) (variations : list R)
        (valid : option (list R)) (e0 : env) (ns : list string).
(** the state between two steps *)
Definition J (st : list WSample * env) : Prop := norms (fst st) = ns /\ nominal_ok rng e0 (fst st) /\ agree ns e0 (snd st).
Definition par_ok (p : WPar) : Prop := p_nominal p = e0 (p_name p) /\ in_range rng (p_name p) (p_nominal p).

(** the programs for one sample *)
Definition P_var (b k : nat) (p : WPar) (s : WSample) (v : R) : res WSample :=
  record_impact fmt eps (p_name p) v (upd_y ns (I b) dflt "var" (put (p_name p) (clip (rng (p_name p)) (p_nominal p + v * (p_error p * eps))) e0) k s).
Definition P_valid (b k : nat) (p : WPar) (s : WSample) (v : R) : res WSample :=
  record_valid trim (p_name p) (upd_y ns (I b) dflt "valid" (put (p_name p) (clip (rng (p_name p)) (p_nominal p + v * p_error p)) e0) k s).
Definition P_par (b k : nat) (s : WSample) (p : WPar) : res WSample :=
  let! s1 := new_bin (p_name p) s in
  let! s2 := foldM (P_var b k p) variations s1 in
  match valid with None => Ok s2 | Some pts => let! s3 := new_valid_bin (p_name p) s2 in foldM (P_valid b k p) pts s3 end.
Definition P_bin (pars : list WPar) (k : nat) (s : WSample) (b : nat) : res WSample :=
  let! s1 := set_nominal trim b (upd_y ns (I b) dflt "nominal" e0 k s) in foldM (P_par b k) pars s1.

Lemma keeps_record_impact p v : keepsF (fun _ s => record_impact fmt eps p v s).
Proof.
  intros k s s' H. unfold record_impact in H. destruct (sample_impact eps s); [|discriminate]. cbn in H. destruct (dgetE p (w_imps s)) eqn:ED; [|discriminate].
  injection H as <-. repeat split. cbn. eapply keys_dset_old; exact ED.
Qed.
Lemma keeps_P_var b p v : keepsF (fun k s => P_var b k p s v).
Proof. intros k s s' H. eapply keeps_trans; [apply keeps_upd|]. exact (keeps_record_impact (p_name p) v k _ _ H). Qed.
Lemma keeps_P_valid b p v : keepsF (fun k s => P_valid b k p s v).
Proof.
  intros k s s' H. eapply keeps_trans; [apply keeps_upd|]. unfold P_valid, record_valid in H. 
  destruct (dgetE "valid" _); [|discriminate]; cbn in H; destruct (dgetE "nominal" _); [|discriminate]; cbn in H; destruct (dgetE (p_name p) _); [|discriminate]; injection H as <-. repeat split.
Qed.
Lemma keeps_fold {A} (P : nat -> WSample -> A -> res WSample) l : (forall a, keepsF (fun k s => P k s a)) -> keepsF (fun k s => foldM (P k) l s).
Proof.
  intros H k. induction l as [|a l IH]; intros s s' E; cbn in E; [injection E as <-; apply keeps_refl|].
  destruct (P k s a) as [s1|] eqn:E1; [|discriminate]. cbn in E. eapply keeps_trans; [apply (H a k s s1 E1)|now apply IH].
Qed.
Lemma keeps_new_bin p : keepsF (fun _ s => new_bin p s).
Proof. intros k s s' H. unfold new_bin in H. destruct (dgetE p (w_imps s)) eqn:ED; [|discriminate]. injection H as <-. repeat split. cbn. eapply keys_dset_old; exact ED. Qed.
Lemma keeps_new_valid p : keepsF (fun _ s => new_valid_bin p s).
Proof. intros k s s' H. unfold new_valid_bin in H. destruct (dgetE p (w_valid s)); [|discriminate]. injection H as <-. repeat split. Qed.
Lemma keeps_bind (F : nat -> WSample -> res WSample) (G : nat -> WSample -> res WSample) : keepsF F -> keepsF G -> keepsF (fun k s => bind (F k s) (G k)).
Proof. intros HF HG k s s' H. destruct (F k s) as [s1|] eqn:E; [|discriminate]. eapply keeps_trans; [eapply HF; exact E|eapply HG; exact H]. Qed.
Lemma keeps_P_par b p : keepsF (fun k s => P_par b k s p).
Proof.
  unfold P_par. apply (keeps_bind (fun _ s => new_bin (p_name p) s) (fun k s1 => let! s2 := foldM (P_var b k p) variations s1 in match valid with None => Ok s2 | Some pts => let! s3 := new_valid_bin (p_name p) s2 in foldM (P_valid b k p) pts s3 end)); [apply keeps_new_bin|].
  apply (keeps_bind (fun k s1 => foldM (P_var b k p) variations s1) (fun k s2 => match valid with None => Ok s2 | Some pts => let! s3 := new_valid_bin (p_name p) s2 in foldM (P_valid b k p) pts s3 end)).
  - apply (keeps_fold (fun k s v => P_var b k p s v)). intros v. apply keeps_P_var.
  - destruct valid as [pts|]; [|intros k s s' H; injection H as <-; apply keeps_refl].
    apply (keeps_bind (fun _ s => new_valid_bin (p_name p) s) (fun k s => foldM (P_valid b k p) pts s)); [apply keeps_new_valid|].
    apply (keeps_fold (fun k s v => P_valid b k p s v)). intros v. apply keeps_P_valid.
Qed.
Lemma keeps_P_bin pars b : keepsF (fun k s => P_bin pars k s b).
Proof.
  unfold P_bin. apply (keeps_bind (fun k s => set_nominal trim b (upd_y ns (I b) dflt "nominal" e0 k s)) (fun k s1 => foldM (P_par b k) pars s1)).
  - intros k s s' H. eapply keeps_trans; [apply keeps_upd|]. unfold set_nominal in H. destruct (dgetE "nominal" _); [|discriminate]. injection H as <-. repeat split.
  - apply (keeps_fold (fun k s p => P_par b k s p)). intros p. apply keeps_P_par.
Qed.

(** one filling of the yields with a parameter moved, and back *)
Lemma moved_step (p : WPar) (val : R) key b st : J st -> in_range rng (p_name p) (p_nominal p) -> p_nominal p = e0 (p_name p) ->
  let e1 := set_normpars rng None (fst st) (snd st) in
  let e2 := setval rng (p_name p) val e1 in
  let r := fill_yields rng (I b) dflt key (fst st) e2 in
  fst r = mapi (upd_y ns (I b) dflt key (put (p_name p) (clip (rng (p_name p)) val) e0)) 0 (fst st) /\ agree ns e0 (setval rng (p_name p) (p_nominal p) (snd r)).
Proof.
  intros (E & N & A) H2 H3. cbv zeta. rewrite (restore rng e0); [|intros s n Hs En; destruct (N s n Hs En) as (X & _ & Y); now split|now rewrite E].
  change (setval rng (p_name p) val e0) with (put (p_name p) (clip (rng (p_name p)) val) e0). rewrite fill_yields_spec; [cbn [fst snd]; rewrite E; split; [reflexivity|]|].
  - rewrite setval_put by exact H2. intros x Hx. unfold put. destruct (String.eqb x (p_name p)) eqn:Ex; [apply String.eqb_eq in Ex; now subst|].
    unfold off. apply mem_false in Hx. now rewrite Hx, Ex.
  - intros n Hn. unfold norms in Hn. apply in_flat_map in Hn. destruct Hn as (s & Hs & Hn). destruct (w_norm s) as [m|] eqn:Em; [|contradiction]. destruct Hn as [<-|[]].
    destruct (N s m Hs Em) as (_ & X & Y). split; [exact X|]. unfold put. destruct (String.eqb m (p_name p)) eqn:Ex; [apply String.eqb_eq in Ex; subst; unfold in_range; apply clip_idem|exact Y].
Qed.
Lemma var_step b p v st st' : par_ok p -> In v variations -> J st -> do_variation rng fmt eps (I b) dflt p st v = Ok st' ->
  proj (fun k s => P_var b k p s v) (fst st) (fst st') /\ J st'.
Proof.
  intros (P1 & P2) Hv HJ H. unfold do_variation in H.
  destruct (moved_step p (p_nominal p + v * (p_error p * eps)) "var" b st HJ P2 P1) as (E & A). cbv zeta in E, A.
  rewrite E in H. destruct (mapM _ _) as [l|] eqn:EM; [|discriminate]. injection H as <-. apply proj_mapi in EM. split; [exact EM|].
  destruct HJ as (J1 & J2 & J3). destruct (proj_keeps _ rng e0 _ _ (keeps_P_var b p v) EM J2) as (K1 & K2). cbn [fst snd]. split; [cbn [fst snd]; congruence|]. split; [exact K2|exact A].
Qed.
Lemma valid_step b p v pts st st' : par_ok p -> valid = Some pts -> In v pts -> J st -> do_valid rng trim (I b) dflt p st v = Ok st' ->
  proj (fun k s => P_valid b k p s v) (fst st) (fst st') /\ J st'.
Proof.
  intros (P1 & P2) Ev Hv HJ H. unfold do_valid in H.
  destruct (moved_step p (p_nominal p + v * p_error p) "valid" b st HJ P2 P1) as (E & A). cbv zeta in E, A.
  rewrite E in H. destruct (mapM _ _) as [l|] eqn:EM; [|discriminate]. injection H as <-. apply proj_mapi in EM. split; [exact EM|].
  destruct HJ as (J1 & J2 & J3). destruct (proj_keeps _ rng e0 _ _ (keeps_P_valid b p v) EM J2) as (K1 & K2). cbn [fst snd]. split; [cbn [fst snd]; congruence|]. split; [exact K2|exact A].
Qed.
Lemma fold_proj {A} (step : list WSample * env -> A -> res (list WSample * env)) (P : nat -> WSample -> A -> res WSample) l :
  (forall a st st', In a l -> J st -> step st a = Ok st' -> proj (fun k s => P k s a) (fst st) (fst st') /\ J st') ->
  forall st st', J st -> foldM step l st = Ok st' -> proj (fun k s => foldM (P k) l s) (fst st) (fst st') /\ J st'.
Proof.
  induction l as [|a l IH]; intros H st st' HJ E; cbn in E.
  - injection E as <-. split; [|exact HJ]. split; [reflexivity|]. intros k s Hs. exists s. split; [exact Hs|reflexivity].
  - destruct (step st a) as [st1|] eqn:E1; [|discriminate]. cbn in E. destruct (H a st st1 (or_introl eq_refl) HJ E1) as (P1 & J1).
    destruct (IH (fun a0 s s' Ha => H a0 s s' (or_intror Ha)) st1 st' J1 E) as (P2 & J2). split; [|exact J2].
    eapply proj_ext; [|exact (proj_comp _ _ _ _ _ P1 P2)]. intros k s. reflexivity.
Qed.
Lemma par_step b p st st' : par_ok p -> J st -> do_par rng fmt trim eps (I b) dflt variations valid st p = Ok st' ->
  proj (fun k s => P_par b k s p) (fst st) (fst st') /\ J st'.
Proof.
  intros Hp HJ H. unfold do_par in H. destruct (mapM (new_bin (p_name p)) (fst st)) as [l|] eqn:EM; [|discriminate]. cbn [bind] in H.
  apply proj_map in EM. destruct (proj_keeps _ rng e0 _ _ (keeps_new_bin (p_name p)) EM (proj1 (proj2 HJ))) as (K1 & K2).
  assert (HJ1 : J (l, snd st)) by (destruct HJ as (A & B & C); split; [cbn [fst snd]; congruence|split; assumption]).
  destruct (foldM _ variations (l, snd st)) as [st1|] eqn:E1; [|discriminate]. cbn [bind] in H.
  destruct (fold_proj _ (fun k s v => P_var b k p s v) variations (fun v s s' Hv => var_step b p v s s' Hp Hv) _ _ HJ1 E1) as (P1 & J1). cbn [fst] in P1.
  destruct valid as [pts|] eqn:Ev.
  - destruct (mapM (new_valid_bin (p_name p)) (fst st1)) as [l1|] eqn:EM1; [|discriminate]. cbn [bind] in H.
    apply proj_map in EM1. destruct (proj_keeps _ rng e0 _ _ (keeps_new_valid (p_name p)) EM1 (proj1 (proj2 J1))) as (K3 & K4).
    assert (HJ2 : J (l1, snd st1)) by (destruct J1 as (A & B & C); split; [cbn [fst snd]; congruence|split; assumption]).
    destruct (fold_proj _ (fun k s v => P_valid b k p s v) pts (fun v s s' Hv => valid_step b p v pts s s' Hp Ev Hv) _ _ HJ2 H) as (P2 & J2). cbn [fst] in P2.
    split; [|exact J2]. eapply proj_ext; [|exact (proj_comp _ _ _ _ _ (proj_comp _ _ _ _ _ EM P1) (proj_comp _ _ _ _ _ EM1 P2))].
    intros k s. unfold P_par. rewrite Ev. destruct (new_bin (p_name p) s); reflexivity.
  - injection H as <-. split; [|exact J1]. eapply proj_ext; [|exact (proj_comp _ _ _ _ _ EM P1)].
    intros k s. unfold P_par. rewrite Ev. destruct (new_bin (p_name p) s) as [s1|]; cbn [bind]; [|reflexivity]. destruct (foldM (P_var b k p) variations s1); reflexivity.
Qed.
Lemma bin_step pars b st st' : (forall p, In p pars -> par_ok p) -> J st -> do_bin rng fmt trim eps I dflt pars variations valid st b = Ok st' ->
  proj (fun k s => P_bin pars k s b) (fst st) (fst st') /\ J st'.
Proof.
  intros Hp HJ H. unfold do_bin in H. destruct HJ as (E & N & A).
  rewrite (restore rng e0) in H; [|intros s n Hs En; destruct (N s n Hs En) as (X & _ & Y); now split|now rewrite E].
  rewrite fill_yields_spec in H; [|intros n Hn; unfold norms in Hn; apply in_flat_map in Hn; destruct Hn as (s & Hs & Hn); destruct (w_norm s) as [m|] eqn:Em; [|contradiction]; destruct Hn as [<-|[]]; destruct (N s m Hs Em) as (_ & X & Y); now split].
  cbn [fst snd] in H. rewrite E in H. destruct (mapM (set_nominal trim b) _) as [l|] eqn:EM; [|discriminate]. cbn [bind] in H. apply proj_mapi in EM.
  assert (KS : keepsF (fun k s => set_nominal trim b (upd_y ns (I b) dflt "nominal" e0 k s))).
  { intros k s s' Hs. eapply keeps_trans; [apply keeps_upd|]. unfold set_nominal in Hs. destruct (dgetE "nominal" _); [|discriminate]. injection Hs as <-. repeat split. }
  destruct (proj_keeps _ rng e0 _ _ KS EM N) as (K1 & K2).
  assert (HJ1 : J (l, off ns e0)).
  { split; [cbn [fst snd]; congruence|]. split; [exact K2|]. intros x Hx. cbn. unfold off. apply mem_false in Hx. now rewrite Hx. }
  destruct (fold_proj _ (fun k s p => P_par b k s p) pars (fun p s s' Hin => par_step b p s s' (Hp p Hin)) _ _ HJ1 H) as (P1 & J1). cbn [fst] in P1.
  split; [|exact J1]. eapply proj_ext; [|exact (proj_comp _ _ _ _ _ EM P1)]. intros k s. reflexivity.
Qed.
End Conv.

Lemma reset_agree rng l : forall e x, ~ In x (norms l) -> reset_normpars rng l e x = e x.
Proof.
  induction l as [|s l IH]; intros e x H; [reflexivity|]. rewrite norms_cons in H. unfold reset_normpars in *. cbn [fold_left].
  destruct (w_norm s) as [n|]; [|now apply IH]. rewrite IH by (intros Hx; apply H; now right). unfold setval.
  destruct (String.eqb x n) eqn:E; [apply String.eqb_eq in E; subst; exfalso; apply H; now left|reflexivity].
Qed.
Lemma norms_nominal e l : norms (save_nominal e l) = norms l.
Proof. induction l as [|s l IH]; [reflexivity|]. cbn [save_nominal map]. rewrite !norms_cons. fold (save_nominal e l). rewrite IH. destruct (w_norm s) eqn:E; cbn; rewrite E; reflexivity. Qed.
Lemma norms_init n pars l : norms (map (init_sample n pars) l) = norms l.
Proof. induction l as [|s l IH]; [reflexivity|]. cbn [map]. rewrite !norms_cons, IH. reflexivity. Qed.
(** the sample at the start of the loop over bins *)
Definition start (nbins : nat) (pars : list WPar) (e : env) (s : WSample) : WSample :=
  init_sample nbins pars (match w_norm s with Some n => with_nn (e n) s | None => s end).

Theorem channel_spec rng fmt trim eps I nbins dflt pars variations valid samples e l' e' :
  (forall n, In n (norms samples) -> in_range rng n 0 /\ in_range rng n (e n)) ->
  (forall p, In p pars -> par_ok rng e p) ->
  fill_channel_yields rng fmt trim eps I nbins dflt pars variations valid samples e = Ok (l', e') ->
  e' = e /\ proj (fun k s => foldM (P_bin rng fmt trim eps I dflt variations valid e (norms samples) pars k) (seq 0 nbins) (start nbins pars e s)) samples l'.
Proof.
  intros Hn Hp H. unfold fill_channel_yields in H. cbv zeta in H.
  set (l0 := save_nominal e samples) in *. set (l1 := map (init_sample nbins pars) l0) in *. set (e1 := reset_normpars rng l0 (set_normpars rng (Some 0) l0 e)) in *.
  assert (EN : norms l0 = norms samples) by apply norms_nominal. assert (EN1 : norms l1 = norms samples) by (unfold l1; rewrite norms_init; exact EN).
  assert (Hs : set_normpars rng (Some 0) l0 e = off (norms samples) e) by (rewrite set_zero; [now rewrite EN|intros n X; rewrite EN in X; now apply Hn]).
  assert (HJ : J rng e (norms samples) (l1, e1)).
  { split; [exact EN1|]. split.
    - intros s n Hin En. cbn [fst] in Hin. unfold l1, l0, save_nominal in Hin. rewrite map_map in Hin. apply in_map_iff in Hin. destruct Hin as (s0 & <- & Hs0).
      cbn in En. destruct (w_norm s0) as [m|] eqn:Em; [|congruence]. cbn in En. rewrite Em in En. injection En as <-. cbn. split; [reflexivity|]. apply Hn. now apply (in_norms s0).
    - intros x Hx. cbn [snd]. unfold e1. rewrite reset_agree by now rewrite EN. rewrite Hs. unfold off. apply mem_false in Hx. now rewrite Hx. }
  destruct (foldM _ (seq 0 nbins) (l1, e1)) as [st|] eqn:EF; [|discriminate]. cbn [bind] in H. injection H as <- <-.
  destruct (fold_proj rng e (norms samples) _ (fun k s b => P_bin rng fmt trim eps I dflt variations valid e (norms samples) pars k s b) (seq 0 nbins)
              (fun b s s' _ => bin_step rng fmt trim eps I dflt variations valid e (norms samples) pars b s s' Hp) _ _ HJ EF) as (P1 & (J1 & J2 & J3)).
  split.
  - apply restore; [intros s n Hin En; destruct (J2 s n Hin En) as (X & _ & Y); now split|now rewrite J1].
  - cbn [fst] in P1. destruct P1 as (L & P1). unfold l1, l0, save_nominal in L, P1. rewrite map_map in P1. rewrite !map_length in L. split; [exact L|].
    intros k s Hk. apply P1. rewrite nth_error_map, Hk. unfold start. cbn. destruct (w_norm s); reflexivity.
Qed.
