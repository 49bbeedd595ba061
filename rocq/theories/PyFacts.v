(** Lemmas about the runtime vocabulary of Py.v *)
From Verif Require Import Py.

Lemma bind_Ok {A B} (x : res A) (f : A -> res B) b : bind x f = Ok b -> exists a, x = Ok a /\ f a = Ok b.
Proof. destruct x as [a|e]; cbn; intros H; [eauto|discriminate]. Qed.

(** invert a successful do-block into its steps *)
Ltac inv_bind H :=
  repeat match type of H with
  | bind _ _ = Ok _ =>
    let a := fresh "v" in let Ha := fresh "Hv" in
    apply bind_Ok in H; destruct H as [a [Ha H]]
  end.

Lemma dget_dset_eq {V} k (v : V) d : dget k (dset k v d) = Some v.
Proof.
  induction d as [|[k' v'] d IH]; cbn [dset dget].
  - rewrite String.eqb_refl; reflexivity.
  - destruct (String.eqb k k') eqn:E; cbn [dget]; rewrite E; auto.
Qed.

Lemma dget_dset_neq {V} k k' (v : V) d : k <> k' -> dget k (dset k' v d) = dget k d.
Proof.
  intros Hn; induction d as [|[k2 v2] d IH]; cbn [dset dget].
  - apply String.eqb_neq in Hn; rewrite Hn; reflexivity.
  - destruct (String.eqb k' k2) eqn:E; cbn [dget].
    + apply String.eqb_eq in E; subst k2. apply String.eqb_neq in Hn; rewrite Hn; reflexivity.
    + destruct (String.eqb k k2); auto.
Qed.

Lemma dget_In {V} k (v : V) d : dget k d = Some v -> In (k, v) d.
Proof.
  induction d as [|[k2 v2] d IH]; cbn [dget]; intros H; [discriminate|].
  destruct (String.eqb k k2) eqn:E.
  - apply String.eqb_eq in E; inversion H; subst; left; reflexivity.
  - right; auto.
Qed.

Lemma In_dget {V} k (v : V) d : NoDup (keys d) -> In (k, v) d -> dget k d = Some v.
Proof.
  induction d as [|[k2 v2] d IH]; intros Hd Hin; [destruct Hin|].
  cbn [keys map fst] in Hd; inversion Hd as [|a b Hn Hd']; subst.
  destruct Hin as [H|H].
  - inversion H; subst. cbn [dget]; rewrite String.eqb_refl; reflexivity.
  - cbn [dget]. destruct (String.eqb k k2) eqn:E; auto.
    apply String.eqb_eq in E; subst. exfalso; apply Hn.
    unfold keys; change k2 with (fst (k2, v)); apply in_map; exact H.
Qed.

Lemma dget_None {V} k (d : dict V) : dget k d = None <-> ~ In k (keys d).
Proof.
  induction d as [|[k2 v2] d IH]; cbn [dget keys map fst].
  - split; auto.
  - destruct (String.eqb k k2) eqn:E.
    + apply String.eqb_eq in E; subst; split; [discriminate|intros H; exfalso; apply H; left; reflexivity].
    + apply String.eqb_neq in E. rewrite IH. cbn [In]. split; intros H; [intros [C|C]; [congruence|auto]|auto].
Qed.

Lemma dmem_spec {V} k (d : dict V) : dmem k d = true <-> In k (keys d).
Proof.
  unfold dmem. destruct (dget k d) eqn:E.
  - split; auto. intros _. apply dget_In in E. change k with (fst (k, v)). apply in_map; exact E.
  - split; [discriminate|]. intros H; apply dget_None in E; contradiction.
Qed.

Lemma dset_app_new {V} k (v : V) d : ~ In k (keys d) -> dset k v d = d ++ [(k, v)].
Proof.
  induction d as [|[k2 v2] d IH]; cbn [dset keys map fst In app]; intros H; [reflexivity|].
  destruct (String.eqb k k2) eqn:E.
  - apply String.eqb_eq in E; subst; exfalso; apply H; left; reflexivity.
  - f_equal. apply IH. intros C; apply H; right; exact C.
Qed.

Lemma keys_dset {V} k (v : V) d : In k (keys d) -> keys (dset k v d) = keys d.
Proof.
  induction d as [|[k2 v2] d IH]; cbn [dset keys map fst In]; intros H; [destruct H|].
  destruct (String.eqb k k2) eqn:E; cbn [map fst]; [reflexivity|].
  f_equal. apply IH. destruct H as [H|H]; [|exact H].
  apply String.eqb_neq in E; congruence.
Qed.

Lemma NoDup_keys_dset {V} k (v : V) d : NoDup (keys d) -> NoDup (keys (dset k v d)).
Proof.
  intros H. destruct (in_dec String.string_dec k (keys d)) as [Hi|Hn].
  - rewrite keys_dset; auto.
  - rewrite dset_app_new by exact Hn. unfold keys. rewrite map_app. cbn [map fst].
    apply NoDup_rev in H. rewrite <- (rev_involutive (map fst d ++ [k])).
    apply NoDup_rev. rewrite rev_app_distr. cbn [rev app]. constructor; auto.
    intros C; apply in_rev in C; apply Hn; exact C.
Qed.

Lemma dget_dremove_neq {V} k k' (d : dict V) : k <> k' -> dget k (dremove k' d) = dget k d.
Proof.
  intros Hn; induction d as [|[k2 v2] d IH]; cbn [dremove dget]; [reflexivity|].
  destruct (String.eqb k' k2) eqn:E.
  - apply String.eqb_eq in E; subst. apply String.eqb_neq in Hn; rewrite Hn; reflexivity.
  - cbn [dget]. destruct (String.eqb k k2); auto.
Qed.

Lemma dget_dremove_eq {V} k (d : dict V) : NoDup (keys d) -> dget k (dremove k d) = None.
Proof.
  induction d as [|[k2 v2] d IH]; cbn [dremove dget keys map fst]; intros H; [reflexivity|].
  inversion H as [|a b Hn Hd]; subst.
  destruct (String.eqb k k2) eqn:E.
  - apply String.eqb_eq in E; subst. apply dget_None; exact Hn.
  - cbn [dget]. rewrite E. apply IH; exact Hd.
Qed.

Lemma keys_dremove_in {V} k x (d : dict V) : In x (keys (dremove k d)) -> In x (keys d).
Proof.
  induction d as [|[k2 v2] d IH]; cbn [dremove keys map fst]; [auto|].
  destruct (String.eqb k k2); cbn [map fst In]; intros H; [right; exact H|].
  destruct H as [H|H]; [left; exact H|right; apply IH; exact H].
Qed.

Lemma NoDup_keys_dremove {V} k (d : dict V) : NoDup (keys d) -> NoDup (keys (dremove k d)).
Proof.
  induction d as [|[k2 v2] d IH]; cbn [dremove keys map fst]; intros H; [constructor|].
  inversion H as [|a b Hn Hd]; subst.
  destruct (String.eqb k k2); [exact Hd|].
  cbn [map fst]. constructor; [|apply IH; exact Hd].
  intros C; apply keys_dremove_in in C; contradiction.
Qed.

(** sums *)
Lemma lsum_app l m : lsum (l ++ m) = lsum l + lsum m.
Proof. induction l as [|x l IH]; cbn [lsum app]; [ring|rewrite IH; ring]. Qed.

Lemma lsum_map_plus {A} (f g : A -> R) l : lsum (map (fun x => f x + g x) l) = lsum (map f l) + lsum (map g l).
Proof. induction l as [|x l IH]; cbn [lsum map]; [ring|rewrite IH; ring]. Qed.

Lemma lsum_map_scal {A} c (f : A -> R) l : lsum (map (fun x => c * f x) l) = c * lsum (map f l).
Proof. induction l as [|x l IH]; cbn [lsum map]; [ring|rewrite IH; ring]. Qed.

Lemma lsum_nonneg l : (forall x, In x l -> 0 <= x) -> 0 <= lsum l.
Proof.
  induction l as [|x l IH]; cbn [lsum]; intros H; [lra|].
  assert (0 <= x) by (apply H; left; reflexivity).
  assert (0 <= lsum l) by (apply IH; intros y Hy; apply H; right; exact Hy). lra.
Qed.

Lemma rsum_ext n f g : (forall i, (i < n)%nat -> f i = g i) -> rsum n f = rsum n g.
Proof.
  induction n as [|n IH]; cbn [rsum]; intros H; [reflexivity|].
  rewrite IH by (intros i Hi; apply H; lia). rewrite H by lia. reflexivity.
Qed.

Lemma rsum_plus n f g : rsum n (fun i => f i + g i) = rsum n f + rsum n g.
Proof. induction n as [|n IH]; cbn [rsum]; [ring|rewrite IH; ring]. Qed.

Lemma rsum_minus n f g : rsum n (fun i => f i - g i) = rsum n f - rsum n g.
Proof. induction n as [|n IH]; cbn [rsum]; [ring|rewrite IH; ring]. Qed.

Lemma rsum_opp n f : rsum n (fun i => - f i) = - rsum n f.
Proof. induction n as [|n IH]; cbn [rsum]; [ring|rewrite IH; ring]. Qed.

Lemma rsum_scal n c f : rsum n (fun i => c * f i) = c * rsum n f.
Proof. induction n as [|n IH]; cbn [rsum]; [ring|rewrite IH; ring]. Qed.

Lemma rsum_scal_r n c f : rsum n (fun i => f i * c) = rsum n f * c.
Proof. induction n as [|n IH]; cbn [rsum]; [ring|rewrite IH; ring]. Qed.

Lemma rsum_0 n : rsum n (fun _ => 0) = 0.
Proof. induction n as [|n IH]; cbn [rsum]; [ring|rewrite IH; ring]. Qed.

Lemma rsum_const n c : rsum n (fun _ => c) = INR n * c.
Proof. induction n as [|n IH]; cbn [rsum]; [simpl; ring|rewrite IH, S_INR; ring]. Qed.

Lemma rsum_eq0 n f : (forall i, (i < n)%nat -> f i = 0) -> rsum n f = 0.
Proof. intros H. rewrite (rsum_ext n f (fun _ => 0) H). apply rsum_0. Qed.

Lemma rsum_le n f g : (forall i, (i < n)%nat -> f i <= g i) -> rsum n f <= rsum n g.
Proof.
  induction n as [|n IH]; cbn [rsum]; intros H; [lra|].
  assert (rsum n f <= rsum n g) by (apply IH; intros i Hi; apply H; lia).
  assert (f n <= g n) by (apply H; lia). lra.
Qed.

Lemma rsum_nonneg n f : (forall i, (i < n)%nat -> 0 <= f i) -> 0 <= rsum n f.
Proof. intros H. rewrite <- (rsum_0 n). apply rsum_le. exact H. Qed.

Lemma rsum_swap n m f : rsum n (fun i => rsum m (fun j => f i j)) = rsum m (fun j => rsum n (fun i => f i j)).
Proof.
  induction n as [|n IH]; cbn [rsum].
  - symmetry; apply rsum_eq0; auto.
  - rewrite IH. rewrite <- rsum_plus. apply rsum_ext; intros; cbn [rsum]; ring.
Qed.

Lemma rsum_split n m f : rsum (n + m) f = rsum n f + rsum m (fun i => f (n + i)%nat).
Proof.
  induction m as [|m IH]; [rewrite Nat.add_0_r; cbn [rsum]; ring|].
  rewrite Nat.add_succ_r. cbn [rsum]. rewrite IH. ring.
Qed.

Lemma rsum_single n k f : (k < n)%nat -> (forall i, (i < n)%nat -> i <> k -> f i = 0) -> rsum n f = f k.
Proof.
  induction n as [|n IH]; intros Hk H; [lia|]. cbn [rsum].
  destruct (Nat.eq_dec k n) as [->|Hn].
  - rewrite rsum_eq0 by (intros i Hi; apply H; lia). ring.
  - rewrite IH by (try lia; intros i Hi Hne; apply H; lia). rewrite (H n) by lia. ring.
Qed.

Lemma lsum_seq n f : lsum (map f (seq 0 n)) = rsum n f.
Proof.
  induction n as [|n IH]; [reflexivity|].
  rewrite seq_S, map_app, lsum_app, IH. cbn [map lsum rsum Nat.add]. ring.
Qed.

Lemma nth_map_lt {A B} (f : A -> B) l i da db : (i < length l)%nat -> nth i (map f l) db = f (nth i l da).
Proof.
  intros H. rewrite (nth_indep _ db (f da)) by (rewrite map_length; exact H). apply map_nth.
Qed.

Lemma nth_error_length {A} (l : list A) i : (i < length l)%nat -> exists a, nth_error l i = Some a.
Proof.
  intros H. destruct (nth_error l i) eqn:E; [eauto|].
  apply nth_error_None in E; lia.
Qed.

Lemma zipwith_length {A B C} (f : A -> B -> C) l m : length (zipwith f l m) = Nat.min (length l) (length m).
Proof. revert m; induction l as [|a l IH]; intros [|b m]; cbn [zipwith length Nat.min]; auto. Qed.

Lemma nth_error_zipwith {A B C} (f : A -> B -> C) l m i :
  nth_error (zipwith f l m) i =
  match nth_error l i, nth_error m i with Some a, Some b => Some (f a b) | _, _ => None end.
Proof.
  revert m i; induction l as [|a l IH]; intros [|b m] [|i]; cbn [zipwith nth_error]; auto.
  destruct (nth_error l i); reflexivity.
Qed.

Lemma mapM_Ok_length {A B} (f : A -> res B) l r : mapM f l = Ok r -> length r = length l.
Proof.
  revert r; induction l as [|a l IH]; cbn [mapM]; intros r H; [inversion H; reflexivity|].
  destruct (f a) as [b|e]; cbn [bind] in H; [|discriminate].
  destruct (mapM f l) as [bs|e]; cbn [bind] in H; [|discriminate].
  inversion H; cbn [length]; f_equal; apply IH; reflexivity.
Qed.

Lemma mapM_Ok_ext {A B} (f : A -> res B) (g : A -> B) l :
  (forall a, In a l -> f a = Ok (g a)) -> mapM f l = Ok (map g l).
Proof.
  induction l as [|a l IH]; cbn [mapM map]; intros H; [reflexivity|].
  rewrite H by (left; reflexivity). cbn [bind]. rewrite IH by (intros x Hx; apply H; right; exact Hx). reflexivity.
Qed.

Lemma mapM_app {A B} (f : A -> res B) l m :
  mapM f (l ++ m) = let! a := mapM f l in let! b := mapM f m in Ok (a ++ b).
Proof.
  induction l as [|x l IH]; cbn [mapM app bind].
  - destruct (mapM f m); reflexivity.
  - destruct (f x); cbn [bind]; auto. rewrite IH. destruct (mapM f l); cbn [bind]; auto.
    destruct (mapM f m); reflexivity.
Qed.

Lemma mapM_Forall2 {A B} (f : A -> res B) l r : mapM f l = Ok r -> Forall2 (fun a b => f a = Ok b) l r.
Proof.
  revert r; induction l as [|a l IH]; cbn [mapM]; intros r H; [inversion H; constructor|].
  apply bind_Ok in H; destruct H as (b & Hb & H). apply bind_Ok in H; destruct H as (bs & Hbs & H).
  inversion H; subst. constructor; auto.
Qed.

Lemma Forall2_mapM {A B} (f : A -> res B) l r : Forall2 (fun a b => f a = Ok b) l r -> mapM f l = Ok r.
Proof. induction 1 as [|a b l r Ha Hr IH]; cbn [mapM]; [reflexivity|]. rewrite Ha; cbn [bind]; rewrite IH; reflexivity. Qed.

Lemma Forall2_map_eq {A B C} (f : A -> C) (g : B -> C) l r :
  Forall2 (fun a b => f a = g b) l r -> map f l = map g r.
Proof. induction 1; cbn [map]; congruence. Qed.

Lemma Forall2_impl_in {A B} (P Q : A -> B -> Prop) l r :
  (forall a b, In a l -> P a b -> Q a b) -> Forall2 P l r -> Forall2 Q l r.
Proof.
  intros H HF; induction HF as [|a b l r Ha Hr IH]; constructor.
  - apply H; [left; reflexivity|exact Ha].
  - apply IH; intros; apply H; [right|]; assumption.
Qed.

Lemma Forall2_in_l {A B} (P : A -> B -> Prop) l r a : Forall2 P l r -> In a l -> exists b, In b r /\ P a b.
Proof.
  induction 1 as [|x y l r Hx Hr IH]; intros Hin; [destruct Hin|]. destruct Hin as [<-|Hin].
  - exists y; split; [left|]; auto.
  - destruct (IH Hin) as (b & Hb & HP); exists b; split; [right|]; auto.
Qed.

Lemma NoDup_app_r {A} (l m : list A) : NoDup (l ++ m) -> NoDup m.
Proof. induction l as [|a l IH]; cbn [app]; intros H; [exact H|inversion H; auto]. Qed.
Lemma NoDup_app_l {A} (l m : list A) : NoDup (l ++ m) -> NoDup l.
Proof.
  induction l as [|a l IH]; cbn [app]; intros H; [constructor|]. inversion H as [|x y H1 H2]; subst.
  constructor; [intros C; apply H1; apply in_or_app; left; exact C|apply IH; exact H2].
Qed.
Lemma NoDup_app_disj {A} (l m : list A) x : NoDup (l ++ m) -> In x l -> ~ In x m.
Proof.
  induction l as [|a l IH]; cbn [app]; intros H Hx; [destruct Hx|]. inversion H as [|y z H1 H2]; subst.
  destruct Hx as [->|Hx]; [|apply IH; auto]. intros C; apply H1; apply in_or_app; right; exact C.
Qed.
