(** Facts about the command-line specifications: strings without separators, grids. *)
From Verif Require Import Py PyFacts Base Expressions Norms Sample Channels Params Core UtilTools.
Local Open Scope string_scope.
Local Open Scope list_scope.

(** [c] does not occur in [s] *)
Fixpoint free_of (c : ascii) (s : string) : Prop :=
  match s with EmptyString => True | String a r => a <> c /\ free_of c r end.
(** strings joined by a separator, as "str".join does *)
Fixpoint join (c : ascii) (l : list string) : string :=
  match l with [] => "" | [s] => s | s :: r => (s ++ String c (join c r))%string end.

Lemma split_nonempty c s : split c s <> [].
Proof. destruct s as [|a r]; cbn; [discriminate|]. destruct (Ascii.eqb a c); [discriminate|]. destruct (split c r); discriminate. Qed.
Lemma split_free c s : free_of c s -> split c s = [s].
Proof.
  induction s as [|a r IH]; intros H; [reflexivity|]. destruct H as (Ha & Hr). cbn [split]. destruct (Ascii.eqb a c) eqn:E; [apply Ascii.eqb_eq in E; contradiction|].
  now rewrite IH.
Qed.
Lemma split_app c s r : free_of c s -> split c (s ++ String c r)%string = s :: split c r.
Proof.
  induction s as [|a s IH]; intros H; cbn [append split].
  - now rewrite Ascii.eqb_refl.
  - destruct H as (Ha & Hs). destruct (Ascii.eqb a c) eqn:E; [apply Ascii.eqb_eq in E; contradiction|]. now rewrite IH.
Qed.
Lemma split_join c l : l <> [] -> (forall s, In s l -> free_of c s) -> split c (join c l) = l.
Proof.
  induction l as [|s l IH]; intros Hn Hf; [contradiction|]. destruct l as [|s2 l].
  - apply split_free, Hf. now left.
  - change (join c (s :: s2 :: l)) with (s ++ String c (join c (s2 :: l)))%string. rewrite split_app by (apply Hf; now left).
    f_equal. apply IH; [discriminate|]. intros; apply Hf; now right.
Qed.
Lemma free_app c s r : free_of c s -> free_of c r -> free_of c (s ++ r)%string.
Proof. induction s as [|a s IH]; cbn; intros H1 H2; [exact H2|]. destruct H1. split; auto. Qed.
Lemma no_space_free s : free_of " " s -> no_space s = s.
Proof. induction s as [|a s IH]; cbn; intros H; [reflexivity|]. destruct H as (Ha & Hs). destruct (Ascii.eqb a " ") eqn:E; [apply Ascii.eqb_eq in E; contradiction|]. now rewrite IH. Qed.
Lemma no_space_app s r : no_space (s ++ r)%string = (no_space s ++ no_space r)%string.
Proof. induction s as [|a s IH]; cbn; [reflexivity|]. destruct (Ascii.eqb a " "); [exact IH|]. cbn. now rewrite IH. Qed.

(** the parts of an assignment *)
Definition part (s : string) : Prop := free_of "," s /\ free_of "=" s /\ free_of " " s.
Definition write (vr : string * string) : string := (fst vr ++ String "=" (snd vr))%string.
Lemma assignments_join l : l <> [] -> (forall v r, In (v, r) l -> part v /\ part r) -> assignments (join "," (map write l)) = map (fun vr => [fst vr; snd vr]) l.
Proof.
  intros Hn Hp. unfold assignments. rewrite split_join.
  - rewrite map_map. apply map_ext_in. intros (v & r) Hi. destruct (Hp v r Hi) as ((A & B & C) & (D & E & F)). unfold write. cbn [fst snd].
    rewrite no_space_app. cbn [no_space]. change (Ascii.eqb "=" " ") with false. cbn iota. rewrite !no_space_free by assumption.
    rewrite split_app by exact B. now rewrite split_free.
  - destruct l; [contradiction|discriminate].
  - intros s Hs. apply in_map_iff in Hs as ((v & r) & <- & Hi). destruct (Hp v r Hi) as ((A & _) & (D & _)). unfold write. cbn [fst snd].
    apply free_app; [exact A|]. split; [discriminate|exact D].
Qed.

Lemma Forall2_in_right_local {A B} (P : A -> B -> Prop) l r b : Forall2 P l r -> In b r -> exists a, In a l /\ P a b.
Proof.
  induction 1 as [|x y l r H1 H2 IH]; [intros []|]. intros [<-|H]; [exists x; split; [now left|exact H1]|].
  destruct (IH H) as (a & Ha & Hp). exists a. split; [now right|exact Hp].
Qed.

(** ** Grids *)
(** all the choices of one value per parameter; the last parameter varies fastest *)
Fixpoint grid (cs : list (string * list R)) : list (dict R) :=
  match cs with
  | [] => [[]]
  | (k, vs) :: r => flat_map (fun v => map (cons (k, v)) (grid r)) vs
  end.
Definition num (kv : string * R) : string * sval := (fst kv, SNum (snd kv)).
(** the values that a parameter takes: the number given for it, or those of its specification *)
Definition choice (vs : string -> res (list R)) (kv : string * sval) (c : string * list R) : Prop :=
  fst c = fst kv /\ match snd kv with SNum x => snd c = [x] | SStr s => vs s = Ok (snd c) end.
Definition is_str (kv : string * sval) : bool := match snd kv with SStr _ => true | SNum _ => false end.
Definition nstr (svd : dict sval) : nat := length (filter is_str svd).

Lemma fold_dset_app {V} (r acc : dict V) : NoDup (keys (acc ++ r)) -> fold_left (fun d kv => dset (fst kv) (snd kv) d) r acc = acc ++ r.
Proof.
  revert acc. induction r as [|[k v] r IH]; intros acc H; cbn [fold_left fst snd]; [now rewrite app_nil_r|].
  assert (Hn : ~ In k (keys acc)).
  { unfold keys in H. rewrite map_app in H. cbn [map fst] in H. apply NoDup_remove_2 in H. intros X. apply H, in_or_app. now left. }
  rewrite dset_app_new by exact Hn. rewrite IH; [now rewrite <- app_assoc|]. now rewrite <- app_assoc.
Qed.

(** what one pass does to a dictionary *)
Definition all_num (svd : dict sval) : Prop := forall kv, In kv svd -> is_str kv = false.
Lemma first_string svd : all_num svd \/ exists pre k s r, svd = pre ++ (k, SStr s) :: r /\ all_num pre.
Proof.
  induction svd as [|[k [x|s]] r IH]; [left; intros ? []| |].
  - destruct IH as [H|(pre & k' & s & r' & -> & H)]; [left; intros kv [<-|Hi]; auto|].
    right. exists ((k, SNum x) :: pre), k', s, r'. split; [reflexivity|]. intros kv [<-|Hi]; auto.
  - right. exists [], k, s, r. split; [reflexivity|]. intros ? [].
Qed.
Lemma expand_num vs svd : forall acc, all_num svd -> NoDup (keys (acc ++ svd)) -> expand_dict vs acc svd = Ok ([acc ++ svd], false).
Proof.
  induction svd as [|[k [x|s]] r IH]; intros acc Hn Hd; cbn [expand_dict].
  - now rewrite app_nil_r.
  - assert (Hk : ~ In k (keys acc)).
    { unfold keys in Hd. rewrite map_app in Hd. cbn [map fst] in Hd. apply NoDup_remove_2 in Hd. intros X. apply Hd, in_or_app. now left. }
    rewrite dset_app_new by exact Hk. rewrite IH; [now rewrite <- app_assoc|intros kv Hi; apply Hn; now right|now rewrite <- app_assoc].
  - specialize (Hn _ (or_introl eq_refl)). discriminate.
Qed.
Lemma expand_str vs pre k s r : forall acc, all_num pre -> NoDup (keys (acc ++ pre ++ (k, SStr s) :: r)) ->
  expand_dict vs acc (pre ++ (k, SStr s) :: r) = let! l := vs s in Ok (map (fun v => acc ++ pre ++ (k, SNum v) :: r) l, true).
Proof.
  induction pre as [|[k0 [x|s0]] pre IH]; intros acc Hn Hd; cbn [app expand_dict].
  - destruct (vs s) as [l|e]; cbn [bind]; [|reflexivity]. f_equal. f_equal. apply map_ext. intros v.
    assert (Hk : ~ In k (keys acc)).
    { unfold keys in Hd. rewrite map_app in Hd. cbn [map fst app] in Hd. apply NoDup_remove_2 in Hd. intros X. apply Hd, in_or_app. now left. }
    rewrite dset_app_new by exact Hk. rewrite fold_dset_app; [now rewrite <- app_assoc|]. rewrite <- app_assoc. cbn [app] in *.
    unfold keys in *. rewrite map_app in *. exact Hd.
  - assert (Hk : ~ In k0 (keys acc)).
    { unfold keys in Hd. rewrite map_app in Hd. cbn [map fst app] in Hd. apply NoDup_remove_2 in Hd. intros X. apply Hd, in_or_app. now left. }
    rewrite dset_app_new by exact Hk. rewrite IH; [|intros kv Hi; apply Hn; now right|rewrite <- app_assoc; exact Hd].
    destruct (vs s) as [l|e]; cbn [bind]; [|reflexivity]. f_equal. f_equal. apply map_ext. intros v. now rewrite <- app_assoc.
  - specialize (Hn _ (or_introl eq_refl)). discriminate.
Qed.
Lemma grid_split pre k vs r : (forall c, In c pre -> length (snd c) = 1%nat) -> grid (pre ++ (k, vs) :: r) = concat (map (fun v => grid (pre ++ (k, [v]) :: r)) vs).
Proof.
  induction pre as [|[k0 l0] pre IH]; intros H; cbn [app grid].
  - rewrite flat_map_concat_map. apply (f_equal (@concat _)). apply map_ext. intros v. cbn [flat_map]. now rewrite app_nil_r.
  - assert (L : length l0 = 1%nat) by (apply (H (k0, l0)); now left). destruct l0 as [|x [|]]; try discriminate. cbn [flat_map]. rewrite app_nil_r.
    rewrite IH by (intros; apply H; now right). rewrite concat_map, map_map. apply (f_equal (@concat _)). apply map_ext. intros v. cbn [flat_map]. now rewrite app_nil_r.
Qed.
Lemma grid_num vs svd cs : all_num svd -> Forall2 (choice vs) svd cs -> map (map num) (grid cs) = [svd].
Proof.
  intros Hn H. induction H as [|[k v] [k' l] svd cs (Hk & Hv) H IH]; [reflexivity|]. cbn [fst snd] in *. subst k'.
  destruct v as [x|s]; [|specialize (Hn _ (or_introl eq_refl)); discriminate]. subst l. cbn [grid flat_map]. rewrite app_nil_r, map_map. cbn [map].
  assert (E : map (fun d => num (k, x) :: map num d) (grid cs) = map (cons (k, SNum x)) (map (map num) (grid cs))) by (rewrite map_map; reflexivity).
  rewrite E, IH by (intros kv Hi; apply Hn; now right). reflexivity.
Qed.

Lemma nstr_app a b : nstr (a ++ b) = (nstr a + nstr b)%nat.
Proof. unfold nstr. now rewrite filter_app, app_length. Qed.
Lemma nstr_num svd : all_num svd -> nstr svd = 0%nat.
Proof. intros H. unfold nstr. induction svd as [|kv r IH]; [reflexivity|]. cbn. rewrite (H kv (or_introl eq_refl)). apply IH. intros x Hx; apply H; now right. Qed.
Lemma nstr_0 svd : nstr svd = 0%nat -> all_num svd.
Proof.
  unfold nstr. induction svd as [|kv r IH]; intros H; [intros ? []|]. cbn in H. destruct (is_str kv) eqn:E; [discriminate|]. intros x [<-|Hi]; auto. now apply IH.
Qed.

(** one pass over one dictionary, for valid specifications *)
Lemma one_pass vs svd cs : NoDup (keys svd) -> Forall2 (choice vs) svd cs -> exists l b css,
  expand_dict vs [] svd = Ok (l, b) /\ Forall2 (Forall2 (choice vs)) l css /\ concat (map grid css) = grid cs /\
  (forall d, In d l -> NoDup (keys d) /\ (S (nstr d) <= nstr svd \/ nstr d = 0)%nat) /\ (b = false -> l = [svd] /\ all_num svd).
Proof.
  intros Hd Hc. destruct (first_string svd) as [Hn|(pre & k & s & r & -> & Hn)].
  - exists [svd], false, [cs]. rewrite expand_num by assumption. split; [reflexivity|]. split; [repeat constructor; exact Hc|]. split; [cbn; now rewrite app_nil_r|].
    split; [|auto]. intros d [<-|[]]. split; [exact Hd|]. right. now apply nstr_num.
  - apply Forall2_app_inv_l in Hc as (cp & cr0 & Hcp & Hcr & ->). inversion Hcr as [|? [k' l] ? cr (Hk & Hl) Hcr']; subst. cbn [fst snd] in *. subst k'.
    exists (map (fun v => pre ++ (k, SNum v) :: r) l), true, (map (fun v => cp ++ (k, [v]) :: cr) l).
    rewrite expand_str by assumption. rewrite Hl. cbn [bind app]. split; [reflexivity|]. split; [|split; [|split; [|discriminate]]].
    + clear Hl Hcr. induction l as [|v l IH]; constructor; [|exact IH]. apply Forall2_app; [exact Hcp|]. constructor; [split; reflexivity|exact Hcr'].
    + rewrite map_map. symmetry. apply grid_split. intros c Hi. destruct (Forall2_in_right_local _ _ _ _ Hcp Hi) as (kv & Hkv & (E & Hv)). specialize (Hn kv Hkv). unfold is_str in Hn. destruct (snd kv); [now rewrite Hv|discriminate].
    + intros d Hi. apply in_map_iff in Hi as (v & <- & _). split.
      * unfold keys in *. rewrite map_app in *. exact Hd.
      * left. rewrite !nstr_app. change (nstr ((k, SStr s) :: r)) with (S (nstr r)). change (nstr ((k, SNum v) :: r)) with (nstr r). lia.
Qed.

Lemma setval_dicts_grid vs n : forall l css fuel, (n < fuel)%nat -> (forall svd, In svd l -> NoDup (keys svd) /\ (nstr svd <= n)%nat) ->
  Forall2 (Forall2 (choice vs)) l css -> setval_dicts fuel vs l = Ok (map (map num) (concat (map grid css))).
Proof.
  induction n as [n IH] using lt_wf_ind. intros l css fuel Hf Hl Hc. destruct fuel as [|fuel]; [lia|]. cbn [setval_dicts].
  assert (P : exists r css', mapM (expand_dict vs []) l = Ok r /\ Forall2 (Forall2 (choice vs)) (concat (map fst r)) css' /\ concat (map grid css') = concat (map grid css) /\
     (forall d, In d (concat (map fst r)) -> NoDup (keys d) /\ ((S (nstr d) <= n)%nat \/ nstr d = 0%nat)) /\ (existsb snd r = false -> concat (map fst r) = l /\ forall svd, In svd l -> all_num svd)).
  { clear IH Hf. induction Hc as [|svd cs l css H1 H2 IH2].
    - exists [], []. cbn. repeat split; try constructor; try contradiction. 
    - destruct (Hl svd (or_introl eq_refl)) as (Hd & Hn). destruct (one_pass vs svd cs Hd H1) as (ls & b & c1 & E1 & F1 & G1 & D1 & B1).
      destruct IH2 as (r & c2 & E2 & F2 & G2 & D2 & B2); [intros; apply Hl; now right|].
      exists ((ls, b) :: r), (c1 ++ c2). cbn [mapM]. rewrite E1, E2. cbn [bind map fst concat existsb snd]. split; [reflexivity|].
      split; [now apply Forall2_app|]. split; [rewrite map_app, concat_app; now rewrite G1, G2|]. split.
      + intros d Hi. apply in_app_or in Hi as [Hi|Hi]; [|now apply D2]. destruct (D1 d Hi) as (A & [B|B]); (split; [exact A|]); [left; lia|now right].
      + intros Hb. apply orb_false_iff in Hb as (-> & Hb). destruct (B1 eq_refl) as (-> & A1). destruct (B2 Hb) as (B3 & A2). rewrite B3. split; [reflexivity|]. intros x [<-|Hx]; auto. }
  destruct P as (r & css' & E & F & G & D & B). rewrite E. cbn [bind]. destruct (existsb snd r) eqn:Eb.
  - destruct n as [|n].
    + (* no string at all: nothing was expanded *) exfalso.
      assert (A : forall svd, In svd l -> all_num svd) by (intros svd Hi; apply nstr_0; destruct (Hl svd Hi); lia).
      clear -A E Eb Hl. revert r E Eb. induction l as [|svd l IHl]; intros r E Eb; cbn [mapM] in E; [inversion E; subst; discriminate|].
      rewrite expand_num in E; [|apply A; now left|apply Hl; now left]. cbn [bind] in E. apply bind_Ok in E as (r2 & E2 & E). inversion E; subst r. cbn in Eb.
      apply (IHl ltac:(intros; apply Hl; now right) ltac:(intros; apply A; now right) r2 E2 Eb).
    + rewrite <- G. apply (IH n ltac:(lia)); [lia| |exact F]. intros d Hi. destruct (D d Hi) as (A & [X|X]); split; auto; lia.
  - destruct (B eq_refl) as (B1 & B2). rewrite B1. f_equal. clear -Hc B2. induction Hc as [|svd cs l css H1 H2 IH]; [reflexivity|]. cbn [map concat]. rewrite map_app.
    pose proof (grid_num vs svd cs (B2 svd (or_introl eq_refl)) H1) as Q. unfold dict in *. rewrite Q. cbn [app]. f_equal. apply IH. intros; apply B2; now right.
Qed.
