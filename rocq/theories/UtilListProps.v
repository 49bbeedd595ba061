(** C61: the grids obtained from a command-line specification. *)
From Verif Require Import Py PyFacts Base Expressions Norms Sample Channels Params Core UtilTools UtilFacts UtilProps.
Local Open Scope string_scope.
Local Open Scope list_scope.

(** Nothing is missing: every assignment that keeps the numbers of one of the given lists and takes for every other
    parameter a value of its specification is produced. *)
Theorem C61_nothing_missing : forall vs fuel l r, (forall svd, In svd l -> NoDup (keys svd)) -> setval_dicts fuel vs l = Ok r ->
  forall svd d, In svd l -> Forall2 (instance_of vs) d svd -> In d r.
Proof.
  intros vs. induction fuel as [|f IH]; intros l r Hd H svd d Hi Hf; [discriminate|]. cbn [setval_dicts] in H. apply bind_Ok in H as (p & Hp & H).
  apply mapM_Forall2 in Hp. destruct (Forall2_in_l _ _ _ _ Hp Hi) as ([ls b] & Hin & He).
  assert (Hd' : forall x, In x (concat (map fst p)) -> NoDup (keys x)).
  { intros x Hx. apply in_concat in Hx as (ls' & Hls & Hx). apply in_map_iff in Hls as ([ls2 b2] & <- & Hin2). cbn [fst] in Hx.
    destruct (Forall2_in_right_local _ _ _ _ Hp Hin2) as (svd2 & Hs2 & He2). apply (expand_sound vs svd2 ls2 b2 x (Hd _ Hs2) He2 Hx). }
  destruct (first_string svd) as [Hn|(pre & k & s & q & -> & Hn)].
  - rewrite expand_num in He by (auto; apply Hd, Hi). inversion He; subst ls b; clear He. cbn [app] in *.
    assert (Ed : d = svd).
    { clear -Hf Hn. induction Hf as [|x y d svd H1 H2 IH]; [reflexivity|]. f_equal; [|apply IH; intros z Hz; apply Hn; now right].
      specialize (Hn y (or_introl eq_refl)). destruct H1 as (E1 & H1). destruct x as [a u], y as [a' u']; cbn in *. subst a'. f_equal. unfold is_str in Hn. cbn in Hn. destruct u'; [exact H1|discriminate]. }
    subst d. assert (Hc : In svd (concat (map fst p))) by (apply in_concat; exists [svd]; split; [apply in_map_iff; exists ([svd], false); auto|now left]).
    destruct (existsb snd p); [eapply IH; eauto|]. inversion H; subst r. exact Hc.
  - rewrite expand_str in He by (auto; apply Hd, Hi). apply bind_Ok in He as (vl & Hv & He). inversion He; subst ls b; clear He. cbn [app] in *.
    apply Forall2_app_inv_r in Hf as (d1 & d2 & F1 & F2 & ->). inversion F2 as [|[k' w] ? d3 ? X1 F3]; subst. destruct X1 as (E1 & X1). cbn [fst snd] in *. destruct X1 as (vl2 & v & V1 & V2 & V3). subst k' w.
    rewrite Hv in V1. inversion V1; subst vl2; clear V1.
    assert (Eb : existsb snd p = true) by (apply existsb_exists; eexists; split; [exact Hin|reflexivity]). rewrite Eb in H.
    eapply (IH _ _ Hd' H (pre ++ (k, SNum v) :: q)).
    + apply in_concat. eexists. split; [apply in_map_iff; eexists; split; [reflexivity|exact Hin]|]. cbn [fst]. apply in_map_iff. exists v. auto.
    + apply Forall2_app; [exact F1|]. constructor; [split; reflexivity|exact F3].
Qed.
Print Assumptions C61_nothing_missing.

(** What the text written for a parameter stands for: a number, or a specification of several values *)
Definition stands_for (pf : string -> option R) (pi : string -> option Z) (s : string) (x : R) : Prop :=
  match pf s with Some y => x = y | None => exists l, values_spec pf pi s = Ok l /\ In x l end.
(** the text that counts for parameter [p] in a list of assignments: the last one of which the pattern matches its name,
    if it is a parameter of the kinds that are looked at *)
Definition written_for (rmatch : string -> string -> bool) (m : Model) (mp mn : bool) (l : list (string * string)) (p : string) : option string :=
  if existsb (String.eqb p) ((if mp then keys (m_pois m) else []) ++ (if mn then keys (m_nps m) else [])) then last_match rmatch l p None else None.
(** [d] assigns to each parameter a number for which the text written for it stands, and nothing to the others *)
Definition point_of (pf : string -> option R) (pi : string -> option Z) (rmatch : string -> string -> bool) (m : Model) (mp mn : bool)
    (l : list (string * string)) (d : dict sval) : Prop :=
  forall p, match written_for rmatch m mp mn l p with
            | None => dget p d = None
            | Some s => exists x, dget p d = Some (SNum x) /\ stands_for pf pi s x
            end.
Definition list_part (s : string) : Prop := part s /\ free_of "|" s.

Lemma instance_get vs d svd p : Forall2 (instance_of vs) d svd ->
  match dget p svd with None => dget p d = None | Some (SNum x) => dget p d = Some (SNum x) | Some (SStr s) => exists l v, vs s = Ok l /\ In v l /\ dget p d = Some (SNum v) end.
Proof.
  induction 1 as [|[k u] [k' w] d svd (E & H1) H2 IH]; [reflexivity|]. cbn [fst snd] in *. subst k'. cbn [dget]. destruct (String.eqb p k); [|exact IH].
  destruct w as [x|s]; cbn; [congruence|]. destruct H1 as (l & v & A & B & ->). eauto.
Qed.
Lemma get_instance vs (f : string -> R) svd : NoDup (keys svd) ->
  (forall p, match dget p svd with Some (SNum x) => f p = x | Some (SStr s) => exists l, vs s = Ok l /\ In (f p) l | None => True end) ->
  Forall2 (instance_of vs) (map (fun kv => (fst kv, SNum (f (fst kv)))) svd) svd.
Proof.
  intros Hd H. assert (G : forall kv, In kv svd -> instance_of vs (fst kv, SNum (f (fst kv))) kv).
  { intros [k w] Hin. specialize (H k). rewrite (In_dget _ _ _ Hd Hin) in H. split; [reflexivity|]. cbn [fst snd]. destruct w as [x|s]; [now rewrite H|]. destruct H as (l & A & B). eauto. }
  clear Hd H. induction svd as [|x svd IH]; constructor; [apply G; now left|apply IH; intros; apply G; now right].
Qed.
Lemma keys_map_num (f : string -> R) (svd : dict sval) p : dget p (map (fun kv => (fst kv, SNum (f (fst kv)))) svd) = if existsb (String.eqb p) (keys svd) then Some (SNum (f p)) else None.
Proof.
  induction svd as [|[k w] svd IH]; [reflexivity|]. unfold keys in *. cbn [map dget fst existsb]. destruct (String.eqb p k) eqn:E; [apply String.eqb_eq in E; subst; reflexivity|exact IH].
Qed.
Lemma free_join c d l : c <> d -> (forall s, In s l -> free_of c s) -> free_of c (join d l).
Proof.
  intros Hn. induction l as [|s l IH]; intros H; [exact Logic.I|]. destruct l as [|s2 l]; [apply H; now left|].
  change (join d (s :: s2 :: l)) with (s ++ String d (join d (s2 :: l)))%string. apply free_app; [apply H; now left|]. split; [congruence|]. apply IH. intros x Hx. apply H. now right.
Qed.
Lemma mapM_map_in {A B C} (g : A -> B) (f : B -> res C) l r : mapM f (map g l) = Ok r -> Forall2 (fun a c => f (g a) = Ok c) l r.
Proof.
  revert r. induction l as [|a l IH]; intros r H; cbn [map mapM] in H; [inversion H; constructor|]. apply bind_Ok in H as (x & Hx & H). apply bind_Ok in H as (y & Hy & H). inversion H; subst. constructor; [exact Hx|now apply IH].
Qed.

(** C61, from the command line: for a text made of lists of assignments separated by '|', the points returned are, up to
    the order of the parameters, exactly those obtained from one of the lists by taking for each parameter the number
    written for it, or one of the values of the ranges written for it.  The numbers are not rescaled. *)
Theorem C61_command_line : forall fuel pf pi rmatch m mp mn ls r, ls <> [] ->
  (forall l, In l ls -> l <> [] /\ forall v s, In (v, s) l -> list_part v /\ list_part s) ->
  setval_list fuel pf pi rmatch m mp mn (join "|" (map (fun l => join "," (map write l)) ls)) = Ok r ->
  (forall d, In d r -> exists l, In l ls /\ point_of pf pi rmatch m mp mn l d) /\
  (forall l d, In l ls -> point_of pf pi rmatch m mp mn l d -> exists d', In d' r /\ forall p, dget p d' = dget p d).
Proof.
  intros fuel pf pi rmatch m mp mn ls r Hn Hp H. unfold setval_list in H. rewrite split_join in H.
  2:{ destruct ls; [contradiction|discriminate]. }
  2:{ intros s Hs. apply in_map_iff in Hs as (l & <- & Hl). apply free_join; [discriminate|]. intros s Hs. apply in_map_iff in Hs as ([v t] & <- & Hi). destruct (proj2 (Hp l Hl) v t Hi) as ((_ & A) & (_ & B)).
      unfold write. cbn [fst snd]. apply free_app; [exact A|]. split; [discriminate|exact B]. }
  apply bind_Ok in H as (svds & Hs & H). apply mapM_map_in in Hs.
  assert (Hd : forall svd, In svd svds -> NoDup (keys svd)).
  { intros svd Hi. destruct (Forall2_in_right_local _ _ _ _ Hs Hi) as (l & _ & He). eapply C61_distinct_parameters, He. }
  assert (Hg : forall l svd, In l ls -> process_setvals pf rmatch m mp mn false false (join "," (map write l)) = Ok svd -> forall p, dget p svd = option_map (value_of pf) (written_for rmatch m mp mn l p)).
  { intros l svd Hl He p. destruct (Hp l Hl) as (N & Q). rewrite (C62_assignments pf rmatch m mp mn false l svd N ltac:(intros v t Hi; destruct (Q v t Hi) as ((A & _) & (B & _)); auto) He p). unfold written_for.
    match goal with |- context [existsb ?a ?b] => destruct (existsb a b) end; reflexivity. }
  split.
  - intros d Hi. destruct (C61_nothing_else _ _ _ _ Hd H d Hi) as (svd & Hsv & F). destruct (Forall2_in_right_local _ _ _ _ Hs Hsv) as (l & Hl & He). exists l. split; [exact Hl|].
    intros p. pose proof (instance_get _ _ _ p F) as G. rewrite (Hg l svd Hl He p) in G. destruct (written_for rmatch m mp mn l p) as [s|]; [|exact G]. cbn [option_map] in G. unfold value_of, stands_for in *.
    destruct (pf s) as [x|]; [eauto|]. destruct G as (vl & v & A & B & C). eauto.
  - intros l d Hl Hpt. destruct (Forall2_in_l _ _ _ _ Hs Hl) as (svd & Hsv & He).
    set (f := fun p => match dget p d with Some (SNum x) => x | _ => 0%R end). exists (map (fun kv => (fst kv, SNum (f (fst kv)))) svd). split.
    + eapply C61_nothing_missing; [exact Hd|exact H|exact Hsv|]. apply get_instance; [now apply Hd|]. intros p. rewrite (Hg l svd Hl He p). specialize (Hpt p). unfold stands_for in Hpt.
      destruct (written_for rmatch m mp mn l p) as [s|]; cbn [option_map]; [|exact Logic.I]. destruct Hpt as (x & D & S). unfold value_of, f. rewrite D. destruct (pf s); exact S.
    + intros p. rewrite keys_map_num. pose proof (Hg l svd Hl He p) as G. specialize (Hpt p). destruct (written_for rmatch m mp mn l p) as [s|]; cbn [option_map] in G.
      * destruct Hpt as (x & D & _). assert (E : existsb (String.eqb p) (keys svd) = true) by (apply existsb_exists; exists p; split; [apply dget_In in G; unfold keys; apply in_map_iff; eexists; split; [|exact G]; reflexivity|apply String.eqb_refl]).
        rewrite E. unfold f. now rewrite D.
      * apply dget_None in G. assert (E : existsb (String.eqb p) (keys svd) = false). { destruct (existsb (String.eqb p) (keys svd)) eqn:E; [|reflexivity]. apply existsb_exists in E as (q & Q1 & Q2). apply String.eqb_eq in Q2. subst q. contradiction. }
        now rewrite E, Hpt.
Qed.
Print Assumptions C61_command_line.

Definition eqmatch (spec name : string) : bool := String.eqb spec (name ++ "$").
Definition ul_model : Model := mkModel "m" None [("mu", mkPOI (Some "mu") (Some 0%R) (Some 10%R) (Some 1%R) None None)] [("a", mkNP (Some "a") (Some 1%R) (1/10)%R None None None None)] [] [] [] true true true false 0%R.
(** two lists, "mu=0:2:2+,a=1" and "mu=1": three points, in which the number given for the NP is not rescaled *)
Example C61_command_line_nonvacuous :
  setval_list 5 u_float u_int eqmatch ul_model true true "mu=0:2:2+,a=1|mu=1" =
    Ok [[("mu", SNum (0 + INR 0 * ((2 - 0) / INR 1))%R); ("a", SNum 1%R)]; [("mu", SNum (0 + INR 1 * ((2 - 0) / INR 1))%R); ("a", SNum 1%R)]; [("mu", SNum 1%R)]] /\
  "mu=0:2:2+,a=1|mu=1" = join "|" (map (fun l => join "," (map write l)) [[("mu", "0:2:2+"); ("a", "1")]; [("mu", "1")]]).
Proof. split; reflexivity. Qed.
