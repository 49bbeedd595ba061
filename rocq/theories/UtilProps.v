(** Properties of the command-line specifications of values, grids and ranges (fastprof_utils/tools.py): C61, C62, C63, C83. *)
From Verif Require Import Py PyFacts Base Expressions Norms Sample Channels Params Core UtilTools UtilFacts.
Local Open Scope string_scope.
Local Open Scope list_scope.

(** * C61 *)
(** For valid specifications the result is, for one assignment list after the other, its full grid ([grid], UtilFacts: one value per
    parameter in all possible ways, the last parameter varying fastest). *)
Theorem C61_full_grid : forall vs l choices fuel,
  (forall svd, In svd l -> NoDup (keys svd)) -> Forall2 (Forall2 (choice vs)) l choices ->
  (forall svd, In svd l -> (length (filter is_str svd) < fuel)%nat) -> l <> [] ->
  setval_dicts fuel vs l = Ok (map (map num) (concat (map grid choices))).
Proof.
  intros vs l css fuel Hd Hc Hf Hn. destruct fuel as [|n]; [destruct l as [|x l]; [contradiction|specialize (Hf x (or_introl eq_refl)); lia]|].
  apply (setval_dicts_grid vs n); [lia| |exact Hc]. intros svd Hi. split; [now apply Hd|]. specialize (Hf svd Hi). unfold nstr. lia.
Qed.
Print Assumptions C61_full_grid.

(** The grid: its points are exactly the assignments of one of the allowed values to each parameter, and there are as many as
    the product of the numbers of values. *)
Theorem C61_grid_members : forall cs d, In d (grid cs) <-> Forall2 (fun kv c => fst kv = fst c /\ In (snd kv) (snd c)) d cs.
Proof.
  induction cs as [|[k vs] cs IH]; intros d; cbn [grid].
  - split; [intros [<-|[]]; constructor|]. intros H; inversion H. now left.
  - rewrite in_flat_map. split.
    + intros (v & Hv & Hi). apply in_map_iff in Hi as (d' & <- & Hi). constructor; [split; [reflexivity|exact Hv]|]. now apply IH.
    + intros H. inversion H as [|[k' v] ? d' ? (E & Hv) Hr]; subst. cbn [fst snd] in *. subst k'. exists v. split; [exact Hv|]. apply in_map. now apply IH.
Qed.
Print Assumptions C61_grid_members.
Theorem C61_grid_size : forall cs, length (grid cs) = fold_right (fun c n => (length (snd c) * n)%nat) 1%nat cs.
Proof.
  induction cs as [|[k vs] cs IH]; [reflexivity|]. cbn [grid fold_right snd]. rewrite <- IH. generalize (grid cs). unfold dict. intros g. clear.
  induction vs as [|v vs IH]; [reflexivity|]. cbn [flat_map length]. rewrite app_length, map_length, IH. lia.
Qed.
Print Assumptions C61_grid_size.

(** Whatever the input, nothing else is produced: every assignment returned comes from one of the given lists, has its parameters, keeps
    its numbers, and gives to every other parameter a value of its specification. *)
Definition instance_of (vs : string -> res (list R)) (kv kv0 : string * sval) : Prop :=
  fst kv = fst kv0 /\ match snd kv0 with SNum x => snd kv = SNum x | SStr s => exists l v, vs s = Ok l /\ In v l /\ snd kv = SNum v end.
Definition partial_of (vs : string -> res (list R)) (kv kv0 : string * sval) : Prop :=
  kv = kv0 \/ instance_of vs kv kv0.
Lemma partial_refl vs d : Forall2 (partial_of vs) d d.
Proof. induction d; constructor; [now left|assumption]. Qed.
Lemma partial_then vs d d1 svd : Forall2 (instance_of vs) d d1 -> Forall2 (partial_of vs) d1 svd -> Forall2 (instance_of vs) d svd.
Proof.
  intros H. revert svd. induction H as [|a b d d1 H1 H2 IH]; intros svd H3; inversion H3 as [|? c ? ? P1 P2]; subst; constructor; [|now apply IH].
  destruct P1 as [->|(E & P1)]; [exact H1|]. destruct H1 as (E1 & H1). split; [congruence|]. destruct (snd c) as [x|s].
  - rewrite P1 in H1. exact H1.
  - destruct P1 as (l & v & A & B & C). rewrite C in H1. eauto.
Qed.
Lemma expand_sound vs svd l b d : NoDup (keys svd) -> expand_dict vs [] svd = Ok (l, b) -> In d l -> Forall2 (partial_of vs) d svd /\ NoDup (keys d) /\ (b = false -> all_num d).
Proof.
  intros Hd He Hi. destruct (first_string svd) as [Hn|(pre & k & s & r & -> & Hn)].
  - rewrite expand_num in He by assumption. inversion He; subst l b. destruct Hi as [<-|[]]. split; [apply partial_refl|auto].
  - rewrite expand_str in He by assumption. apply bind_Ok in He as (vl & Hv & He). inversion He; subst l b; clear He. apply in_map_iff in Hi as (v & <- & Hi). cbn [app]. split; [|split; [|discriminate]].
    + apply Forall2_app; [apply partial_refl|]. constructor; [|apply partial_refl]. right. split; [reflexivity|]. exists vl, v. auto.
    + unfold keys in *. rewrite map_app in *. exact Hd.
Qed.
Theorem C61_nothing_else : forall vs fuel l r, (forall svd, In svd l -> NoDup (keys svd)) -> setval_dicts fuel vs l = Ok r ->
  forall d, In d r -> exists svd, In svd l /\ Forall2 (instance_of vs) d svd.
Proof.
  intros vs. induction fuel as [|f IH]; intros l r Hd H d Hi; [discriminate|]. cbn [setval_dicts] in H. apply bind_Ok in H as (p & Hp & H).
  apply mapM_Forall2 in Hp.
  assert (P : forall x, In x (concat (map fst p)) -> exists svd, In svd l /\ Forall2 (partial_of vs) x svd /\ NoDup (keys x) /\ (existsb snd p = false -> all_num x)).
  { clear H Hi. induction Hp as [|svd [ls b] l p H1 H2 IH2]; [intros ? []|]. cbn [map concat fst existsb snd]. intros x Hx. apply in_app_or in Hx as [Hx|Hx].
    - destruct (expand_sound vs svd ls b x (Hd svd (or_introl eq_refl)) H1 Hx) as (A & B & C). exists svd. split; [now left|]. split; [exact A|]. split; [exact B|].
      intros Hb. apply orb_false_iff in Hb as (-> & _). now apply C.
    - destruct (IH2 ltac:(intros; apply Hd; now right) x Hx) as (s & A & B & C & D). exists s. split; [now right|]. split; [exact B|]. split; [exact C|]. intros Hb. apply orb_false_iff in Hb as (_ & Hb). now apply D. }
  destruct (existsb snd p) eqn:Eb.
  - destruct (IH _ _ ltac:(intros x Hx; destruct (P x Hx) as (? & _ & _ & X & _); exact X) H d Hi) as (d1 & Hd1 & F1). destruct (P d1 Hd1) as (svd & A & B & _). exists svd. split; [exact A|]. eapply partial_then; eassumption.
  - inversion H; subst r. destruct (P d Hi) as (svd & A & B & _ & D). specialize (D eq_refl). exists svd. split; [exact A|].
    clear -B D. induction B as [|x y d svd H1 H2 IH]; constructor; [|apply IH; intros z Hz; apply D; now right]. destruct H1 as [->|H1]; [|exact H1].
    specialize (D y (or_introl eq_refl)). unfold is_str in D. split; [reflexivity|]. destruct (snd y); [reflexivity|discriminate].
Qed.
Print Assumptions C61_nothing_else.

(** The dictionaries that the command line gives have distinct keys: the theorems above apply to them. *)
Lemma assign_all_nodup m sc nps val l : forall fv d d', assign_all m sc nps fv val l d = Ok d' -> NoDup (keys d) -> NoDup (keys d').
Proof.
  induction l as [|v l IH]; intros fv d d' H Hd; cbn [assign_all] in H; [now inversion H; subst|]. apply bind_Ok in H as (fv' & _ & H). eapply IH; [exact H|]. now apply NoDup_keys_dset.
Qed.
Theorem C61_distinct_parameters : forall pf rmatch m mp mn cv sc spec d, process_setvals pf rmatch m mp mn cv sc spec = Ok d -> NoDup (keys d).
Proof.
  intros pf rmatch m mp mn cv sc spec. unfold process_setvals. generalize (assignments spec). intros l.
  assert (G : forall d0 d, NoDup (keys d0) -> foldM (setval pf rmatch m mp mn cv sc) l d0 = Ok d -> NoDup (keys d)).
  { induction l as [|a l IH]; intros d0 d Hd H; cbn [foldM] in H; [now inversion H; subst|]. apply bind_Ok in H as (d1 & H1 & H). eapply IH; [|exact H].
    unfold setval in H1. destruct a as [|var [|val [|]]]; try discriminate. destruct (length _ =? 0)%nat; [discriminate|]. apply bind_Ok in H1 as (fv & _ & H1). eapply assign_all_nodup; eassumption. }
  intros d. apply G. constructor.
Qed.
Print Assumptions C61_distinct_parameters.

(** A range min:max:n is n values from min, evenly spaced: up to but without max, or up to max included with a final '+'. *)
Definition field (s : string) : Prop := free_of ":" s /\ free_of "~" s.
Lemma strip_plus_none s : (forall t, s <> (t ++ "+")%string) -> strip_plus s = None.
Proof.
  induction s as [|a s IH]; intros H; [reflexivity|]. cbn [strip_plus]. destruct s as [|b s].
  - destruct (Ascii.eqb a "+") eqn:E; [|reflexivity]. apply Ascii.eqb_eq in E. subst. now specialize (H EmptyString).
  - rewrite IH; [reflexivity|]. intros t Ht. apply (H (String a t)). cbn. now rewrite Ht.
Qed.
Lemma strip_plus_some s : strip_plus (s ++ "+")%string = Some s.
Proof. induction s as [|a s IH]; [reflexivity|]. cbn [append strip_plus]. rewrite IH. destruct (s ++ "+")%string eqn:E; [destruct s; discriminate|reflexivity]. Qed.
Lemma app_nonempty s c r : String.eqb (s ++ String c r)%string "" = false.
Proof. destruct s; reflexivity. Qed.
Lemma fields3 a b c : field a -> field b -> field c -> split ":" (a ++ ":" ++ b ++ ":" ++ c)%string = [a; b; c] /\ free_of "~" (a ++ ":" ++ b ++ ":" ++ c)%string.
Proof.
  intros (A1 & A2) (B1 & B2) (C1 & C2). cbn [append]. split.
  - now rewrite split_app, split_app, split_free.
  - apply free_app; [exact A2|]. split; [discriminate|]. apply free_app; [exact B2|]. split; [discriminate|exact C2].
Qed.
Theorem C61_linear_range : forall pf pi a b n x y k, field a -> field b -> field n -> n <> "" -> (forall t, n <> (t ++ "+")%string) ->
  pf a = Some x -> pf b = Some y -> pi n = Some (Z.of_nat k) ->
  (exists l, values_spec pf pi (a ++ ":" ++ b ++ ":" ++ n)%string = Ok l /\ length l = k /\ forall i, (i < k)%nat -> nth i l 0 = x + INR i * ((y - x) / INR k)) /\
  (exists l, values_spec pf pi (a ++ ":" ++ b ++ ":" ++ n ++ "+")%string = Ok l /\ length l = k /\ (forall i, (i < k)%nat -> nth i l 0 = x + INR i * ((y - x) / INR (k - 1))) /\
     ((0 < k)%nat -> nth 0 l 0 = x) /\ ((1 < k)%nat -> nth (k - 1) l 0 = y)).
Proof.
  intros pf pi a b n x y k Ha Hb Hn Hne Hp Hx Hy Hk.
  assert (N : forall m f i, (i < m)%nat -> nth i (map (f : nat -> R) (seq 0 m)) 0 = f i).
  { intros m f i Hi. rewrite (nth_indep _ 0 (f 0%nat)) by (rewrite map_length, seq_length; exact Hi). rewrite map_nth, seq_nth by exact Hi. reflexivity. }
  split.
  - destruct (fields3 a b n Ha Hb Hn) as (S1 & S2). unfold values_spec. rewrite (split_free "~") by exact S2. cbn [mapM]. rewrite S1. cbn [range_values].
    destruct (String.eqb n "") eqn:E; [apply String.eqb_eq in E; contradiction|]. rewrite strip_plus_none by exact Hp. rewrite Hk, Hx, Hy.
    destruct (Z.ltb_spec (Z.of_nat k) 0); [lia|]. cbn [bind concat]. rewrite Nat2Z.id, app_nil_r. eexists. split; [reflexivity|]. unfold linspace. split; [now rewrite map_length, seq_length|].
    intros i Hi. now rewrite N.
  - assert (Hn' : field (n ++ "+")%string) by (destruct Hn; split; (apply free_app; [assumption|split; [discriminate|exact Logic.I]])).
    destruct (fields3 a b _ Ha Hb Hn') as (S1 & S2). unfold values_spec. rewrite (split_free "~") by exact S2. cbn [mapM]. rewrite S1. cbn [range_values].
    rewrite (app_nonempty n "+" ""). rewrite strip_plus_some. rewrite Hk, Hx, Hy.
    destruct (Z.ltb_spec (Z.of_nat k) 0); [lia|]. cbn [bind concat]. rewrite Nat2Z.id, app_nil_r. eexists. split; [reflexivity|]. unfold linspace. split; [now rewrite map_length, seq_length|].
    split; [intros i Hi; now rewrite N|]. split.
    + intros K. rewrite N by exact K. cbn [INR]. lra.
    + intros K. rewrite N by lia. assert (Z0 : INR (k - 1) <> 0) by (apply not_0_INR; lia). field. exact Z0.
Qed.
Print Assumptions C61_linear_range.
(** Ranges joined by '~' give the values of the first, then those of the others. *)
Theorem C61_several_ranges : forall pf pi r s, free_of "~" r ->
  values_spec pf pi (r ++ "~" ++ s)%string = let! l := values_spec pf pi r in let! l' := values_spec pf pi s in Ok (l ++ l').
Proof.
  intros pf pi r s Hr. unfold values_spec. cbn [append]. rewrite split_app by exact Hr. rewrite (split_free "~" r Hr). cbn [mapM].
  destruct (range_values pf pi (split ":" r)) as [l|e]; cbn [bind]; [|reflexivity]. destruct (mapM _ (split "~" s)) as [ls|e]; cbn [bind concat]; [|reflexivity]. now rewrite app_nil_r.
Qed.
Print Assumptions C61_several_ranges.
Theorem C61_single_value : forall pf pi s x, free_of ":" s -> free_of "~" s -> pf s = Some x -> values_spec pf pi s = Ok [x].
Proof. intros pf pi s x A B H. unfold values_spec. rewrite (split_free "~") by exact B. cbn [mapM]. rewrite (split_free ":") by exact A. cbn [range_values]. rewrite H. reflexivity. Qed.
Print Assumptions C61_single_value.
(** Logarithmic ranges, which the documentation describes, are always refused (the module math is not imported). *)
Theorem C61_log_range_refuted : forall pf pi a b n, field a -> field b -> field n -> values_spec pf pi (a ++ ":" ++ b ++ ":" ++ n ++ ":log")%string = Err ValueError.
Proof.
  intros pf pi a b n (A1 & A2) (B1 & B2) (C1 & C2). unfold values_spec. rewrite (split_free "~").
  2:{ apply free_app; [exact A2|]. cbn [append]. split; [discriminate|]. apply free_app; [exact B2|]. split; [discriminate|]. apply free_app; [exact C2|]. repeat split; discriminate. }
  cbn [mapM append]. rewrite split_app, split_app, split_app by assumption. rewrite (split_free ":" "log") by (repeat split; discriminate). cbn [range_values].
  destruct (String.eqb n ""); [reflexivity|]. destruct (match strip_plus n with Some c' => (c', true) | None => (n, false) end) as (c' & last).
  destruct (pi c'); reflexivity.
Qed.
Print Assumptions C61_log_range_refuted.

Definition u_float (s : string) : option R := if String.eqb s "0" then Some 0%R else if String.eqb s "1" then Some 1%R else if String.eqb s "2" then Some 2%R else None.
Definition u_int (s : string) : option Z := if String.eqb s "2" then Some 2%Z else if String.eqb s "1" then Some 1%Z else None.
Example C61_nonvacuous : exists css, Forall2 (Forall2 (choice (values_spec u_float u_int))) [[("a", SNum 1%R); ("b", SStr "0:2:2+"); ("c", SStr "0~1")]] css /\
  concat (map grid css) = [[("a", 1%R); ("b", (0 + INR 0 * ((2 - 0) / INR 1))%R); ("c", 0%R)]; [("a", 1%R); ("b", (0 + INR 0 * ((2 - 0) / INR 1))%R); ("c", 1%R)];
    [("a", 1%R); ("b", (0 + INR 1 * ((2 - 0) / INR 1))%R); ("c", 0%R)]; [("a", 1%R); ("b", (0 + INR 1 * ((2 - 0) / INR 1))%R); ("c", 1%R)]] /\
  field "0" /\ field "2" /\ (forall t, "2" <> (t ++ "+")%string).
Proof.
  exists [[("a", [1%R]); ("b", linspace 0 2 2 true); ("c", [0%R; 1%R])]]. split; [repeat (constructor; try (split; [reflexivity|]; reflexivity))|]. split; [reflexivity|].
  repeat split; try discriminate. intros [|a [|b t]]; discriminate.
Qed.

(** * C62 *)
(** Without rescaling: a parameter has the value of the last assignment whose pattern matches its full name, and only
    parameters that match some assignment are there. *)
Definition matches (rmatch : string -> string -> bool) (vr : string * string) (p : string) : bool := rmatch (fst vr ++ "$")%string p.
Definition selected (m : Model) (mp mn : bool) (p : string) : Prop := (mp = true /\ In p (keys (m_pois m))) \/ (mn = true /\ In p (keys (m_nps m))).
Definition value_of (pf : string -> option R) (s : string) : sval := match pf s with Some x => SNum x | None => SStr s end.
Fixpoint last_match (rmatch : string -> string -> bool) (l : list (string * string)) (p : string) (acc : option string) : option string :=
  match l with [] => acc | vr :: r => last_match rmatch r p (if matches rmatch vr p then Some (snd vr) else acc) end.
Lemma assign_noscale m nps val l : forall fv d, exists d', assign_all m false nps fv val l d = Ok d' /\
  forall p, dget p d' = if existsb (String.eqb p) l then Some (match fv with Some x => SNum x | None => SStr val end) else dget p d.
Proof.
  induction l as [|v l IH]; intros fv d; cbn [assign_all existsb]; [eauto|]. match goal with |- context [bind ?e _] => replace e with (Ok fv : res (option R)) by (destruct fv; reflexivity) end. cbn [bind].
  destruct (IH fv (dset v (match fv with Some x => SNum x | None => SStr val end) d)) as (d' & H1 & H2). exists d'. split; [exact H1|]. intros p. rewrite H2.
  destruct (existsb (String.eqb p) l); [now rewrite orb_true_r|]. rewrite orb_false_r. destruct (String.eqb p v) eqn:E.
  - apply String.eqb_eq in E. subst. now rewrite dget_dset_eq.
  - apply String.eqb_neq in E. now rewrite dget_dset_neq.
Qed.
Lemma in_matching (rmatch : string -> string -> bool) m (mp mn : bool) var p : existsb (String.eqb p) ((if mp then filter (rmatch (var ++ "$")%string) (keys (m_pois m)) else []) ++ (if mn then filter (rmatch (var ++ "$")%string) (keys (m_nps m)) else [])) = true <->
  selected m mp mn p /\ rmatch (var ++ "$")%string p = true.
Proof.
  rewrite existsb_exists. split.
  - intros (x & Hx & E). apply String.eqb_eq in E. subst x. apply in_app_or in Hx as [Hx|Hx].
    + destruct mp; [|contradiction]. apply filter_In in Hx as (A & B). split; [now left|exact B].
    + destruct mn; [|contradiction]. apply filter_In in Hx as (A & B). split; [now right|exact B].
  - intros (Hs & Hm). exists p. split; [|apply String.eqb_refl]. apply in_or_app. destruct Hs as [(-> & H)|(-> & H)]; [left|right]; now apply filter_In.
Qed.
Theorem C62_assignments : forall pf rmatch m mp mn cv l d, l <> [] -> (forall v r, In (v, r) l -> part v /\ part r) ->
  process_setvals pf rmatch m mp mn cv false (join "," (map write l)) = Ok d ->
  forall p, dget p d = (if existsb (String.eqb p) ((if mp then keys (m_pois m) else []) ++ (if mn then keys (m_nps m) else []))
                        then option_map (value_of pf) (last_match rmatch l p None) else None).
Proof.
  intros pf rmatch m mp mn cv l d Hn Hp H p. unfold process_setvals in H. rewrite assignments_join in H by assumption.
  assert (G : forall l d0 d, foldM (setval pf rmatch m mp mn cv false) (map (fun vr => [fst vr; snd vr]) l) d0 = Ok d -> forall acc, dget p d0 = option_map (value_of pf) acc ->
     selected m mp mn p -> dget p d = option_map (value_of pf) (last_match rmatch l p acc)).
  { clear. induction l as [|[var val] l IH]; intros d0 d H acc Ha Hs; cbn [map foldM fst snd] in H; [inversion H; now subst|]. apply bind_Ok in H as (d1 & H1 & H). cbn [last_match snd]. eapply IH; [exact H| |exact Hs].
    unfold setval in H1. destruct (length _ =? 0)%nat; [discriminate|]. apply bind_Ok in H1 as (fv & Hf & H1). match type of H1 with assign_all _ _ ?a _ _ ?b _ = _ => destruct (assign_noscale m a val b fv d0) as (d' & E1 & E2) end. rewrite H1 in E1. inversion E1; subst d'. rewrite E2.
    unfold matches. cbn [fst].
    destruct (rmatch (var ++ "$")%string p) eqn:Em.
    - rewrite (proj2 (in_matching rmatch m mp mn var p)) by (split; [exact Hs|exact Em]). cbn [option_map]. f_equal. unfold value_of. destruct (pf val); [inversion Hf; reflexivity|]. destruct cv; [discriminate|]. inversion Hf. reflexivity.
    - destruct (existsb _ _) eqn:Ex; [|exact Ha]. apply in_matching in Ex as (_ & Ex). congruence. }
  assert (G2 : forall l d0 d, foldM (setval pf rmatch m mp mn cv false) (map (fun vr => [fst vr; snd vr]) l) d0 = Ok d -> ~ selected m mp mn p -> dget p d = dget p d0).
  { clear. induction l as [|[var val] l IH]; intros d0 d H Hs; cbn [map foldM fst snd] in H; [inversion H; now subst|]. apply bind_Ok in H as (d1 & H1 & H). rewrite (IH _ _ H Hs).
    unfold setval in H1. destruct (length _ =? 0)%nat; [discriminate|]. apply bind_Ok in H1 as (fv & Hf & H1). match type of H1 with assign_all _ _ ?a _ _ ?b _ = _ => destruct (assign_noscale m a val b fv d0) as (d' & E1 & E2) end. rewrite H1 in E1. inversion E1; subst d'. rewrite E2.
    destruct (existsb _ _) eqn:Ex; [|reflexivity]. apply in_matching in Ex as (Ex & _). contradiction. }
  assert (S : existsb (String.eqb p) ((if mp then keys (m_pois m) else []) ++ (if mn then keys (m_nps m) else [])) = true <-> selected m mp mn p).
  { rewrite existsb_exists. unfold selected. split.
    - intros (x & Hx & E). apply String.eqb_eq in E. subst x. apply in_app_or in Hx as [Hx|Hx]; [destruct mp; [auto|contradiction]|destruct mn; [auto|contradiction]].
    - intros Hs. exists p. split; [|apply String.eqb_refl]. apply in_or_app. destruct Hs as [(-> & Hs)|(-> & Hs)]; auto. }
  destruct (existsb _ _) eqn:Ex.
  - apply (G l [] d H None eq_refl). now apply S.
  - rewrite (G2 l [] d H); [reflexivity|]. intros X. apply S in X. congruence.
Qed.
Print Assumptions C62_assignments.
(** An assignment that matches no parameter, or that is not of the form par=value, is refused. *)
Theorem C62_unknown_parameters_refused : forall pf rmatch m mp mn cv sc spec a, In a (assignments spec) ->
  (forall var val, a = [var; val] -> forall p, selected m mp mn p -> rmatch (var ++ "$")%string p = false) ->
  (forall e, process_setvals pf rmatch m mp mn cv sc spec <> Ok e).
Proof.
  intros pf rmatch m mp mn cv sc spec a Ha Hn d H. unfold process_setvals in H. revert H. generalize (@nil (string * sval)) as d0. revert Ha. generalize (assignments spec). intros l.
  induction l as [|b l IH]; intros Ha d0 H; [contradiction|]. cbn [foldM] in H. apply bind_Ok in H as (d1 & H1 & H). destruct Ha as [->|Ha]; [|eapply IH; eassumption].
  unfold setval in H1. destruct a as [|var [|val [|]]]; try discriminate. 
  match type of H1 with context [length ?x] => destruct x as [|p r] eqn:El; [discriminate|] end.
  assert (X : existsb (String.eqb p) ((if mp then filter (rmatch (var ++ "$")%string) (keys (m_pois m)) else []) ++ (if mn then filter (rmatch (var ++ "$")%string) (keys (m_nps m)) else [])) = true).
  { rewrite El. cbn. now rewrite String.eqb_refl. }
  apply in_matching in X as (X1 & X2). rewrite (Hn var val eq_refl p X1) in X2. discriminate.
Qed.
Print Assumptions C62_unknown_parameters_refused.

(** With rescaling, one assignment: POIs get the number given, and the first matching NP its scaled value. *)
Theorem C62_one_np_scaled : forall pf rmatch m var val x n p nom, part var -> part val -> pf val = Some x ->
  filter (rmatch (var ++ "$")%string) (keys (m_nps m)) = [n] -> ~ In n (keys (m_pois m)) -> dget n (m_nps m) = Some p -> np_nominal p = Some nom -> np_variation p <> 0%R ->
  exists d, process_setvals pf rmatch m true true true true (write (var, val)) = Ok d /\ dget n d = Some (SNum ((x - nom) / np_variation p)%R) /\
    forall q, In q (keys (m_pois m)) -> rmatch (var ++ "$")%string q = true -> dget q d = Some (SNum x).
Proof.
  intros pf rmatch m var val x n p nom Hv Hl Hx Hf Hni Hg Hnom Hvar. unfold process_setvals. change (write (var, val)) with (join "," (map write [(var, val)])).
  rewrite assignments_join; [|discriminate|intros v r [E|[]]; inversion E; subst; auto]. cbn [map fst snd foldM]. unfold setval. rewrite Hf. cbn zeta iota.
  match goal with |- context [length (?a ++ [n])] => set (mp := a) end. rewrite app_length. cbn [length]. replace (length mp + 1 =? 0)%nat with false by (symmetry; apply Nat.eqb_neq; lia). rewrite Hx. cbn [bind].
  assert (Hp : forall q, In q mp -> In q (keys (m_pois m))) by (intros q Hq; apply filter_In in Hq; tauto).
  assert (K : forall l d, (forall q, In q l -> q <> n) -> exists d', assign_all m true [n] (Some x) val (l ++ [n]) d = Ok (dset n (SNum ((x - nom) / np_variation p)%R) d') /\
     forall q, In q l -> dget q d' = Some (SNum x)).
  { induction l as [|q l IH]; intros d Hq.
    - exists d. cbn [app assign_all existsb]. rewrite String.eqb_refl. cbn [andb orb]. rewrite Hg, Hnom. unfold scaled_value. rewrite (proj2 (Reqb_false _ _) Hvar). cbn [bind assign_all]. split; [reflexivity|]. intros q [].
    - cbn [app assign_all existsb]. destruct (String.eqb q n) eqn:E; [apply String.eqb_eq in E; exfalso; apply (Hq q); [now left|exact E]|]. cbn [andb orb bind].
      destruct (IH (dset q (SNum x) d)) as (d' & A & B); [intros z Hz; apply Hq; now right|]. 
      assert (C : forall l d, (forall z, In z l -> z <> n) -> forall d', assign_all m true [n] (Some x) val (l ++ [n]) d = Ok d' -> dget q d = Some (SNum x) -> q <> n -> dget q d' = Some (SNum x)).
      { clear -Hg Hnom Hvar. induction l as [|z l IH]; intros d Hz d' H Hd Hqn.
        - cbn [app assign_all existsb] in H. rewrite String.eqb_refl in H. cbn [andb orb] in H. rewrite Hg, Hnom in H. unfold scaled_value in H. rewrite (proj2 (Reqb_false _ _) Hvar) in H. cbn [bind assign_all] in H. inversion H. now rewrite dget_dset_neq.
        - cbn [app assign_all existsb] in H. destruct (String.eqb z n) eqn:E; [apply String.eqb_eq in E; exfalso; apply (Hz z); [now left|exact E]|]. cbn [andb orb bind] in H.
          eapply IH; [|exact H| |exact Hqn]; [intros w Hw; apply Hz; now right|]. destruct (String.eqb q z) eqn:E2; [apply String.eqb_eq in E2; subst; now rewrite dget_dset_eq|apply String.eqb_neq in E2; now rewrite dget_dset_neq]. }
      exists d'. split; [exact A|]. intros z [<-|Hz]; [|now apply B].
      assert (Hqn : q <> n) by (apply Hq; now left). pose proof (C l (dset q (SNum x) d) ltac:(intros z Hz; apply Hq; now right) _ A ltac:(apply dget_dset_eq) Hqn) as X. now rewrite dget_dset_neq in X. }
  destruct (K mp [] ltac:(intros q Hq E; subst; apply Hni, Hp, Hq)) as (d' & A & B). rewrite A. cbn [bind]. eexists. split; [reflexivity|]. split; [apply dget_dset_eq|].
  intros q Hq Hm. rewrite dget_dset_neq; [|intros E; subst; contradiction]. apply B. apply filter_In. auto.
Qed.
Print Assumptions C62_one_np_scaled.
(** With two matching NPs, the second one gets the scaled value of the scaled value of the first. *)
Theorem C62_second_np_refuted : forall pf rmatch m var val x a b p q na nb, part var -> part val -> pf val = Some x ->
  filter (rmatch (var ++ "$")%string) (keys (m_pois m)) = [] -> filter (rmatch (var ++ "$")%string) (keys (m_nps m)) = [a; b] -> a <> b ->
  dget a (m_nps m) = Some p -> dget b (m_nps m) = Some q -> np_nominal p = Some na -> np_nominal q = Some nb -> np_variation p <> 0%R -> np_variation q <> 0%R ->
  exists d, process_setvals pf rmatch m true true true true (write (var, val)) = Ok d /\
    dget b d = Some (SNum (((x - na) / np_variation p - nb) / np_variation q)%R) /\
    (dget b d = Some (SNum ((x - nb) / np_variation q)%R) <-> (x = (x - na) / np_variation p)%R).
Proof.
  intros pf rmatch m var val x a b p q na nb Hv Hl Hx Hp0 Hf Hab Hga Hgb Hna Hnb Hva Hvb. unfold process_setvals. change (write (var, val)) with (join "," (map write [(var, val)])).
  rewrite assignments_join; [|discriminate|intros v r [E|[]]; inversion E; subst; auto]. cbn [map fst snd foldM]. unfold setval. rewrite Hf, Hp0. cbn [app length Nat.eqb]. rewrite Hx. cbn [bind assign_all existsb].
  rewrite !String.eqb_refl. cbn [andb orb]. rewrite Hga, Hna. unfold scaled_value at 1. rewrite (proj2 (Reqb_false _ _) Hva). cbn [bind].
  rewrite orb_true_r. cbn [andb]. rewrite Hgb, Hnb. unfold scaled_value at 1. rewrite (proj2 (Reqb_false _ _) Hvb). cbn [bind assign_all]. eexists. split; [reflexivity|].
  rewrite dget_dset_eq. split; [reflexivity|]. split.
  - intros E. assert (E2 : (((x - na) / np_variation p - nb) / np_variation q = (x - nb) / np_variation q)%R) by congruence. clear E.
    apply (f_equal (fun z => z * np_variation q + nb)%R) in E2.
    replace (((x - na) / np_variation p - nb) / np_variation q * np_variation q + nb)%R with ((x - na) / np_variation p)%R in E2 by (field; split; assumption).
    replace ((x - nb) / np_variation q * np_variation q + nb)%R with x in E2 by (field; assumption). now symmetry.
  - intros E. now rewrite <- E.
Qed.
Print Assumptions C62_second_np_refuted.
Definition u_model : Model :=
  mkModel "u" None [("mu", mkPOI (Some "mu") (Some 0%R) (Some 9%R) (Some 1%R) None None); ("nu", mkPOI (Some "nu") None None None None None)]
    [("a", mkNP (Some "a") (Some 0%R) 2%R None None None None); ("b", mkNP (Some "b") (Some 1%R) 1%R None None None None)] [] [] [] true false true false 0%R.
(** patterns: a name, or anything *)
Definition u_match (p n : string) : bool := String.eqb p (n ++ "$")%string || String.eqb p ".*$".
Example C62_nonvacuous :
  (exists d, process_setvals u_float u_match u_model true true true false (join "," (map write [(".*", "1"); ("a", "2")])) = Ok d /\ dget "mu" d = Some (SNum 1%R) /\ dget "a" d = Some (SNum 2%R)) /\
  filter (u_match ("b" ++ "$")%string) (keys (m_nps u_model)) = ["b"] /\ filter (u_match (".*" ++ "$")%string) (keys (m_nps u_model)) = ["a"; "b"] /\
  (exists d, process_setvals u_float u_match u_model false true true true ".*=2" = Ok d /\ dget "b" d = Some (SNum (((2 - 0) / 2 - 1) / 1)%R)) /\
  process_setvals u_float u_match u_model true true true false "zz=1" = Err ValueError.
Proof.
  split; [eexists; repeat split; reflexivity|]. split; [reflexivity|]. split; [reflexivity|]. split; [|reflexivity].
  exists [("a", SNum ((2 - 0) / 2)%R); ("b", SNum (((2 - 0) / 2 - 1) / 1)%R)]. split; [|reflexivity].
  unfold process_setvals. change (assignments ".*=2") with [[".*"; "2"]]. cbn [foldM]. unfold setval.
  change (filter (u_match (".*" ++ "$")%string) (keys (m_nps u_model))) with ["a"; "b"]. cbn [app length Nat.eqb]. change (u_float "2") with (Some 2%R). cbn [bind assign_all existsb].
  rewrite !String.eqb_refl, orb_true_r. cbn [andb orb]. change (dget "a" (m_nps u_model)) with (Some (mkNP (Some "a") (Some 0%R) 2%R None None None None)). change (dget "b" (m_nps u_model)) with (Some (mkNP (Some "b") (Some 1%R) 1%R None None None None)).
  cbn [np_nominal np_variation]. unfold scaled_value. rewrite (proj2 (Reqb_false 2%R 0%R)) by lra. cbn [bind]. rewrite (proj2 (Reqb_false 1%R 0%R)) by lra. reflexivity.
Qed.

(** * C63 *)
(** A range as it is written: min:max with either side possibly empty, or a single value. *)
Inductive range := Interval (lo hi : string) | Value (x : string).
Definition lower (r : range) : string := match r with Interval lo _ => lo | Value x => x end.
Definition upper (r : range) : string := match r with Interval _ hi => hi | Value x => x end.
Definition text (r : range) : string := match r with Interval lo hi => (lo ++ ":" ++ hi)%string | Value x => x end.
Definition bound_ok (pf : string -> option R) (s : string) : Prop := s = "" \/ exists x, pf s = Some x.
(** the bound that a sequence of assignments leaves: the last one given for a pattern that matches, or the old one *)
Definition final_bound (pf : string -> option R) (rmatch : string -> string -> bool) (side : range -> string) (l : list (string * range)) (n : string) (old : option R) : option R :=
  fold_left (fun acc vr => if (rmatch (fst vr ++ "$")%string n && negb (String.eqb (side (snd vr)) ""))%bool then pf (side (snd vr)) else acc) l old.
Definition updated (pf : string -> option R) (rmatch : string -> string -> bool) (l : list (string * range)) (kp : string * POI) : string * POI :=
  (fst kp, mkPOI (poi_name (snd kp)) (final_bound pf rmatch lower l (fst kp) (poi_min (snd kp))) (final_bound pf rmatch upper l (fst kp) (poi_max (snd kp)))
             (poi_initial (snd kp)) (poi_unit (snd kp)) (poi_descr (snd kp))).
Definition written (l : list (string * range)) : string := join "," (map (fun vr => write (fst vr, text (snd vr))) l).
Definition range_ok (vr : string * range) : Prop := part (fst vr) /\ part (lower (snd vr)) /\ part (upper (snd vr)) /\ free_of ":" (lower (snd vr)) /\ free_of ":" (upper (snd vr)).

Lemma written_parsed l : l <> [] -> (forall vr, In vr l -> range_ok vr) -> assignments (written l) = map (fun vr => [fst vr; text (snd vr)]) l.
Proof.
  intros Hn Hr. unfold written. rewrite <- (map_map (fun vr => (fst vr, text (snd vr))) write). rewrite assignments_join.
  - now rewrite map_map.
  - destruct l; [contradiction|discriminate].
  - intros v r Hi. apply in_map_iff in Hi as ((v0 & r0) & E & Hi). inversion E; subst. destruct (Hr _ Hi) as (A & (B1 & B2 & B3) & (C1 & C2 & C3) & _). cbn [fst snd] in *. split; [exact A|].
    destruct r0 as [lo hi|x]; cbn [text lower upper] in *; [|repeat split; assumption]. repeat split; (apply free_app; [assumption|split; [discriminate|assumption]]).
Qed.
Lemma text_split vr : range_ok vr -> match split ":" (text (snd vr)) with [x] => Some (x, x) | [x; y] => Some (x, y) | _ => None end = Some (lower (snd vr), upper (snd vr)).
Proof.
  intros (_ & _ & _ & A & B). destruct (snd vr) as [lo hi|x]; cbn [text lower upper] in *.
  - cbn [append]. now rewrite split_app, split_free.
  - now rewrite split_free.
Qed.
Lemma filter_keys_in (rmatch : string -> string -> bool) v ps k : In k (keys ps) -> existsb (String.eqb k) (filter (rmatch v) (keys (V := POI) ps)) = rmatch v k.
Proof.
  intros Hk. destruct (rmatch v k) eqn:E.
  - apply existsb_exists. exists k. split; [apply filter_In; auto|apply String.eqb_refl].
  - apply not_true_iff_false. intros X. apply existsb_exists in X as (y & Hy & Ey). apply String.eqb_eq in Ey. subst y. apply filter_In in Hy as (_ & Hy). congruence.
Qed.
Lemma range_step pf rmatch vr rest ps : range_ok vr -> bound_ok pf (lower (snd vr)) -> bound_ok pf (upper (snd vr)) -> (exists n, In n (keys ps) /\ rmatch (fst vr ++ "$")%string n = true) ->
  ranges_loop pf rmatch ([fst vr; text (snd vr)] :: rest) ps = ranges_loop pf rmatch rest (map (updated pf rmatch [vr]) ps).
Proof.
  intros Hok Hlo Hhi (n & Hn & Hm). cbn [ranges_loop]. rewrite text_split by exact Hok.
  destruct (filter (rmatch (fst vr ++ "$")%string) (keys ps)) as [|n0 names0] eqn:Ef.
  { exfalso. assert (X : In n []) by (rewrite <- Ef; apply filter_In; auto). exact X. }
  rewrite <- Ef. replace (length (filter (rmatch (fst vr ++ "$")%string) (keys ps)) =? 0)%nat with false by (rewrite Ef; reflexivity). clear Ef n0 names0.
  set (names := filter (rmatch (fst vr ++ "$")%string) (keys ps)).
  assert (N : forall k p, In (k, p) ps -> existsb (String.eqb k) names = rmatch (fst vr ++ "$")%string k).
  { intros k p Hi. apply filter_keys_in. apply in_map_iff. exists (k, p). auto. }
  assert (S1 : exists ps1, set_side pf with_min (lower (snd vr)) names ps = Some ps1 /\
     ps1 = map (fun kp => (fst kp, mkPOI (poi_name (snd kp)) (final_bound pf rmatch lower [vr] (fst kp) (poi_min (snd kp))) (poi_max (snd kp)) (poi_initial (snd kp)) (poi_unit (snd kp)) (poi_descr (snd kp)))) ps).
  { unfold set_side, final_bound. cbn [fold_left fst snd]. destruct (String.eqb (lower (snd vr)) "") eqn:E.
    - eexists. split; [reflexivity|]. rewrite <- (map_id ps) at 1. apply map_ext. intros (k & p). rewrite andb_false_r. cbn [fst snd]. destruct p; reflexivity.
    - destruct Hlo as [X|(x & X)]; [apply String.eqb_neq in E; contradiction|]. rewrite X. eexists. split; [reflexivity|]. unfold on_pois. apply map_ext_in. intros (k & p) Hi. cbn [fst snd].
      rewrite (N k p Hi). cbn [negb]. rewrite andb_true_r. unfold with_min. destruct (rmatch _ k); destruct p; reflexivity. }
  destruct S1 as (ps1 & E1 & D1). rewrite E1.
  assert (S2 : set_side pf with_max (upper (snd vr)) names ps1 = Some (map (updated pf rmatch [vr]) ps)).
  { subst ps1. unfold set_side. destruct (String.eqb (upper (snd vr)) "") eqn:E.
    - f_equal. apply map_ext. intros (k & p). unfold updated, final_bound. cbn [fold_left fst snd]. rewrite E, andb_false_r. reflexivity.
    - destruct Hhi as [X|(x & X)]; [apply String.eqb_neq in E; contradiction|]. rewrite X. f_equal. unfold on_pois. rewrite map_map. apply map_ext_in. intros (k & p) Hi. cbn [fst snd].
      rewrite (N k p Hi). unfold updated, final_bound. cbn [fold_left fst snd]. rewrite E, X. cbn [negb]. rewrite andb_true_r. unfold with_max. destruct (rmatch _ k); reflexivity. }
  now rewrite S2.
Qed.
Lemma updated_keys pf rmatch l ps : keys (map (updated pf rmatch l) ps) = keys ps.
Proof. unfold keys. rewrite map_map. reflexivity. Qed.
Lemma updated_cons pf rmatch vr l kp : updated pf rmatch l (updated pf rmatch [vr] kp) = updated pf rmatch (vr :: l) kp.
Proof. destruct kp as (k & p). reflexivity. Qed.
Definition valid (pf : string -> option R) (rmatch : string -> string -> bool) (ps : dict POI) (vr : string * range) : Prop :=
  range_ok vr /\ bound_ok pf (lower (snd vr)) /\ bound_ok pf (upper (snd vr)) /\ exists n, In n (keys ps) /\ rmatch (fst vr ++ "$")%string n = true.
Lemma ranges_loop_all pf rmatch rest l : forall ps, (forall vr, In vr l -> valid pf rmatch ps vr) ->
  ranges_loop pf rmatch (map (fun vr => [fst vr; text (snd vr)]) l ++ rest) ps = ranges_loop pf rmatch rest (map (updated pf rmatch l) ps).
Proof.
  induction l as [|vr l IH]; intros ps H; cbn [map app].
  - f_equal. rewrite <- (map_id ps) at 1. apply map_ext. intros (k & [? ? ? ? ? ?]). reflexivity.
  - destruct (H vr (or_introl eq_refl)) as (A & B & C & D). rewrite range_step by assumption. rewrite IH.
    + rewrite map_map. f_equal.
    + intros v Hv. destruct (H v (or_intror Hv)) as (A' & B' & C' & D'). repeat split; try assumption; try apply A'. now rewrite updated_keys.
Qed.

(** Exactly the bounds that are given, of exactly the POIs that match, are changed; nothing else is. *)
Theorem C63_ranges : forall pf rmatch l ps, l <> [] -> (forall vr, In vr l -> valid pf rmatch ps vr) ->
  process_setranges pf rmatch (written l) ps = (map (updated pf rmatch l) ps, Ok tt).
Proof.
  intros pf rmatch l ps Hn Hv. unfold process_setranges. rewrite written_parsed; [|exact Hn|intros vr Hi; apply Hv; exact Hi].
  rewrite <- (app_nil_r (map _ l)). rewrite ranges_loop_all by exact Hv. reflexivity.
Qed.
Print Assumptions C63_ranges.
(** reading [updated]: a POI matched by no assignment keeps its range; the last assignment that matches and gives a side fixes it *)
Theorem C63_untouched : forall pf rmatch l kp, (forall vr, In vr l -> rmatch (fst vr ++ "$")%string (fst kp) = false) -> updated pf rmatch l kp = kp.
Proof.
  intros pf rmatch l (k & p) H. unfold updated. cbn [fst snd] in *.
  assert (G : forall side old, final_bound pf rmatch side l k old = old).
  { intros side old. unfold final_bound. revert old. induction l as [|vr l IH]; intros old; [reflexivity|]. cbn [fold_left]. rewrite (H vr (or_introl eq_refl)). cbn [andb]. apply IH. intros; apply H; now right. }
  rewrite !G. destruct p; reflexivity.
Qed.
Print Assumptions C63_untouched.
Theorem C63_last_assignment_wins : forall pf rmatch side l vr post n old x, rmatch (fst vr ++ "$")%string n = true -> side (snd vr) <> "" -> pf (side (snd vr)) = Some x ->
  (forall w, In w post -> rmatch (fst w ++ "$")%string n = false \/ side (snd w) = "") -> final_bound pf rmatch side (l ++ vr :: post) n old = Some x.
Proof.
  intros pf rmatch side l vr post n old x Hm Hs Hx Hp. unfold final_bound. rewrite fold_left_app. cbn [fold_left].
  match goal with |- context [fold_left _ l old] => generalize (fold_left (fun acc vr0 => if (rmatch (fst vr0 ++ "$")%string n && negb (String.eqb (side (snd vr0)) ""))%bool then pf (side (snd vr0)) else acc) l old) end.
  intros o. rewrite Hm. destruct (String.eqb (side (snd vr)) "") eqn:E; [apply String.eqb_eq in E; contradiction|]. cbn [negb andb]. rewrite Hx.
  induction post as [|w post IH]; [reflexivity|]. cbn [fold_left]. assert (X : (rmatch (fst w ++ "$")%string n && negb (String.eqb (side (snd w)) ""))%bool = false).
  { destruct (Hp w (or_introl eq_refl)) as [-> | ->]; [reflexivity|]. now rewrite andb_false_r. }
  rewrite X. apply IH. intros; apply Hp; now right.
Qed.
Print Assumptions C63_last_assignment_wins.
(** An assignment that matches no POI, or a bound that is not a number, is an error; but the assignments that precede it have already
    changed the model. *)
Theorem C63_not_atomic_refuted : forall pf rmatch l bad ps, l <> [] -> (forall vr, In vr l -> valid pf rmatch ps vr) -> range_ok bad ->
  (forall n, In n (keys ps) -> rmatch (fst bad ++ "$")%string n = false) ->
  process_setranges pf rmatch (written (l ++ [bad])) ps = (map (updated pf rmatch l) ps, Err ValueError).
Proof.
  intros pf rmatch l bad ps Hn Hv Hb Hm. unfold process_setranges. rewrite written_parsed; [|destruct l; discriminate|].
  2:{ intros vr Hi. apply in_app_or in Hi as [Hi|[<-|[]]]; [apply Hv; exact Hi|exact Hb]. }
  rewrite map_app. rewrite ranges_loop_all by exact Hv. cbn [map ranges_loop].
  replace (filter (rmatch (fst bad ++ "$")%string) (keys (map (updated pf rmatch l) ps))) with (@nil string); [reflexivity|].
  rewrite updated_keys. clear -Hm. induction (keys ps) as [|n r IH]; [reflexivity|]. cbn [filter]. rewrite (Hm n (or_introl eq_refl)). apply IH. intros; apply Hm; now right.
Qed.
Print Assumptions C63_not_atomic_refuted.
Theorem C63_bad_number_refused : forall pf rmatch l vr post ps, (forall v, In v l -> valid pf rmatch ps v) -> (forall v, In v (vr :: post) -> range_ok v) ->
  (exists n, In n (keys ps) /\ rmatch (fst vr ++ "$")%string n = true) ->
  ((lower (snd vr) <> "" /\ pf (lower (snd vr)) = None) \/ (upper (snd vr) <> "" /\ pf (upper (snd vr)) = None)) ->
  exists ps', process_setranges pf rmatch (written (l ++ vr :: post)) ps = (ps', Err ValueError).
Proof.
  intros pf rmatch l vr post ps Hv Hr (n & Hn & Hm) Hbad. unfold process_setranges. rewrite written_parsed; [|destruct l; discriminate|].
  2:{ intros v Hi. apply in_app_or in Hi as [Hi|Hi]; [apply Hv; exact Hi|now apply Hr]. }
  rewrite map_app. rewrite ranges_loop_all by exact Hv. cbn [map ranges_loop].
  set (ps1 := map (updated pf rmatch l) ps). assert (K : keys ps1 = keys ps) by apply updated_keys.
  destruct (filter (rmatch (fst vr ++ "$")%string) (keys ps1)) as [|n0 names] eqn:Ef.
  { exfalso. assert (X : In n []) by (rewrite <- Ef; apply filter_In; rewrite K; auto). exact X. }
  cbn [length Nat.eqb]. rewrite text_split by (apply Hr; now left). unfold set_side at 1.
  destruct (String.eqb (lower (snd vr)) "") eqn:El.
  - apply String.eqb_eq in El. destruct Hbad as [(A & _)|(A & B)]; [contradiction|]. unfold set_side. destruct (String.eqb (upper (snd vr)) "") eqn:Eu; [apply String.eqb_eq in Eu; contradiction|]. rewrite B. eauto.
  - destruct (pf (lower (snd vr))) as [x|] eqn:Ex; [|eauto]. destruct Hbad as [(_ & A)|(A & B)]; [discriminate|]. unfold set_side. destruct (String.eqb (upper (snd vr)) "") eqn:Eu; [apply String.eqb_eq in Eu; contradiction|]. rewrite B. eauto.
Qed.
Print Assumptions C63_bad_number_refused.
Example C63_nonvacuous :
  (forall vr, In vr [("mu", Interval "1" ""); (".*", Value "2"); ("mu", Interval "" "1")] -> valid u_float u_match (m_pois u_model) vr) /\
  written [("mu", Interval "1" ""); (".*", Value "2"); ("mu", Interval "" "1")] = "mu=1:,.*=2,mu=:1" /\
  map (updated u_float u_match [("mu", Interval "1" ""); (".*", Value "2"); ("mu", Interval "" "1")]) (m_pois u_model) =
    [("mu", mkPOI (Some "mu") (Some 2%R) (Some 1%R) (Some 1%R) None None); ("nu", mkPOI (Some "nu") (Some 2%R) (Some 2%R) None None None)].
Proof.
  split; [|split; reflexivity].
  intros vr [<-|[<-|[<-|[]]]]; repeat split; try discriminate; cbn [lower upper snd fst]; try (now left); try (right; eexists; reflexivity); exists "mu"; split; try (now left); reflexivity.
Qed.

(** * C83: POI declarations (process_pois) *)
(** value:min:max declares a POI with this value and range; an empty field is unset. *)
Theorem C83_three_fields : forall pf ps check var v lo hi a b c, part var -> part (v ++ ":" ++ lo ++ ":" ++ hi)%string -> free_of ":" v -> free_of ":" lo -> free_of ":" hi ->
  (check = true -> In var (keys ps)) ->
  opt_float pf v = Ok a -> opt_float pf lo = Ok b -> opt_float pf hi = Ok c ->
  process_pois pf ps check (write (var, v ++ ":" ++ lo ++ ":" ++ hi)%string) = Ok [mkPOI (Some var) b c a None None].
Proof.
  intros pf ps check var v lo hi a b c Hv Hp A B C Hk Ha Hb Hc. unfold process_pois. change (write ?x) with (join "," (map write [x])).
  rewrite assignments_join; [|discriminate|intros x r [E|[]]; inversion E; subst; auto]. cbn [map fst snd mapM]. unfold poi_spec.
  assert (K : (negb check || dmem var ps)%bool = true) by (destruct check; [cbn; now apply dmem_spec, Hk|reflexivity]). rewrite K. cbn [negb].
  cbn [append]. rewrite split_app, split_app, split_free by assumption. cbn [bind]. rewrite Ha. cbn [bind]. rewrite Hb. cbn [bind]. rewrite Hc. reflexivity.
Qed.
Print Assumptions C83_three_fields.
(** The documented form value:min is read as min:max, and the documented form with a value alone is refused. *)
Theorem C83_two_fields_refuted : forall pf ps var v lo a b, part var -> part (v ++ ":" ++ lo)%string -> free_of ":" v -> free_of ":" lo ->
  opt_float pf v = Ok a -> opt_float pf lo = Ok b -> process_pois pf ps false (write (var, v ++ ":" ++ lo)%string) = Ok [mkPOI (Some var) a b None None None].
Proof.
  intros pf ps var v lo a b Hv Hp A B Ha Hb. unfold process_pois. change (write ?x) with (join "," (map write [x])).
  rewrite assignments_join; [|discriminate|intros x r [E|[]]; inversion E; subst; auto]. cbn [map fst snd mapM]. unfold poi_spec. cbn [negb orb].
  cbn [append]. rewrite split_app, split_free by assumption. cbn [bind opt_float String.eqb]. rewrite Ha. cbn [bind]. rewrite Hb. reflexivity.
Qed.
Print Assumptions C83_two_fields_refuted.
Theorem C83_value_alone_refuted : forall pf ps check var v, part var -> part v -> free_of ":" v -> process_pois pf ps check (write (var, v)) = Err ValueError.
Proof.
  intros pf ps check var v Hv Hp A. unfold process_pois. change (write ?x) with (join "," (map write [x])).
  rewrite assignments_join; [|discriminate|intros x r [E|[]]; inversion E; subst; auto]. cbn [map fst snd mapM]. unfold poi_spec. destruct (negb _); [reflexivity|]. now rewrite split_free.
Qed.
Print Assumptions C83_value_alone_refuted.
(** Whatever the specification: one POI per assignment, under the name written, known to the model when this is checked. *)
Theorem C83_names : forall pf ps check spec l, process_pois pf ps check spec = Ok l ->
  Forall2 (fun a p => exists var r, a = [var; r] /\ poi_name p = Some var /\ (check = true -> In var (keys ps))) (assignments spec) l.
Proof.
  intros pf ps check spec l H. unfold process_pois in H. apply mapM_Forall2 in H. eapply Forall2_impl_in; [|exact H]. cbn beta. intros a p _ Hp. unfold poi_spec in Hp.
  destruct a as [|var [|r [|]]]; try discriminate. exists var, r. split; [reflexivity|]. destruct (negb check || dmem var ps)%bool eqn:K; [|discriminate]. cbn [negb] in Hp.
  apply bind_Ok in Hp as (((v & lo) & hi) & _ & Hp). apply bind_Ok in Hp as (x & _ & Hp). apply bind_Ok in Hp as (y & _ & Hp). apply bind_Ok in Hp as (z & _ & Hp). inversion Hp; subst p. split; [reflexivity|].
  intros ->. cbn in K. now apply dmem_spec.
Qed.
Print Assumptions C83_names.
Example C83_nonvacuous : process_pois u_float (m_pois u_model) true "mu=1:0:2,nu=:0:" = Ok [mkPOI (Some "mu") (Some 0%R) (Some 2%R) (Some 1%R) None None; mkPOI (Some "nu") (Some 0%R) None None None None] /\
  part "mu" /\ part "1:0:2" /\ opt_float u_float "1" = Ok (Some 1%R).
Proof. repeat split; discriminate. Qed.
