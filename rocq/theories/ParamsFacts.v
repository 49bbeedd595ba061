(** Lemmas about parameter vectors. *)
From Verif Require Import Py PyFacts Base BaseFacts ChannelFacts Params.
Local Open Scope string_scope.
Local Open Scope list_scope.

Lemma index_In x l : (exists i, index x l = Some i) <-> In x l.
Proof.
  induction l as [|y l IH]; cbn.
  - split; [intros [i H]; discriminate|intros []].
  - destruct (String.eqb_spec x y) as [->|Hne].
    + split; eauto.
    + split.
      * intros [i H]. right. apply IH. destruct (index x l); [eauto|discriminate].
      * intros [->|H]; [congruence|]. apply IH in H as [i ->]. cbn. eauto.
Qed.
Lemma index_None x l : index x l = None <-> ~ In x l.
Proof.
  rewrite <- index_In. destruct (index x l); split; try easy; eauto.
  intros H. destruct H. eauto. intros _ [i H]; discriminate.
Qed.
Lemma index_nth x l i : index x l = Some i -> nth_error l i = Some x.
Proof.
  revert i; induction l as [|y l IH]; cbn; [discriminate|]. intros i.
  destruct (String.eqb_spec x y) as [->|].
  - intros [= <-]. reflexivity.
  - destruct (index x l); [|discriminate]. intros [= <-]. cbn. auto.
Qed.
Lemma index_lt x l i : index x l = Some i -> (i < length l)%nat.
Proof. intros H. apply index_nth in H. apply nth_error_Some. congruence. Qed.
Lemma nth_index l i x : NoDup l -> nth_error l i = Some x -> index x l = Some i.
Proof.
  revert i; induction l as [|y l IH]; intros [|i] HN; cbn; try discriminate.
  - intros [= ->]. now rewrite String.eqb_refl.
  - intros H. inversion HN; subst. destruct (String.eqb_spec x y) as [->|].
    + apply nth_error_In in H. contradiction.
    + rewrite (IH i); auto.
Qed.

(** a parameter vector attached to a model has the sizes of the model *)
Definition wf (p : Params) (m : PModel) : Prop :=
  pmod p = Some m /\ length (pois p) = length (pm_pois m) /\ length (nps p) = length (pm_nps m).

Lemma np_names_length m : length (np_names m) = length (pm_nps m).
Proof. apply map_length. Qed.

Lemma pars_init_sizes pi ni m p : pars_init pi ni (Some m) = Ok p -> wf p m.
Proof.
  unfold pars_init. intros H. apply bind_Ok in H as (ps & _ & H). apply bind_Ok in H as (u & H1 & H).
  destruct (Nat.eqb_spec (length ps) (length (pm_pois m))); [|discriminate].
  apply bind_Ok in H as (ns & _ & H). apply bind_Ok in H as (w & H2 & H).
  destruct (Nat.eqb_spec (length ns) (length (pm_nps m))); [|discriminate].
  injection H as <-. repeat split; assumption.
Qed.

(** the stored value for a given input value *)
Definition stored (m : PModel) (par : string) (v : R) (unscaled : bool) : res R :=
  match index par (pm_pois m) with
  | Some _ => Ok v
  | None => match index par (np_names m) with
            | Some i => let '(_, nominal, variation) := nth i (pm_nps m) ("", 0, 0) in
                        if unscaled then scaled_value nominal variation v else Ok v
            | None => Err KeyError
            end
  end.

Lemma lget_set_eq l i x : (i < length l)%nat -> lget (set_nth i x l) i = Ok x.
Proof.
  intros H. unfold lget. rewrite (nth_error_nth' _ 0) by (rewrite set_nth_length; exact H).
  now rewrite nth_set_nth_eq.
Qed.
Lemma lget_set_neq l i j x : i <> j -> lget (set_nth i x l) j = lget l j.
Proof.
  intros H. unfold lget. destruct (Nat.lt_ge_cases j (length l)) as [Hl|Hl].
  - rewrite (nth_error_nth' _ 0) by (rewrite set_nth_length; exact Hl). rewrite (nth_error_nth' l 0) by exact Hl.
    now rewrite nth_set_nth_neq.
  - rewrite (proj2 (nth_error_None _ _)) by (rewrite set_nth_length; exact Hl). now rewrite (proj2 (nth_error_None l j)).
Qed.

Lemma pars_set_spec p m par v u : wf p m ->
  match stored m par v u with
  | Err e => pars_set p par v u = Err e
  | Ok x => exists q, pars_set p par v u = Ok q /\ wf q m /\ pars_get q par = Ok x /\
              forall other, other <> par -> pars_get q other = pars_get p other
  end.
Proof.
  intros (Hm & Hp & Hn). unfold stored, pars_set. rewrite Hm.
  destruct (index par (pm_pois m)) as [i|] eqn:Hi.
  - pose proof (index_lt _ _ _ Hi) as Hl. unfold lset. rewrite (proj2 (Nat.ltb_lt _ _)) by lia. cbn [bind].
    eexists; split; [reflexivity|]. split; [|split].
    + repeat split; cbn; auto. now rewrite set_nth_length.
    + unfold pars_get; cbn. rewrite Hi. apply lget_set_eq. lia.
    + intros other Ho. unfold pars_get; cbn. rewrite Hm. destruct (index other (pm_pois m)) as [j|] eqn:Hj; [|reflexivity].
      apply lget_set_neq. intros ->. apply index_nth in Hi, Hj. congruence.
  - destruct (index par (np_names m)) as [i|] eqn:Hj; [|reflexivity].
    destruct (nth i (pm_nps m) ("", 0, 0)) as [[nm nom] var].
    pose proof (index_lt _ _ _ Hj) as Hl. rewrite np_names_length in Hl.
    destruct (if u then scaled_value nom var v else Ok v) as [x|e] eqn:Hx; cbn [bind]; [|reflexivity].
    unfold lset. rewrite (proj2 (Nat.ltb_lt _ _)) by lia. cbn [bind].
    eexists; split; [reflexivity|]. split; [|split].
    + repeat split; cbn; auto. now rewrite set_nth_length.
    + unfold pars_get; cbn. rewrite Hi, Hj. apply lget_set_eq. lia.
    + intros other Ho. unfold pars_get; cbn. rewrite Hm. destruct (index other (pm_pois m)); [reflexivity|].
      destruct (index other (np_names m)) as [j|] eqn:Hk; [|reflexivity].
      apply lget_set_neq. intros ->. apply index_nth in Hj, Hk. congruence.
Qed.

Lemma pars_get_total p m par : wf p m -> In par (pm_pois m ++ np_names m) -> exists x, pars_get p par = Ok x.
Proof.
  intros (Hm & Hp & Hn) Hin. unfold pars_get. rewrite Hm.
  assert (forall l i, (i < length l)%nat -> exists x, lget l i = Ok x) as HL.
  { intros l i H. unfold lget. rewrite (nth_error_nth' l 0 H). eauto. }
  destruct (index par (pm_pois m)) as [i|] eqn:Hi; [apply index_lt in Hi; apply HL; lia|].
  destruct (index par (np_names m)) as [i|] eqn:Hj; [apply index_lt in Hj; rewrite np_names_length in Hj; apply HL; lia|].
  apply index_None in Hi, Hj. apply in_app_or in Hin as [H|H]; contradiction.
Qed.

Lemma list_ext_nth (l k : list R) : length l = length k -> (forall i, (i < length l)%nat -> lget l i = lget k i) -> l = k.
Proof.
  revert k; induction l as [|x l IH]; intros [|y k]; cbn; try discriminate; [reflexivity|].
  intros HL H. f_equal.
  - specialize (H 0%nat ltac:(lia)). cbn in H. congruence.
  - apply IH; [lia|]. intros i Hi. apply (H (S i)). lia.
Qed.

Lemma pars_ext p q m : wf p m -> wf q m -> NoDup (pm_pois m ++ np_names m) ->
  (forall par, In par (pm_pois m ++ np_names m) -> pars_get p par = pars_get q par) -> p = q.
Proof.
  intros (Hm & Hp & Hn) (Hm' & Hp' & Hn') HN H. destruct p as [pp pn pm], q as [qp qn qm]; cbn in *. subst pm qm.
  assert (pp = qp) as ->.
  { apply list_ext_nth; [lia|]. intros i Hi. destruct (nth_error_length (pm_pois m) i) as [x Hx]; [lia|].
    specialize (H x). rewrite in_app_iff in H. specialize (H (or_introl (nth_error_In _ _ Hx))).
    unfold pars_get in H; cbn in H. rewrite (nth_index _ _ _ (NoDup_app_l _ _ HN) Hx) in H. exact H. }
  assert (pn = qn) as ->; [|reflexivity].
  apply list_ext_nth; [lia|]. intros i Hi. destruct (nth_error_length (np_names m) i) as [x Hx]; [rewrite np_names_length; lia|].
  specialize (H x). rewrite in_app_iff in H. specialize (H (or_intror (nth_error_In _ _ Hx))).
  unfold pars_get in H; cbn in H.
  assert (~ In x (pm_pois m)) as Hnx.
  { intros Hin. exact (NoDup_app_disj _ _ x HN Hin (nth_error_In _ _ Hx)). }
  rewrite (proj2 (index_None _ _) Hnx), (nth_index _ _ _ (NoDup_app_r _ _ HN) Hx) in H. exact H.
Qed.

Lemma set_all_spec m d u : forall L p, wf p m -> NoDup L ->
  (forall par, In par L -> exists v x, dget par d = Some v /\ stored m par v u = Ok x) ->
  exists q, foldM (fun q par => let! v := dgetE par d in pars_set q par v u) L p = Ok q /\ wf q m /\
    (forall par v x, In par L -> dget par d = Some v -> stored m par v u = Ok x -> pars_get q par = Ok x) /\
    (forall par, ~ In par L -> pars_get q par = pars_get p par).
Proof.
  induction L as [|a L IH]; intros p Hw HN H; cbn [foldM].
  - exists p. repeat split; auto; try apply Hw; contradiction.
  - inversion HN as [|? ? Ha HN']; subst. destruct (H a (or_introl eq_refl)) as (v & x & Hv & Hx).
    unfold dgetE at 1. rewrite Hv. cbn [bind]. pose proof (pars_set_spec p m a v u Hw) as S. rewrite Hx in S.
    destruct S as (q & -> & Hq & Hget & Hoth). cbn [bind].
    destruct (IH q Hq HN') as (r & Hr & Hwr & H1 & H2); [intros; apply H; now right|].
    exists r. split; [exact Hr|]. split; [exact Hwr|]. split.
    + intros par v' x' [<-|Hin] Hv' Hx'; [|eauto]. rewrite H2 by assumption. rewrite Hget. congruence.
    + intros par Hnin. rewrite H2 by (intros F; apply Hnin; now right). apply Hoth. intros ->. apply Hnin. now left.
Qed.

(** dict *)
Lemma dget_dict_of l : forall d k, NoDup (map fst l) -> dget k (dict_of l d) =
  match dget k l with Some v => Some v | None => dget k d end.
Proof.
  unfold dict_of. induction l as [|[a v] l IH]; intros d k HN; cbn; [reflexivity|].
  inversion HN as [|? ? Ha HN']; subst. rewrite IH by exact HN'. destruct (String.eqb_spec k a) as [->|Hne].
  - rewrite (proj2 (dget_None a l)) by exact Ha. apply dget_dset_eq.
  - destruct (dget k l); [reflexivity|]. now rewrite dget_dset_neq.
Qed.

Lemma map_fst_combine {A B} (l : list A) (k : list B) : length l = length k -> map fst (combine l k) = l.
Proof. revert k; induction l; intros [|]; cbn; try discriminate; auto. intros H. f_equal. auto. Qed.

Lemma dget_combine {V} l (k : list V) x i : NoDup l -> length l = length k -> index x l = Some i -> dget x (combine l k) = nth_error k i.
Proof.
  revert k i; induction l as [|y l IH]; intros [|z k] i HN HL; cbn; try discriminate.
  inversion HN; subst. destruct (String.eqb_spec x y); [intros [= <-]; reflexivity|].
  destruct (index x l) eqn:E; [|discriminate]. intros [= <-]. cbn. apply IH; auto.
Qed.
Lemma dget_combine_None {V} l (k : list V) x : ~ In x l -> dget x (combine l k) = None.
Proof.
  intros H. apply dget_None. intros Hin. apply H. unfold keys in Hin. apply in_map_iff in Hin as ([a b] & <- & Hin). now apply in_combine_l in Hin.
Qed.

Lemma nth_error_unscaled m l i nm nom var x : length l = length (pm_nps m) -> nth_error (pm_nps m) i = Some (nm, nom, var) -> nth_error l i = Some x ->
  nth_error (unscaled_nps m l) i = Some (unscaled_value nom var x).
Proof. intros HL H1 H2. unfold unscaled_nps. rewrite nth_error_zipwith, H1, H2. reflexivity. Qed.

Lemma pars_dict_plain_get p m u par : wf p m -> NoDup (pm_pois m ++ np_names m) -> In par (pm_pois m ++ np_names m) ->
  exists v x, dget par (pars_dict_plain m (pois p) (nps p) u false) = Some v /\ pars_get p par = Ok x /\
    (u = false -> v = x) /\ (u = true -> (In par (pm_pois m) -> v = x) /\
       forall i nom var, index par (np_names m) = Some i -> nth_error (pm_nps m) i = Some (par, nom, var) -> v = unscaled_value nom var x).
Proof.
  intros Hw HN Hin. destruct (pars_get_total _ _ _ Hw Hin) as [x Hx]. destruct Hw as (Hm & Hp & Hn).
  unfold pars_dict_plain. pose proof (NoDup_app_l _ _ HN) as HN1. pose proof (NoDup_app_r _ _ HN) as HN2.
  assert (length (np_names m) = length (if u then unscaled_nps m (nps p) else nps p)) as HL.
  { rewrite np_names_length. destruct u; [|congruence]. unfold unscaled_nps. rewrite zipwith_length. lia. }
  rewrite dget_dict_of by (rewrite map_fst_combine by exact HL; exact HN2).
  unfold pars_get in Hx. rewrite Hm in Hx.
  destruct (index par (pm_pois m)) as [i|] eqn:Hi.
  - assert (~ In par (np_names m)) as Hnn.
    { intros F. apply (NoDup_app_disj _ _ par HN); [apply index_In; eauto|exact F]. }
    rewrite dget_combine_None by exact Hnn.
    rewrite dget_dict_of by (rewrite map_fst_combine by congruence; exact HN1).
    rewrite (dget_combine _ _ _ i) by (auto; congruence). unfold lget in Hx. destruct (nth_error (pois p) i) as [y|] eqn:Hy; [|discriminate].
    injection Hx as <-. exists y, y. split; [reflexivity|]. split; [unfold pars_get; rewrite Hm, Hi; unfold lget; now rewrite Hy|]. split; [auto|].
    intros _. split; [auto|]. intros j nom var Hj. exfalso. apply Hnn. apply index_In. eauto.
  - destruct (index par (np_names m)) as [i|] eqn:Hj; [|discriminate].
    rewrite (dget_combine _ _ _ i) by auto.
    unfold lget in Hx. destruct (nth_error (nps p) i) as [y|] eqn:Hy; [|discriminate]. injection Hx as <-.
    assert (exists nm nom var, nth_error (pm_nps m) i = Some (nm, nom, var)) as (nm & nom & var & Hnp).
    { destruct (nth_error_length (pm_nps m) i) as [[[? ?] ?] H]; [apply index_lt in Hj; rewrite np_names_length in Hj; lia|eauto]. }
    assert (pars_get p par = Ok y) as Hg by (unfold pars_get; rewrite Hm, Hi, Hj; unfold lget; now rewrite Hy).
    destruct u.
    + rewrite (nth_error_unscaled m _ i nm nom var y) by auto. eexists; exists y. split; [reflexivity|]. split; [exact Hg|]. split; [discriminate|].
      intros _. split; [intros F; apply index_None in Hi; contradiction|]. intros j nom' var' [= <-] H. rewrite Hnp in H. injection H as _ <- <-. reflexivity.
    + rewrite Hy. exists y, y. split; [reflexivity|]. split; [exact Hg|]. split; [auto|discriminate].
Qed.

Lemma nth_error_np m i par : nth_error (np_names m) i = Some par -> exists nom var, nth_error (pm_nps m) i = Some (par, nom, var).
Proof.
  unfold np_names. rewrite nth_error_map. destruct (nth_error (pm_nps m) i) as [[[a b] c]|]; [|discriminate].
  cbn. intros [= <-]. eauto.
Qed.

Lemma dict_set_roundtrip p q m u : wf p m -> wf q m -> NoDup (pm_pois m ++ np_names m) ->
  (u = true -> forall nm nom var, In (nm, nom, var) (pm_nps m) -> var <> 0) ->
  set_from_dict q (pars_dict_plain m (pois p) (nps p) u false) u = Ok p.
Proof.
  intros Hp Hq HN Hv. unfold set_from_dict. rewrite (proj1 Hq).
  set (d := pars_dict_plain m (pois p) (nps p) u false).
  assert (forall par, In par (pm_pois m ++ np_names m) -> exists v x, dget par d = Some v /\ pars_get p par = Ok x /\ stored m par v u = Ok x) as H.
  { intros par Hin. destruct (pars_dict_plain_get p m u par Hp HN Hin) as (v & x & Hd & Hg & H0 & H1).
    exists v, x. split; [exact Hd|]. split; [exact Hg|]. unfold stored.
    destruct (index par (pm_pois m)) as [i|] eqn:Hi.
    - destruct u; [|now rewrite H0]. destruct (H1 eq_refl) as [A _]. rewrite A; [reflexivity|apply index_In; eauto].
    - destruct (index par (np_names m)) as [i|] eqn:Hj.
      + destruct (nth_error_np m i par (index_nth _ _ _ Hj)) as (nom & var & Hnp).
        rewrite (nth_error_nth _ _ ("", 0, 0) Hnp). destruct u; [|now rewrite H0].
        destruct (H1 eq_refl) as [_ A]. rewrite (A i nom var eq_refl Hnp). apply scaled_unscaled.
        apply (Hv eq_refl par nom var). eapply nth_error_In; eauto.
      + apply index_None in Hi, Hj. apply in_app_or in Hin as [F|F]; contradiction. }
  destruct (set_all_spec m d u (pm_pois m ++ np_names m) q Hq HN) as (r & Hr & Hw & Hin & _).
  { intros par Hin. destruct (H par Hin) as (v & x & A & _ & B). eauto. }
  rewrite Hr. f_equal. apply (pars_ext r p m); auto. intros par Hpar. destruct (H par Hpar) as (v & x & A & B & C).
  rewrite (Hin par v x Hpar A C). congruence.
Qed.

Lemma all_some_spec {A} (l : list (option A)) : match all_some l with Some r => l = map Some r | None => In None l end.
Proof.
  induction l as [|[x|] l IH]; cbn; auto.
  destruct (all_some l); cbn; [now f_equal|now right].
Qed.
(** the array filled from a dictionary *)
Definition fill_arr (names : list string) (d : dict (option R)) (arr : list (option R)) : list (option R) :=
  fold_left (fun arr kv => match index (fst kv) names with Some i => set_nth i (snd kv) arr | None => arr end) d arr.
Lemma fill_arr_length names d : forall arr, length (fill_arr names d arr) = length arr.
Proof.
  unfold fill_arr. induction d as [|[k v] d IH]; intros arr; cbn [fold_left]; [reflexivity|].
  rewrite IH. cbn. destruct (index k names); [apply set_nth_length|reflexivity].
Qed.
Lemma fill_arr_nth names d : NoDup names -> NoDup (keys d) -> forall arr i n, length arr = length names -> nth_error names i = Some n ->
  nth i (fill_arr names d arr) None = match dget n d with Some v => v | None => nth i arr None end.
Proof.
  intros HN. unfold fill_arr. induction d as [|[k v] d IH]; intros HK arr i n HL Hn; cbn [fold_left fst snd]; [reflexivity|].
  cbn in HK. inversion HK as [|? ? Hk HK']; subst.
  rewrite (IH HK' _ i n); [|destruct (index k names); [rewrite set_nth_length|]; exact HL|exact Hn].
  cbn [dget]. destruct (String.eqb_spec n k) as [->|Hne].
  - rewrite (proj2 (dget_None k d) Hk), (nth_index _ _ _ HN Hn). apply nth_set_nth_eq. rewrite HL. apply nth_error_Some. congruence.
  - destruct (dget n d); [reflexivity|]. destruct (index k names) as [j|] eqn:Hj; [|reflexivity].
    apply nth_set_nth_neq. intros ->. apply index_nth in Hj. congruence.
Qed.
