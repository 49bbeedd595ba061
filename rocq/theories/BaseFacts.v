(** Lemmas about the base.py model *)
From Verif Require Import Py PyFacts Base.
Local Open Scope string_scope.
Local Open Scope list_scope.

Ltac crush_fill :=
  repeat (cbn -[Rltb Rleb Reqb] in *; unfold dset_some, jnum_of, jstr_of in *).

Lemma poi_roundtrip n0 p :
  poi_min p <> None -> poi_max p <> None -> poi_initial p <> None ->
  poi_load n0 (poi_fill p []) = Ok p.
Proof.
  destruct p as [nm mn mx ini un de]; cbn; intros H1 H2 H3.
  destruct mn as [mn|]; [|congruence]. destruct mx as [mx|]; [|congruence].
  destruct ini as [ini|]; [|congruence].
  destruct nm, un, de; reflexivity.
Qed.

Lemma poi_roundtrip_exact n0 p :
  poi_load n0 (poi_fill p []) =
  Ok (mkPOI (poi_name p)
        (Some (match poi_min p with Some x => x | None => 0 end))
        (Some (match poi_max p with Some x => x | None => 0 end))
        (Some (match poi_initial p with Some x => x | None => 0 end))
        (poi_unit p) (poi_descr p)).
Proof.
  destruct p as [nm mn mx ini un de]; destruct nm, mn, mx, ini, un, de; reflexivity.
Qed.

Lemma aux_roundtrip n0 a : aux_load n0 (aux_fill a []) = Ok a.
Proof. destruct a as [nm mn mx un de]; destruct nm, mn, mx, un, de; reflexivity. Qed.

Lemma np_roundtrip n0 p :
  (np_aux_obs p <> None -> np_constraint p <> None) ->
  np_load n0 (np_fill p []) = Ok p.
Proof.
  destruct p as [nm no va co au un de]; cbn; intros H.
  destruct au as [au|].
  - destruct co as [co|]; [|exfalso; apply H; congruence].
    destruct nm, no, un, de; reflexivity.
  - destruct co; destruct nm, no, un, de; reflexivity.
Qed.

(** loading anything yields a consistent NP: an aux. obs. only with a constraint *)
Lemma np_load_consistent n0 d p : np_load n0 d = Ok p -> np_aux_obs p <> None -> np_constraint p <> None.
Proof.
  unfold np_load. intros H Ha.
  inv_bind H. inversion H; subst; cbn in *.
  match goal with |- ?c <> None => destruct c; [congruence|] end.
  congruence.
Qed.

Lemma scaled_unscaled nom var s : var <> 0 -> scaled_value nom var (unscaled_value nom var s) = Ok s.
Proof.
  intros H. unfold scaled_value, unscaled_value.
  rewrite (proj2 (Reqb_false var 0) H). f_equal. field; exact H.
Qed.

Lemma unscaled_scaled nom var u s : scaled_value nom var u = Ok s -> unscaled_value nom var s = u.
Proof.
  unfold scaled_value, unscaled_value. destruct (Reqb var 0) eqn:E; [discriminate|].
  apply Reqb_false in E. intros H; inversion H; subst. field; exact E.
Qed.

Lemma load_field_spec key d default types f :
  load_field key d default types = f ->
  match dget key d with
  | None => f = Ok (FVal default)
  | Some JNull => f = Ok (FVal JNull)
  | Some v =>
    (types = [] -> f = Ok (FVal v)) /\
    (types <> [] -> types <> [TNdarray] -> types <> [TNdarray; TList] ->
       (forall t, In t types -> isinstance v t = true -> f = Ok (FVal v)) /\
       ((forall t, In t types -> isinstance v t = false) -> f = Err TypeError)) /\
    (types = [TNdarray] ->
       f = match v with JList l => match np_array l with Ok a => Ok (FArr a) | Err e => Err e end
                      | _ => Err TypeError end)
  end.
Proof.
  intros <-. unfold load_field.
  destruct (dget key d) as [v|]; [|reflexivity].
  assert (G : v <> JNull ->
    (types = [] -> load_field key [(key, v)] default types = Ok (FVal v)) /\
    (types <> [] -> types <> [TNdarray] -> types <> [TNdarray; TList] ->
       (forall t, In t types -> isinstance v t = true -> load_field key [(key, v)] default types = Ok (FVal v)) /\
       ((forall t, In t types -> isinstance v t = false) -> load_field key [(key, v)] default types = Err TypeError)) /\
    (types = [TNdarray] ->
       load_field key [(key, v)] default types = match v with JList l => match np_array l with Ok a => Ok (FArr a) | Err e => Err e end
                      | _ => Err TypeError end)).
  2:{ unfold load_field in G; cbn [dget] in G; rewrite String.eqb_refl in G.
      destruct v; [reflexivity|apply G; discriminate..]. }
  intros Hv. unfold load_field; cbn [dget]; rewrite String.eqb_refl.
  split; [|split].
  - intros ->. destruct v; try congruence; reflexivity.
  - intros Hne Hn1 Hn2.
    assert (Ht : match types with [TNdarray] => [TNdarray; TList] | _ => types end = types).
    { destruct types as [|[] [|? ?]]; congruence. }
    rewrite Ht.
    assert (Hv2 : forall (X : res field), (match types, v with
           | [TNdarray; TList], JList l => X
           | _, _ => Ok (FVal v) end) = Ok (FVal v)).
    { intros X. destruct types as [|[] [|[] [|? ?]]]; try congruence; destruct v; reflexivity. }
    split.
    + intros t Hin Hi.
      assert (He : existsb (isinstance v) types = true) by (apply existsb_exists; eauto).
      rewrite He. rewrite andb_false_r.
      destruct v; try congruence; try (destruct types as [|[] [|[] [|? ?]]]; congruence).
    + intros Hf.
      assert (He : existsb (isinstance v) types = false).
      { clear -Hf. induction types as [|t ts IH]; [reflexivity|]. cbn [existsb].
        rewrite Hf by (left; reflexivity). rewrite IH; [reflexivity|]. intros; apply Hf; right; auto. }
      rewrite He. destruct types; [congruence|]. destruct v; try congruence; reflexivity.
  - intros ->. destruct v; try congruence; cbn; try reflexivity.
Qed.
