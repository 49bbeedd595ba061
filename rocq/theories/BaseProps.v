(** Property theorems C01-C04 (src/fastprof/base.py) *)
From Verif Require Import Py PyFacts Base BaseFacts.
Local Open Scope string_scope.
Local Open Scope list_scope.

(** C01: dump_dict then load_dict gives the same POI if all its numerical fields are set. *)
Theorem C01_poi_save_load_roundtrip : forall (name0 : option string) (p : POI),
  poi_min p <> None -> poi_max p <> None -> poi_initial p <> None ->
  poi_load name0 (poi_fill p []) = Ok p.
Proof. exact poi_roundtrip. Qed.
Print Assumptions C01_poi_save_load_roundtrip.

Example C01_poi_nonvacuous :
  let p := mkPOI (Some "mu") (Some 0) (Some 20) (Some 1) (Some "fb") None in
  poi_min p <> None /\ poi_max p <> None /\ poi_initial p <> None /\
  poi_load (Some "other") (poi_fill p []) = Ok p.
Proof. repeat split; cbn; try congruence. Qed.

(** C01, exact behaviour on every POI: name, unit and description always survive, each unset numerical
    field comes back as 0. *)
Theorem C01_poi_save_load_exact : forall (name0 : option string) (p : POI),
  exists q, poi_load name0 (poi_fill p []) = Ok q /\
    poi_name q = poi_name p /\ poi_unit q = poi_unit p /\ poi_descr q = poi_descr p /\
    (forall x, poi_min p = Some x -> poi_min q = Some x) /\ (poi_min p = None -> poi_min q = Some 0) /\
    (forall x, poi_max p = Some x -> poi_max q = Some x) /\ (poi_max p = None -> poi_max q = Some 0) /\
    (forall x, poi_initial p = Some x -> poi_initial q = Some x) /\ (poi_initial p = None -> poi_initial q = Some 0).
Proof.
  intros n0 p; eexists; split; [exact (poi_roundtrip_exact n0 p)|].
  cbn; repeat split; intros; try (rewrite H; reflexivity).
Qed.
Print Assumptions C01_poi_save_load_exact.

(** C01 is violated by the code for POIs with an unset bound: an unbounded POI is reloaded with range [.., 0]. *)
Theorem C01_poi_unset_field_lost_refuted :
  exists (p q : POI), poi_load None (poi_fill p []) = Ok q /\ poi_max p = None /\ poi_max q = Some 0.
Proof.
  exists (mkPOI (Some "mu") None None (Some 1) None None); eexists; split; [reflexivity|split; reflexivity].
Qed.
Print Assumptions C01_poi_unset_field_lost_refuted.

(** C02 *)
Theorem C02_aux_save_load_roundtrip : forall (name0 : option string) (a : Aux),
  aux_load name0 (aux_fill a []) = Ok a.
Proof. exact aux_roundtrip. Qed.
Print Assumptions C02_aux_save_load_roundtrip.

Theorem C02_np_save_load_roundtrip : forall (name0 : option string) (p : NP),
  (np_aux_obs p <> None -> np_constraint p <> None) ->
  np_load name0 (np_fill p []) = Ok p.
Proof. exact np_roundtrip. Qed.
Print Assumptions C02_np_save_load_roundtrip.

(** every NP that was itself loaded from markup satisfies the hypothesis above, so save/load is stable *)
Theorem C02_np_loaded_is_consistent : forall name0 sdict p,
  np_load name0 sdict = Ok p -> np_aux_obs p <> None -> np_constraint p <> None.
Proof. exact np_load_consistent. Qed.
Print Assumptions C02_np_loaded_is_consistent.

Theorem C02_np_load_save_load_stable : forall name0 name1 sdict p,
  np_load name0 sdict = Ok p -> np_load name1 (np_fill p []) = Ok p.
Proof. intros n0 n1 d p H; apply np_roundtrip; apply (np_load_consistent n0 d p H). Qed.
Print Assumptions C02_np_load_save_load_stable.

(** C02: the values read: what is given is kept; a missing nominal value is 0, a missing variation is the constraint width,
    or 1 for an unconstrained NP *)
Theorem C02_np_values_read : forall name0 sdict p, np_load name0 sdict = Ok p ->
  (forall x, dget "nominal_value" sdict = Some (JFlt x) -> np_nominal p = Some x) /\ (dget "nominal_value" sdict = None -> np_nominal p = Some 0%R) /\
  (forall x, dget "constraint" sdict = Some (JFlt x) -> np_constraint p = Some x) /\ (dget "constraint" sdict = None -> np_constraint p = None) /\
  (forall x, dget "variation" sdict = Some (JFlt x) -> np_variation p = x) /\
  (dget "variation" sdict = None -> forall x, np_constraint p = Some x -> np_variation p = x) /\
  (dget "variation" sdict = None -> np_constraint p = None -> np_variation p = 1%R).
Proof.
  intros name0 sdict p H. unfold np_load in H.
  apply bind_Ok in H as (nm & _ & H). apply bind_Ok in H as (ds & _ & H). apply bind_Ok in H as (un & _ & H).
  apply bind_Ok in H as (nom & Hnom & H). apply bind_Ok in H as (v0 & Hv & H). apply bind_Ok in H as (c & Hc & H). apply bind_Ok in H as (aux & _ & H).
  inversion H; subst p; clear H. cbn [np_nominal np_variation np_constraint].
  unfold load_field in Hnom, Hv, Hc.
  repeat split.
  - intros x E. rewrite E in Hnom. cbn in Hnom. now inversion Hnom.
  - intros E. rewrite E in Hnom. cbn in Hnom. now inversion Hnom.
  - intros x E. rewrite E in Hc. cbn in Hc. now inversion Hc.
  - intros E. rewrite E in Hc. cbn in Hc. now inversion Hc.
  - intros x E. rewrite E in Hv. cbn in Hv. now inversion Hv.
  - intros E x Ex. rewrite E in Hv. cbn in Hv. inversion Hv. now subst c.
  - intros E Ex. rewrite E in Hv. cbn in Hv. inversion Hv. now subst c.
Qed.
Print Assumptions C02_np_values_read.
Example C02_np_values_read_nonvacuous : exists p, np_load None [("name", JStr "a"); ("constraint", JFlt 2)] = Ok p /\ np_variation p = 2%R /\ np_nominal p = Some 0%R.
Proof. eexists. repeat split. Qed.

Example C02_np_nonvacuous :
  let d := [("name", JStr "np1"); ("constraint", JFlt 2); ("aux_obs", JStr "aux_np1")] in
  np_load None d = Ok (mkNP (Some "np1") (Some 0) 2 (Some 2) (Some "aux_np1") None None).
Proof. reflexivity. Qed.

(** An NP object built with an auxiliary observable but no constraint loses it. *)
Theorem C02_np_inconsistent_lost_refuted :
  exists p q, np_load None (np_fill p []) = Ok q /\ np_aux_obs p = Some "aux" /\ np_aux_obs q = None.
Proof.
  exists (mkNP (Some "np1") (Some 0) 1 None (Some "aux") None None); eexists; split; [reflexivity|split; reflexivity].
Qed.
Print Assumptions C02_np_inconsistent_lost_refuted.

(** C03 *)
Theorem C03_scaled_of_unscaled : forall nominal variation s,
  variation <> 0 -> scaled_value nominal variation (unscaled_value nominal variation s) = Ok s.
Proof. exact scaled_unscaled. Qed.
Print Assumptions C03_scaled_of_unscaled.

Theorem C03_unscaled_of_scaled : forall nominal variation u,
  variation <> 0 -> exists s, scaled_value nominal variation u = Ok s /\ unscaled_value nominal variation s = u.
Proof.
  intros n v u Hv. exists ((u - n) / v).
  assert (E : scaled_value n v u = Ok ((u - n) / v)).
  { unfold scaled_value. rewrite (proj2 (Reqb_false v 0) Hv). reflexivity. }
  split; [exact E|exact (unscaled_scaled n v u _ E)].
Qed.
Print Assumptions C03_unscaled_of_scaled.

(** scaled 0 is nominal, scaled 1 is one variation away, and pulls agree:
    (u - u0)/constraint = (s - s0)/scaled_constraint *)
Theorem C03_scale_anchors_and_pulls : forall (p : NP) (nominal s s0 c : R),
  np_nominal p = Some nominal -> np_constraint p = Some c -> c <> 0 -> np_variation p <> 0 ->
  unscaled_value nominal (np_variation p) 0 = nominal /\
  unscaled_value nominal (np_variation p) 1 = nominal + np_variation p /\
  exists sc, scaled_constraint p = Ok sc /\
    (unscaled_value nominal (np_variation p) s - unscaled_value nominal (np_variation p) s0) / c = (s - s0) / sc.
Proof.
  intros p nominal s s0 c Hn Hc Hc0 Hv. unfold unscaled_value. split; [ring|split; [ring|]].
  exists (c / np_variation p). unfold scaled_constraint. rewrite Hc, (proj2 (Reqb_false _ 0) Hv).
  split; [reflexivity|field; auto].
Qed.
Print Assumptions C03_scale_anchors_and_pulls.

Theorem C03_zero_variation_rejected : forall nominal u, scaled_value nominal 0 u = Err ZeroDivisionError.
Proof. intros; unfold scaled_value; rewrite (proj2 (Reqb_true 0 0) eq_refl); reflexivity. Qed.
Print Assumptions C03_zero_variation_rejected.

(** C04: the complete contract of reading a field (types: non-empty accepted list, other than the array case) *)
Theorem C04_load_field_contract : forall key (d : dict jv) default types,
  (dget key d = None -> load_field key d default types = Ok (FVal default)) /\
  (dget key d = Some JNull -> load_field key d default types = Ok (FVal JNull)) /\
  (forall v, dget key d = Some v -> types = [] -> load_field key d default types = Ok (FVal v)) /\
  (forall v t, dget key d = Some v -> In t types -> isinstance v t = true ->
     ~ In TNdarray types -> load_field key d default types = Ok (FVal v)) /\
  (forall v, dget key d = Some v -> v <> JNull -> types <> [] -> ~ In TNdarray types ->
     (forall t, In t types -> isinstance v t = false) -> load_field key d default types = Err TypeError) /\
  (forall v, dget key d = Some v -> v <> JNull -> types = [TNdarray] ->
     load_field key d default types =
       match v with JList l => match np_array l with Ok a => Ok (FArr a) | Err e => Err e end | _ => Err TypeError end).
Proof.
  intros key d default types.
  pose proof (load_field_spec key d default types _ eq_refl) as H.
  assert (N1 : ~ In TNdarray types -> types <> [TNdarray]) by (intros A ->; apply A; left; reflexivity).
  assert (N2 : ~ In TNdarray types -> types <> [TNdarray; TList]) by (intros A ->; apply A; left; reflexivity).
  repeat split; intros.
  - rewrite H0 in H; exact H.
  - rewrite H0 in H; exact H.
  - rewrite H0 in H. destruct v; try (apply H; assumption); exact H.
  - rewrite H0 in H. assert (Hne : types <> []) by (intros ->; destruct H1).
    destruct v; try exact H; destruct H as [_ [H _]]; exact (proj1 (H Hne (N1 H3) (N2 H3)) t H1 H2).
  - rewrite H0 in H. destruct v; try congruence; destruct H as [_ [H _]]; exact (proj2 (H H2 (N1 H3) (N2 H3)) H4).
  - rewrite H0 in H. destruct v; try congruence; destruct H as [_ [_ H]]; exact (H H2).
Qed.
Print Assumptions C04_load_field_contract.

Example C04_nonvacuous :
  load_field "x" [("y", JInt 2); ("x", JStr "s")] (JInt 0) [TInt; TFloat] = Err TypeError /\
  load_field "y" [("y", JInt 2); ("x", JStr "s")] (JInt 0) [TInt; TFloat] = Ok (FVal (JInt 2)) /\
  load_field "z" [("y", JInt 2); ("x", JStr "s")] (JInt 7) [TInt; TFloat] = Ok (FVal (JInt 7)).
Proof. repeat split. Qed.

(** The documented behaviour ("default is returned ... if the value type is not among the ones listed") is not
    what happens: a wrong type raises. *)
Theorem C04_documented_default_on_wrong_type_refuted :
  exists key d default types v, dget key d = Some v /\ types <> [] /\
    (forall t, In t types -> isinstance v t = false) /\ load_field key d default types <> Ok (FVal default).
Proof.
  exists "x", [("x", JStr "s")], (JInt 0), [TInt], (JStr "s").
  repeat split; try (cbn; congruence). intros t [<-|[]]; reflexivity.
Qed.
Print Assumptions C04_documented_default_on_wrong_type_refuted.
