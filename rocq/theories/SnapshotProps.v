(** C115: the values of a snapshot. *)
From Verif Require Import Py PyFacts Base FileIO FileIOProps CommandChannelProps Snapshot.
Local Open Scope string_scope.
Local Open Scope list_scope.

(** ** Specification *)
(** the snapshot named in the options is present in the ROOT file *)
Definition holds_snapshot (root : root_files) (o : SnapOpts) (s : snapshot) : Prop :=
  exists f ws, root (sn_ws_file o) = Some f /\ dget (sn_ws_name o) f = Some ws /\ dget (sn_snapshot o) ws = Some s.
(** the flavor for a given value of --markup *)
Definition markup_flavor (markup flavor : string) : Prop := (markup = "json" /\ flavor = "json") \/ (markup <> "json" /\ flavor = "yaml").

(** ** Lemmas *)
Lemma find_snapshot_Ok root o s : find_snapshot root o = Ok s <-> holds_snapshot root o s.
Proof.
  unfold find_snapshot, holds_snapshot. split.
  - destruct (root (sn_ws_file o)) as [f|]; [|discriminate]. intros H. apply bind_Ok in H as (ws & H1 & H2). unfold dgetE in *. destruct (dget (sn_ws_name o) f) as [ws'|] eqn:E1; [|discriminate]. injection H1 as ->.
    destruct (dget (sn_snapshot o) ws) as [s'|] eqn:E2; [|discriminate]. injection H2 as ->. exists f, ws. auto.
  - intros (f & ws & -> & H1 & H2). unfold dgetE. rewrite H1. cbn [bind]. now rewrite H2.
Qed.
Lemma values_app s p : snapshot_values (s ++ [p]) = match snd p with Some x => dset (fst p) (JFlt x) (snapshot_values s) | None => snapshot_values s end.
Proof. unfold snapshot_values. rewrite fold_left_app. reflexivity. Qed.
Lemma dget_dset_cases {V} k (v : V) d q : dget q (dset k v d) = if String.eqb q k then Some v else dget q d.
Proof.
  induction d as [|[a b] d IH]; cbn [dset dget]; [reflexivity|]. destruct (String.eqb_spec k a) as [->|Hn]; cbn [dget].
  - destruct (String.eqb q a); reflexivity.
  - destruct (String.eqb_spec q a) as [->|Hq]; [destruct (String.eqb_spec a k); [congruence|reflexivity]|exact IH].
Qed.
Lemma values_spec s : NoDup (map fst s) -> forall n v, dget n (snapshot_values s) = Some v <-> exists x, v = JFlt x /\ In (n, Some x) s.
Proof.
  induction s as [|[k o] s IH] using rev_ind; intros HN n v; [split; [discriminate|intros (x & _ & [])]|]. rewrite map_app in HN. cbn [map fst] in HN. apply NoDup_remove in HN as (HN & Hk). rewrite app_nil_r in HN, Hk. specialize (IH HN).
  assert (U : forall x, In (k, x) s -> False) by (intros x Hx; apply Hk; apply in_map_iff; exists (k, x); auto).
  rewrite values_app. cbn [fst snd]. destruct o as [y|].
  - rewrite dget_dset_cases. destruct (String.eqb_spec n k) as [->|Hn].
    + split; [intros [= <-]; exists y; split; [reflexivity|apply in_or_app; right; now left]|]. intros (x & -> & Hx). apply in_app_or in Hx as [Hx|[[= <-]|[]]]; [destruct (U _ Hx)|reflexivity].
    + rewrite IH. split; intros (x & -> & Hx); exists x; (split; [reflexivity|]); [apply in_or_app; now left|]. apply in_app_or in Hx as [Hx|[Hx|[]]]; [exact Hx|congruence].
  - rewrite IH. split; intros (x & -> & Hx); exists x; (split; [reflexivity|]); [apply in_or_app; now left|]. apply in_app_or in Hx as [Hx|[Hx|[]]]; [exact Hx|congruence].
Qed.

(** ** C115 *)
(** A run without error writes the output file only; loaded with the flavor of --markup (JSON, or YAML for all other values), it gives exactly the names and values of the real parameters of the snapshot. *)
Theorem C115_saved : forall C w root o f ops flavor, faithful C -> markup_flavor (sn_markup o) flavor -> snapshot_run C w root o = (ops, None) ->
  exists s d, holds_snapshot root o s /\ load_file C (run_ops ops f) (sn_out o) (Some flavor) = Ok d /\ (forall q, q <> sn_out o -> run_ops ops f q = f q) /\
    (NoDup (map fst s) -> forall n v, dget n d = Some v <-> exists x, v = JFlt x /\ In (n, Some x) s).
Proof.
  intros C w root o f ops flavor HC Hf H. unfold snapshot_run in H. destruct (find_snapshot root o) as [s|e] eqn:Es; [|discriminate]. apply find_snapshot_Ok in Es.
  assert (snapshot_flavor (sn_markup o) = flavor) as Ef. { unfold snapshot_flavor. destruct Hf as [(-> & ->)|(Hn & ->)]; [reflexivity|]. destruct (String.eqb_spec (sn_markup o) "json"); [contradiction|reflexivity]. }
  rewrite Ef in H. destruct (C89_saved_file_is_loaded _ _ _ _ _ _ f HC H) as (A & B). exists s, (snapshot_values s). split; [exact Es|]. split; [exact A|]. split; [exact B|]. intros HN. apply values_spec, HN.
Qed.
Print Assumptions C115_saved.

(** A file that cannot be opened, or that lacks the workspace or the snapshot: an exception, and nothing is written. *)
Theorem C115_missing : forall C w root o, (forall s, ~ holds_snapshot root o s) -> exists e, snapshot_run C w root o = ([], Some e) /\ (root (sn_ws_file o) = None -> e = IOError) /\ (root (sn_ws_file o) <> None -> e = KeyError).
Proof.
  intros C w root o H. unfold snapshot_run. destruct (find_snapshot root o) as [s|e] eqn:Es; [apply find_snapshot_Ok in Es; destruct (H s Es)|]. exists e. split; [reflexivity|]. unfold find_snapshot in Es. destruct (root (sn_ws_file o)) as [f|].
  - split; [discriminate|]. intros _. unfold dgetE in Es. destruct (dget (sn_ws_name o) f) as [ws|]; cbn [bind] in Es; [|congruence]. destruct (dget (sn_snapshot o) ws); congruence.
  - split; [congruence|intros X; now destruct X].
Qed.
Print Assumptions C115_missing.

(** intended: an unknown value of --markup is refused, as it is by the other saving functions.  Refuted: the file is written as YAML. *)
Theorem C115_unknown_markup_refuted : forall C w root ws_file ws_name sn out markup, markup <> "json" ->
  snapshot_run C w root (mkSO ws_file ws_name sn out markup) = snapshot_run C w root (mkSO ws_file ws_name sn out "yaml").
Proof. intros. unfold snapshot_run, find_snapshot, snapshot_flavor. cbn [sn_ws_file sn_ws_name sn_snapshot sn_out sn_markup]. destruct (String.eqb_spec markup "json"); [contradiction|]. reflexivity. Qed.
Print Assumptions C115_unknown_markup_refuted.

(** intended: the extension of the output file decides.  Refuted: with the default markup, a file named .yaml holds JSON. *)
Theorem C115_extension_refuted : forall C w root o f s ops, faithful C -> sn_markup o = "json" -> last4 (sn_out o) = "yaml" -> holds_snapshot root o s -> snapshot_run C w root o = (ops, None) ->
  exists l, c_dump C "json" (snapshot_values s) = (l, None) /\ run_ops ops f (sn_out o) = Some (full_text l) /\ load_file C (run_ops ops f) (sn_out o) None = c_parse C "yaml" (full_text l).
Proof.
  intros C w root o f s ops HC Hm Hl Hs H. apply find_snapshot_Ok in Hs. unfold snapshot_run in H. rewrite Hs, Hm in H. change (snapshot_flavor "json") with "json" in H. unfold save_ops in H. destruct (negb (w (sn_out o))); [discriminate|]. unfold flavor_of in H at 1 2 3. cbn [String.eqb Ascii.eqb Bool.eqb orb] in H.
  destruct (c_dump C "json" (snapshot_values s)) as [l e] eqn:Ed. injection H as <- ->. exists l. split; [reflexivity|]. assert (X : run_ops (Truncate (sn_out o) :: map (Append (sn_out o)) l) f (sn_out o) = Some (full_text l)) by (rewrite run_truncated, String.eqb_refl; reflexivity).
  split; [exact X|]. unfold load_file. rewrite X. unfold flavor_of, guess_flavor. rewrite Hl. reflexivity.
Qed.
Print Assumptions C115_extension_refuted.

(** ** Examples *)
Definition sn_s : snapshot := [("mu", Some 2); ("cat", None); ("a", Some (1/2))]%R.
Definition sn_root : root_files := fun f => if String.eqb f "ws.root" then Some [("modelWS", [("nominal", sn_s)])] else None.
Definition sn_codec : Codec := table_codec [("1", snapshot_values sn_s)].
Definition sn_opts (markup out : string) : SnapOpts := mkSO "ws.root" "modelWS" "nominal" out markup.
Lemma sn_faithful : faithful sn_codec.
Proof. apply table_codec_faithful; cbn; repeat constructor; cbn; intuition congruence. Qed.
Lemma sn_run markup out : exists ops, snapshot_run sn_codec (fun _ => true) sn_root (sn_opts markup out) = (ops, None).
Proof.
  unfold snapshot_run. change (find_snapshot sn_root (sn_opts markup out)) with (@Ok snapshot sn_s). unfold save_ops. cbn [negb sn_out sn_markup sn_opts]. unfold flavor_of.
  assert (F : (String.eqb (snapshot_flavor markup) "json" || String.eqb (snapshot_flavor markup) "yaml")%bool = true) by (unfold snapshot_flavor; destruct (String.eqb markup "json"); reflexivity). rewrite F.
  assert (D : forall fl, c_dump sn_codec fl (snapshot_values sn_s) = (["1"], None)).
  { intros fl. unfold sn_codec, table_codec. cbn [c_dump find snd]. destruct (jv_eq_dec (JObj (snapshot_values sn_s)) (JObj (snapshot_values sn_s))); [reflexivity|contradiction]. }
  rewrite D. eexists. reflexivity.
Qed.
Example C115_saved_nonvacuous : exists ops, faithful sn_codec /\ markup_flavor (sn_markup (sn_opts "json" "out.json")) "json" /\ snapshot_run sn_codec (fun _ => true) sn_root (sn_opts "json" "out.json") = (ops, None) /\ NoDup (map fst sn_s) /\
  snapshot_values sn_s = [("mu", JFlt 2); ("a", JFlt (1/2))]%R.
Proof. destruct (sn_run "json" "out.json") as (ops & H). exists ops. split; [apply sn_faithful|]. split; [left; split; reflexivity|]. split; [exact H|]. split; [repeat constructor; cbn; intuition congruence|reflexivity]. Qed.
Example C115_missing_nonvacuous : (forall s, ~ holds_snapshot sn_root (mkSO "ws.root" "modelWS" "other" "o.json" "json") s) /\ (forall s, ~ holds_snapshot sn_root (mkSO "no.root" "modelWS" "nominal" "o.json" "json") s).
Proof. split; intros s H; apply find_snapshot_Ok in H; discriminate H. Qed.
Example C115_extension_nonvacuous : exists ops, faithful sn_codec /\ last4 "out.yaml" = "yaml" /\ holds_snapshot sn_root (sn_opts "json" "out.yaml") sn_s /\ snapshot_run sn_codec (fun _ => true) sn_root (sn_opts "json" "out.yaml") = (ops, None).
Proof. destruct (sn_run "json" "out.yaml") as (ops & H). exists ops. split; [apply sn_faithful|]. split; [reflexivity|]. split; [apply find_snapshot_Ok; reflexivity|exact H]. Qed.
