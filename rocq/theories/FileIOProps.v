(** Properties of files written and read by the library (base.py, core.py). *)
From Verif Require Import Py PyFacts Base BaseFacts Expressions ExprProps Norms Sample SampleFacts Channels ChannelFacts Params Core CoreFacts CoreExample ModelIO ModelIOFacts ModelIOProps DataProps FileIO.
Local Open Scope string_scope.
Local Open Scope list_scope.

(** the text of a complete dump *)
Definition full_text (l : list string) : string := fold_left String.append l "".
(** the assumption on the json and yaml libraries: what was dumped without an exception is parsed back *)
Definition faithful (C : Codec) : Prop := forall fl v l, c_dump C fl v = (l, None) -> c_parse C fl (full_text l) = Ok v.
Definition is_prefix (s t : string) : Prop := exists r, t = String.append s r.

Lemma append_assoc (a b c : string) : String.append (String.append a b) c = String.append a (String.append b c).
Proof. induction a; cbn; congruence. Qed.
Lemma append_nil (a : string) : String.append a "" = a.
Proof. induction a; cbn; congruence. Qed.
Lemma full_text_acc l s : fold_left String.append l s = String.append s (full_text l).
Proof.
  unfold full_text. revert s. induction l as [|x l IH]; intros s; cbn; [now rewrite append_nil|]. rewrite IH, (IH x). now rewrite append_assoc.
Qed.
Lemma full_text_cons x l : full_text (x :: l) = String.append x (full_text l).
Proof. unfold full_text at 1. cbn [fold_left]. rewrite full_text_acc. reflexivity. Qed.
Lemma run_appends p l : forall f q, run_ops (map (Append p) l) f q =
  if String.eqb q p then match l with [] => f q | _ => Some (String.append (match f q with Some s => s | None => "" end) (full_text l)) end else f q.
Proof.
  induction l as [|x l IH]; intros f q; cbn [map run_ops fold_left]; [now destruct (String.eqb q p)|].
  fold (run_ops (map (Append p) l) (run_op f (Append p x))). rewrite IH. cbn [run_op]. destruct (String.eqb_spec q p) as [->|N]; [|reflexivity].
  destruct l as [|y l]; [reflexivity|]. rewrite (full_text_cons x), append_assoc. reflexivity.
Qed.
Lemma run_truncated p l f q : run_ops (Truncate p :: map (Append p) l) f q = if String.eqb q p then Some (full_text l) else f q.
Proof.
  change (run_ops (map (Append p) l) (run_op f (Truncate p)) q = if String.eqb q p then Some (full_text l) else f q).
  rewrite run_appends. cbn [run_op]. destruct (String.eqb q p); [|reflexivity]. destruct l; reflexivity.
Qed.

(** * C89 *)
(** a save that ends without an exception: the file holds what was saved, and no other file is touched *)
Theorem C89_saved_file_is_loaded : forall C w path flavor payload ops f, faithful C -> save_ops C w path flavor payload = (ops, None) ->
  load_file C (run_ops ops f) path flavor = Ok payload /\ forall q, q <> path -> run_ops ops f q = f q.
Proof.
  intros C w path flavor payload ops f HC H. unfold save_ops in H. destruct (negb (w path)); [discriminate|].
  destruct (String.eqb (flavor_of path flavor) "json" || String.eqb (flavor_of path flavor) "yaml")%bool eqn:Ef; [|discriminate].
  destruct (c_dump C (flavor_of path flavor) payload) as [l e] eqn:Ed. inversion H; subst ops e; clear H. split.
  - unfold load_file. rewrite run_truncated, String.eqb_refl, Ef. now apply HC.
  - intros q N. rewrite run_truncated. destruct (String.eqb_spec q path); [contradiction|reflexivity].
Qed.
Print Assumptions C89_saved_file_is_loaded.

(** any history of completed saves: each file holds the last object saved under its name *)
Definition saved := (string * option string * dict jv)%type.
Fixpoint save_all (C : Codec) (w : string -> bool) (l : list saved) (f : fs) : option fs :=
  match l with
  | [] => Some f
  | (p, fl, v) :: l' => match save_ops C w p fl v with (ops, None) => save_all C w l' (run_ops ops f) | _ => None end
  end.
Theorem C89_last_save_wins : forall C w pre path fl v post f f', faithful C ->
  save_all C w (pre ++ (path, fl, v) :: post) f = Some f' -> (forall p fl' v', In (p, fl', v') post -> p <> path) ->
  load_file C f' path fl = Ok v.
Proof.
  intros C w pre path fl v post f f' HC. revert f. induction pre as [|[[p0 fl0] v0] pre IH]; intros f H Hp; cbn [save_all app] in H.
  - destruct (save_ops C w path fl v) as [ops [e|]] eqn:Es; [discriminate|]. destruct (C89_saved_file_is_loaded _ _ _ _ _ _ f HC Es) as [HL _].
    assert (Hk : f' path = run_ops ops f path).
    { clear Es HL. set (g := run_ops ops f) in *. clearbody g. revert g H. induction post as [|[[p1 fl1] v1] post IH]; intros g H; cbn [save_all] in H; [congruence|].
      destruct (save_ops C w p1 fl1 v1) as [ops1 [e|]] eqn:Es1; [discriminate|]. destruct (C89_saved_file_is_loaded _ _ _ _ _ _ g HC Es1) as [_ HO].
      rewrite (IH (fun p a b Hin => Hp p a b (or_intror Hin)) _ H). apply HO. intros ->. exact (Hp p1 fl1 v1 (or_introl eq_refl) eq_refl). }
    unfold load_file in *. now rewrite Hk.
  - destruct (save_ops C w p0 fl0 v0) as [ops [e|]]; [discriminate|]. exact (IH _ H Hp).
Qed.
Print Assumptions C89_last_save_wins.

(** a process killed at any point of a save: the other files are untouched, and the file is the old one (if the kill
    came before the opening) or the beginning of the new one *)
Theorem C89_interrupted_save : forall C w path flavor payload ops e f n, save_ops C w path flavor payload = (ops, e) ->
  (forall q, q <> path -> run_ops (firstn n ops) f q = f q) /\
  (run_ops (firstn n ops) f path = f path \/
   exists s, run_ops (firstn n ops) f path = Some s /\ exists t, run_ops ops f path = Some t /\ is_prefix s t).
Proof.
  intros C w path flavor payload ops e f n H.
  assert (Ho : ops = [] \/ exists l, ops = Truncate path :: map (Append path) l).
  { unfold save_ops in H. destruct (negb (w path)); [left; congruence|right].
    destruct (_ || _)%bool; [|exists []; cbn; congruence]. destruct (c_dump C (flavor_of path flavor) payload) as [l e']. exists l. congruence. }
  destruct Ho as [->|[l ->]].
  - rewrite firstn_nil. split; [reflexivity|left; reflexivity].
  - destruct n as [|n]; [split; [reflexivity|left; reflexivity]|]. cbn [firstn]. rewrite firstn_map. split.
    + intros q N. rewrite run_truncated. destruct (String.eqb_spec q path); [contradiction|reflexivity].
    + right. exists (full_text (firstn n l)). rewrite run_truncated, String.eqb_refl. split; [reflexivity|]. exists (full_text l). rewrite run_truncated, String.eqb_refl. split; [reflexivity|].
      exists (full_text (skipn n l)). rewrite <- (firstn_skipn n l) at 1. unfold full_text at 1. rewrite fold_left_app. fold (full_text (firstn n l)). apply full_text_acc.
Qed.
Print Assumptions C89_interrupted_save.

(** saving over an existing file is not atomic: a flavor that is not supported is only reported after the file has been
    emptied; the same loss for any exception raised by the dump, and for a kill just after the opening *)
Theorem C89_save_destroys_file_refuted : forall C w path payload f fl, w path = true ->
  (fl <> "json" -> fl <> "yaml" -> exists ops, save_ops C w path (Some fl) payload = (ops, Some KeyError) /\ run_ops ops f path = Some "") /\
  (fl = "json" \/ fl = "yaml" -> exists ops e, save_ops C w path (Some fl) payload = (ops, e) /\ run_ops (firstn 1 ops) f path = Some "").
Proof.
  intros C w path payload f fl Hw. unfold save_ops. rewrite Hw. cbn [negb flavor_of]. split.
  - intros N1 N2. destruct (String.eqb_spec fl "json"); [contradiction|]. destruct (String.eqb_spec fl "yaml"); [contradiction|]. cbn [orb].
    eexists; split; [reflexivity|]. cbn. now rewrite String.eqb_refl.
  - intros H. assert (Hb : (String.eqb fl "json" || String.eqb fl "yaml")%bool = true) by (destruct H; subst fl; reflexivity). rewrite Hb.
    destruct (c_dump C fl payload) as [l e]. eexists _, _. split; [reflexivity|]. cbn. now rewrite String.eqb_refl.
Qed.
Print Assumptions C89_save_destroys_file_refuted.

(** the flavor is decided by the name only when reading: a file saved with an explicit flavor that its name does not tell
    is parsed with the wrong one *)
Theorem C89_explicit_flavor_forgotten_refuted : forall C w path payload f l, w path = true -> last4 path <> "yaml" -> c_dump C "yaml" payload = (l, None) ->
  exists ops, save_ops C w path (Some "yaml") payload = (ops, None) /\ load_file C (run_ops ops f) path None = c_parse C "json" (full_text l).
Proof.
  intros C w path payload f l Hw N Hd. unfold save_ops. rewrite Hw. cbn [negb flavor_of]. cbn [String.eqb Ascii.eqb Bool.eqb orb]. cbv [orb]. rewrite Hd.
  eexists; split; [reflexivity|]. unfold load_file. rewrite run_truncated, String.eqb_refl. cbn [flavor_of].
  assert (Hg : guess_flavor path "json" = "json"). { unfold guess_flavor. destruct (String.eqb (last4 path) "json"); [reflexivity|]. destruct (String.eqb_spec (last4 path) "yaml"); [contradiction|reflexivity]. }
  rewrite Hg. reflexivity.
Qed.
Print Assumptions C89_explicit_flavor_forgotten_refuted.

Example C89_nonvacuous : exists ops, save_ops (mkCodec (fun fl v => ([fl], None)) (fun fl s => Ok [])) (fun _ => true) "m.yaml" None [] = (ops, None) /\
  run_ops ops (fun _ => Some "old") "m.yaml" = Some "yaml" /\ run_ops ops (fun _ => Some "old") "m.json" = Some "old".
Proof. eexists. split; [reflexivity|]. split; reflexivity. Qed.
Example C89_faithful_nonvacuous : faithful (mkCodec (fun fl v => match v with [] => (["{"; "}"], None) | _ => ([], Some TypeError) end) (fun fl s => Ok [])).
Proof. intros fl v l H. destruct v as [|[k x] v]; cbn in *; [reflexivity|discriminate]. Qed.

(** model and data in the same file *)
Lemma data_fill_key m I d descr sd' : data_fill m I d descr [] = Ok sd' -> exists v, sd' = [("data", v)].
Proof. unfold data_fill. intros H. apply bind_Ok in H as (a & _ & H). apply bind_Ok in H as (b & _ & H). inversion H. eexists. reflexivity. Qed.
Lemma model_fill_key E m sd : model_fill E m [] = Ok sd -> exists v, sd = [("model", v)].
Proof. unfold model_fill. intros H. apply bind_Ok in H as (a & _ & H). inversion H. eexists. reflexivity. Qed.

(** loading a model and a dataset from the common file gives exactly what the two separate files would give *)
Theorem C89_save_with_model : forall E C w m I d descr path flavor ops f, faithful C ->
  save_with_model E C w m I d descr path flavor = Ok (ops, None) ->
  exists sm sd, model_fill E m [] = Ok sm /\ data_fill m I d descr [] = Ok sd /\
  (forall m0, model_load_file E C (run_ops ops f) m0 path flavor = model_load E m0 sm) /\
  (forall m' I' d0, data_load_file C (run_ops ops f) m' I' d0 path flavor = data_load m' I' d0 sd).
Proof.
  intros E C w m I d descr path flavor ops f HC H. unfold save_with_model in H. apply bind_Ok in H as (sm & Hm & H). apply bind_Ok in H as (sd & Hd & H). inversion H as [Hs].
  destruct (C89_saved_file_is_loaded _ _ _ _ _ _ f HC Hs) as [HL _]. exists sm, sd. split; [exact Hm|]. split; [exact Hd|].
  destruct (model_fill_key _ _ _ Hm) as [vm ->]. destruct (data_fill_key _ _ _ _ _ Hd) as [vd ->].
  unfold model_load_file, data_load_file. rewrite HL. split; [intros m0|intros m' I' d0]; reflexivity.
Qed.
Print Assumptions C89_save_with_model.

(** hence, for the models and datasets that the two round trips (C17, C28) cover, model and data are both recovered *)
Theorem C89_model_and_data_roundtrip : forall E C w mi m I m0 zs aux d0 descr path flavor ops f, faithful C ->
  finish E mi = Ok (m, I) -> savable E m -> m_exprs m0 = [] ->
  m_asym m0 = m_asym m -> m_linear m0 = m_linear m -> m_simple_sym m0 = m_simple_sym m -> m_lognormal m0 = m_lognormal m -> m_cutoff m0 = m_cutoff m ->
  NoDup (keys (m_channels m)) ->
  (forall k c, In (k, c) (m_channels m) -> is_gaussian c = false /\ ch_name c = k) ->
  length zs = i_nbins I -> length (d_counts d0) = i_nbins I -> length aux = length (m_nps m) ->
  (forall k p, In (k, p) (m_nps m) -> np_variation p <> 0) ->
  NoDup (flat_map (fun p => match np_aux_obs p with Some a => [a] | None => [] end) (values (m_nps m))) ->
  (forall i p, nth_error (values (m_nps m)) i = Some p -> np_aux_obs p = None -> nth i aux 0 = 0) ->
  save_with_model E C w m I (mkData (map IZR zs) aux) descr path flavor = Ok (ops, None) ->
  model_load_file E C (run_ops ops f) m0 path flavor = Ok (m, I) /\
  data_load_file C (run_ops ops f) m I d0 path flavor = (mkData (map IZR zs) aux, None).
Proof.
  intros E C w mi m I m0 zs aux d0 descr path flavor ops f HC HF S He O1 O2 O3 O4 O5 HN Hch Lz L0 La Hv Hna Hz H.
  assert (Hi : set_internal_vars E m = Ok I).
  { unfold finish in HF. apply bind_Ok in HF as (it & Hit & HF). inversion HF; subst m it. exact (siv_idem _ _ _ Hit). }
  destruct (C89_save_with_model _ _ _ _ _ _ _ _ _ _ f HC H) as (sm & sd & Hm & Hd & HM & HD). rewrite HM, HD. split.
  - destruct (C17_reloaded_object_is_identical E mi m I m0 [] HF S He O1 O2 O3 O4 O5) as (sm' & Hm' & Hl). congruence.
  - destruct (C28_dataset_save_load_roundtrip E m I zs aux d0 descr [] Hi HN Hch Lz L0 La Hv Hna Hz) as (sd' & Hd' & Hl). congruence.
Qed.
Print Assumptions C89_model_and_data_roundtrip.

(** a concrete case: a library that can dump one dictionary *)
Definition jv_eq_dec : forall a b : jv, {a = b} + {a <> b}.
Proof.
  fix IH 1. intros a b. decide equality.
  - apply Bool.bool_dec.
  - apply Z.eq_dec.
  - apply Req_EM_T.
  - apply string_dec.
  - apply (list_eq_dec IH).
  - apply list_eq_dec. intros [k v] [k' v']. destruct (string_dec k k'); [|right; congruence]. destruct (IH v v'); [left; congruence|right; congruence].
Defined.
Definition one_value (v0 : dict jv) : Codec :=
  mkCodec (fun fl v => if jv_eq_dec (JObj v) (JObj v0) then (["{ "; "... }"], None) else ([], Some TypeError)) (fun fl s => Ok v0).
Lemma one_value_faithful v0 : faithful (one_value v0).
Proof. intros fl v l H. unfold one_value in *. cbn [c_dump c_parse] in *. destruct (jv_eq_dec (JObj v) (JObj v0)) as [E|]; [|discriminate]. congruence. Qed.
Example C89_with_model_nonvacuous : let m := with_channels ex_model ex_channels' in exists I C ops f',
  faithful C /\ finish ex_env ex_model = Ok (m, I) /\
  save_with_model ex_env C (fun _ => true) m I (mkData (map IZR [5; 6; 7]%Z) [3; 0]) None "both.json" None = Ok (ops, None) /\ f' = run_ops ops (fun _ => None) /\
  model_load_file ex_env C f' (new_model true true) "both.json" None = Ok (m, I) /\
  data_load_file C f' m I (mkData [0; 0; 0] [0; 0]) "both.json" None = (mkData (map IZR [5; 6; 7]%Z) [3; 0], None).
Proof.
  intros m. destruct ex_savable as (_ & I & HF & S). exists I.
  assert (Hi : set_internal_vars ex_env m = Ok I).
  { pose proof HF as HF'. unfold finish in HF'. apply bind_Ok in HF' as (it & Hit & HF'). inversion HF'; subst it. pose proof (siv_idem _ _ _ Hit) as Hx. rewrite H0 in Hx. exact Hx. }
  assert (Hb : i_nbins I = 3%nat).
  { unfold finish in HF. apply bind_Ok in HF as (it & Hit & HF). inversion HF; subst it. destruct ex_built_full as (I' & H' & _ & _ & Hb & _). congruence. }
  assert (A : exists sd', data_fill m I (mkData (map IZR [5; 6; 7]%Z) [3; 0]) None [] = Ok sd').
  { destruct (C28_dataset_save_load_roundtrip ex_env m I [5; 6; 7]%Z [3; 0] (mkData [0; 0; 0] [0; 0]) None [] Hi) as (sd' & A & B); try (now rewrite Hb); try reflexivity; [..|eauto].
    - repeat constructor; cbn; intuition congruence.
    - intros k c [[= <- <-]|[[= <- <-]|[]]]; split; reflexivity.
    - intros k p [[= <- <-]|[[= <- <-]|[]]]; cbn; lra.
    - repeat constructor; cbn; intuition.
    - intros [|[|[|i]]] p [= <-]; cbn; try discriminate; reflexivity. }
  destruct A as [sd A]. destruct (C17_reloaded_object_is_identical ex_env ex_model _ I (new_model true true) [] HF S) as (sm & H1 & H2); try reflexivity.
  exists (one_value (dupdate sm sd)).
  assert (Hs : save_with_model ex_env (one_value (dupdate sm sd)) (fun _ => true) m I (mkData (map IZR [5; 6; 7]%Z) [3; 0]) None "both.json" None =
    Ok (Truncate "both.json" :: map (Append "both.json") ["{ "; "... }"], None)).
  { unfold save_with_model. fold m in H1. rewrite H1. cbn [bind]. rewrite A. cbn [bind]. unfold save_ops. cbn [negb flavor_of].
    change (guess_flavor "both.json" "json") with "json". change (String.eqb "json" "json" || String.eqb "json" "yaml")%bool with true. cbv iota. unfold one_value at 1. cbn [c_dump].
    destruct (jv_eq_dec (JObj (dupdate sm sd)) (JObj (dupdate sm sd))) as [_|N]; [reflexivity|contradiction]. }
  eexists _, _. split; [apply one_value_faithful|]. split; [exact HF|]. split; [exact Hs|]. split; [reflexivity|].
  eapply C89_model_and_data_roundtrip; try exact Hs; try exact HF; try exact S; try reflexivity; try (now rewrite Hb).
  - apply one_value_faithful.
  - repeat constructor; cbn; intuition congruence.
  - intros k c [[= <- <-]|[[= <- <-]|[]]]; split; reflexivity.
  - intros k p [[= <- <-]|[[= <- <-]|[]]]; cbn; lra.
  - repeat constructor; cbn; intuition.
  - intros [|[|[|i]]] p [= <-]; cbn; try discriminate; reflexivity.
Qed.
