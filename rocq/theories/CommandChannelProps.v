(** C103: the command that merges channels. *)
From Verif Require Import Py PyFacts Base BaseFacts Expressions ExprProps Norms Sample SampleFacts Channels ChannelFacts Params Core CoreFacts CoreSpec CoreCoefs CoreYields CoreExample ModelIO ModelIOFacts ModelIOProps DataProps
  ModelTools ModelToolsFacts NPPruneFacts NPPruneProps ChannelMergeFacts ChannelMergeProps ChannelMergeFailProps UtilTools UtilFacts FileIO FileIOProps ToolsMoreProps ExactProps Commands CommandFacts CommandProps.
Local Open Scope string_scope.
Local Open Scope list_scope.
Local Open Scope R_scope.

(** ** the specification *)
(** what the user writes: name=channel,channel or name=channel:lo:hi,channel:lo:hi, joined by ~; numbers are written as text *)
Definition item (s : string) : Prop := free_of "," s /\ free_of "=" s /\ free_of ":" s /\ free_of "~" s /\ free_of " " s /\ free_of "010" s.
Definition write_merge (name : string) (chans : list string) : string := (name ++ String "=" (join "," chans))%string.
Definition with_range (c : string * (string * string)) : string := join ":" [fst c; fst (snd c); snd (snd c)].

Lemma no_blank_free s : free_of " " s -> free_of "010" s -> no_blank s = s.
Proof.
  induction s as [|a r IH]; [reflexivity|]. intros (A & B) (C & D). cbn [no_blank]. destruct (Ascii.eqb_spec a " "); [contradiction|]. destruct (Ascii.eqb_spec a "010"); [contradiction|]. cbn [orb]. now rewrite IH.
Qed.
Lemma free_app c a b : free_of c a -> free_of c b -> free_of c (a ++ b)%string.
Proof. induction a as [|x a IH]; [auto|]. intros (A & B) C. split; [exact A|now apply IH]. Qed.
Lemma free_join c d l : c <> d -> (forall s, In s l -> free_of c s) -> free_of c (join d l).
Proof.
  intros Hc. induction l as [|s l IH]; intros H; [exact Logic.I|]. destruct l as [|s2 l]; [apply H; now left|]. change (join d (s :: s2 :: l)) with (s ++ String d (join d (s2 :: l)))%string.
  apply free_app; [apply H; now left|]. split; [congruence|]. apply IH. intros x Hx. apply H. now right.
Qed.
Lemma split2 a b : free_of "=" a -> free_of "=" b -> split "=" (a ++ String "=" b)%string = [a; b].
Proof. intros A B. rewrite split_app by exact A. now rewrite split_free. Qed.

Definition merge_spec_text (name : string) (cs : list string) (sp : MergeSpec) (pf : string -> option R) : Prop := merge_spec pf (write_merge name cs) = Ok sp.
Lemma chan_texts pf name cs specs : free_of "=" name -> cs <> [] -> (forall s, In s cs -> free_of "," s /\ free_of "=" s) -> mapM (channel_spec pf) cs = Ok specs ->
  merge_spec pf (write_merge name cs) =
    (let ranges := flat_map (fun c => match snd c with Some r => [r] | None => [] end) specs in
     if (length ranges =? 0)%nat then Ok (mkMS name (map fst specs) None) else if (length ranges =? length specs)%nat then Ok (mkMS name (map fst specs) (Some ranges)) else Err ValueError).
Proof.
  intros Hn Hne Hc Hm. unfold merge_spec, write_merge. rewrite split2; [|exact Hn|apply free_join; [discriminate|intros s Hs; apply Hc, Hs]].
  rewrite split_join; [|exact Hne|intros s Hs; apply Hc, Hs]. rewrite Hm. reflexivity.
Qed.
(** what is written for one merge, and what it stands for *)
Inductive written (pf : string -> option R) : string -> MergeSpec -> Prop :=
| w_plain name chans : item name -> chans <> [] -> (forall c, In c chans -> item c) -> written pf (write_merge name chans) (mkMS name chans None)
| w_ranges name l vals : item name -> l <> [] -> (forall c a b, In (c, (a, b)) l -> item c /\ item a /\ item b) ->
    Forall2 (fun t v => pf (fst (snd t)) = Some (fst v) /\ pf (snd (snd t)) = Some (snd v)) l vals ->
    written pf (write_merge name (map with_range l)) (mkMS name (map fst l) (Some vals)).
Lemma item_free c s : item s -> c = ","%char \/ c = "="%char \/ c = ":"%char \/ c = "~"%char \/ c = " "%char \/ c = "010"%char -> free_of c s.
Proof. intros (A & B & C & D & E & F). intuition (subst; assumption). Qed.
Lemma with_range_free c t a b x : item t -> item a -> item b -> x = (t, (a, b)) -> c <> ":"%char -> c = ","%char \/ c = "="%char \/ c = ":"%char \/ c = "~"%char \/ c = " "%char \/ c = "010"%char -> free_of c (with_range x).
Proof. intros A B C -> Hc HH. unfold with_range. cbn [fst snd]. apply free_join; [exact Hc|]. intros s [<-|[<-|[<-|[]]]]; now apply item_free. Qed.
Lemma written_free pf s sp c : written pf s sp -> c <> ","%char -> c <> "="%char -> c <> ":"%char -> c = "~"%char \/ c = " "%char \/ c = "010"%char -> free_of c s.
Proof.
  intros H H1 H2 H3 H4. destruct H as [name chans Hn Hne Hc|name l vals Hn Hne Hc HF]; unfold write_merge; (apply free_app; [apply item_free; [exact Hn|tauto]|]; split; [congruence|]; apply free_join; [exact H1|]).
  - intros u Hs. apply item_free; [now apply Hc|tauto].
  - intros u Hs. apply in_map_iff in Hs as ([t [a b]] & <- & Hs). destruct (Hc t a b Hs) as (A & B & D). apply (with_range_free c t a b _ A B D eq_refl H3). tauto.
Qed.
Lemma written_parsed pf s sp : written pf s sp -> merge_spec pf s = Ok sp.
Proof.
  intros [name chans Hn Hne Hc|name l vals Hn Hne Hc HF].
  - rewrite (chan_texts pf name chans (map (fun c => (c, None)) chans)).
    + cbn zeta. replace (flat_map (fun c : string * option (R * R) => match snd c with Some r => [r] | None => [] end) (map (fun c => (c, None)) chans)) with (@nil (R * R)) by (clear; induction chans; cbn; auto).
      cbn [length Nat.eqb]. rewrite map_map. cbn [fst]. now rewrite map_id.
    + apply item_free; [exact Hn|tauto].
    + exact Hne.
    + intros u Hs. split; apply item_free; try (now apply Hc); tauto.
    + clear - Hc. induction chans as [|c l IH]; [reflexivity|]. cbn [mapM map]. rewrite IH by (intros x Hx; apply Hc; now right). unfold channel_spec. rewrite split_free by (apply item_free; [apply Hc; now left|tauto]). reflexivity.
  - assert (HM : mapM (channel_spec pf) (map with_range l) = Ok (map (fun tv => (fst (fst tv), Some (snd tv))) (combine l vals))).
    { clear Hne Hn. revert Hc. induction HF as [|[t [a b]] [x y] l vals (H1 & H2) HF IH]; intros Hc; [reflexivity|]. cbn [map mapM combine]. cbn [fst snd] in H1, H2.
      destruct (Hc t a b (or_introl eq_refl)) as (A & B & D). unfold channel_spec at 1. unfold with_range at 1. cbn [fst snd]. rewrite split_join; [|discriminate|intros u [<-|[<-|[<-|[]]]]; apply item_free; tauto].
      rewrite H1, H2. cbn [bind]. rewrite IH by (intros c a0 b0 Hx; apply (Hc c); now right). reflexivity. }
    pose proof (Forall2_length _ _ _ HF) as Lv.
    rewrite (fun A B D => chan_texts pf name (map with_range l) _ A B D HM); [| | |intros u Hs; apply in_map_iff in Hs as ([t [a b]] & <- & Hs); destruct (Hc t a b Hs) as (A & B & D); split; apply (with_range_free _ t a b _ A B D eq_refl); try discriminate; tauto].
    + cbn zeta. assert (FM : flat_map (fun c : string * option (R * R) => match snd c with Some r => [r] | None => [] end) (map (fun tv : (string * (string * string)) * (R * R) => (fst (fst tv), Some (snd tv))) (combine l vals)) = vals).
      { clear - HF. induction HF as [|t v l vals _ _ IH]; [reflexivity|]. cbn. now rewrite IH. }
      rewrite FM. rewrite map_length, combine_length, <- Lv, Nat.min_id. destruct l as [|t0 l]; [contradiction|]. cbn [length Nat.eqb]. rewrite Nat.eqb_refl. f_equal. f_equal.
      clear - HF. revert HF. generalize (t0 :: l) as l1. intros l1 HF. induction HF as [|t v l2 vals _ _ IH]; [reflexivity|]. cbn [combine map fst snd]. now rewrite IH.
    + apply item_free; [exact Hn|tauto].
    + destruct l; [contradiction|discriminate].
Qed.
(** Every list of merges, with or without ranges, is understood as it was written. *)
Theorem C103_specification : forall pf texts specs, texts <> [] -> Forall2 (written pf) texts specs -> merge_specs pf (join "~" texts) = Ok specs.
Proof.
  intros pf texts specs Hne HF. unfold merge_specs.
  assert (FR : forall c, c <> ","%char -> c <> "="%char -> c <> ":"%char -> c = "~"%char \/ c = " "%char \/ c = "010"%char -> forall s, In s texts -> free_of c s).
  { intros c H1 H2 H3 H4 s Hs. clear Hne. induction HF as [|t sp texts specs H HF IH]; [destruct Hs|]. destruct Hs as [<-|Hs]; [exact (written_free pf t sp c H H1 H2 H3 H4)|now apply IH]. }
  rewrite no_blank_free; try (apply free_join; [discriminate|apply FR; try discriminate; tauto]).
  rewrite split_join; [|exact Hne|apply FR; try discriminate; tauto]. clear Hne FR.
  assert (X : mapM (merge_spec pf) texts = Ok specs); [|now rewrite X]. induction HF as [|t sp texts specs H HF IH]; [reflexivity|]. cbn [mapM]. rewrite (written_parsed _ _ _ H). cbn [bind]. now rewrite IH.
Qed.
Print Assumptions C103_specification.
Definition cn_pf (s : string) : option R := if String.eqb s "0" then Some 0 else if String.eqb s "1" then Some 1 else if String.eqb s "2" then Some 2 else None.
Example C103_specification_nonvacuous : Forall2 (written cn_pf) ["M=A,B"; "N=C:0:1,D:1:2"] [mkMS "M" ["A"; "B"] None; mkMS "N" ["C"; "D"] (Some [(0, 1); (1, 2)])] /\
  merge_specs cn_pf "M=A,B ~ N=C:0:1,D:1:2" = Ok [mkMS "M" ["A"; "B"] None; mkMS "N" ["C"; "D"] (Some [(0, 1); (1, 2)])] /\ merge_specs cn_pf "M=A:0:1,B" = Err ValueError.
Proof.
  assert (IT : forall s, In s ["M"; "N"; "A"; "B"; "C"; "D"; "0"; "1"; "2"] -> item s) by (intros s Hs; cbn [In] in Hs; repeat destruct Hs as [<-|Hs]; try destruct Hs; repeat split; discriminate).
  split; [|split; reflexivity]. constructor; [|constructor; [|constructor]].
  - apply (w_plain cn_pf "M" ["A"; "B"]); [apply IT; cbn; tauto|discriminate|intros c Hc; apply IT; cbn in *; tauto].
  - apply (w_ranges cn_pf "N" [("C", ("0", "1")); ("D", ("1", "2"))] [(0, 1); (1, 2)]); [apply IT; cbn; tauto|discriminate| |repeat constructor].
    intros c a b [[= <- <- <-]|[[= <- <- <-]|[]]]; repeat split; discriminate.
Qed.
(** A range is given for all the channels or for none. *)
Theorem C103_partial_ranges : forall pf name chans specs, item name -> chans <> [] -> (forall s, In s chans -> free_of "," s /\ free_of "=" s) -> mapM (channel_spec pf) chans = Ok specs ->
  (exists c, In (c, None) specs) -> (exists c r, In (c, Some r) specs) -> merge_spec pf (write_merge name chans) = Err ValueError.
Proof.
  intros pf name chans specs Hn Hne Hc Hm (c & H1) (c2 & r & H2). rewrite (chan_texts pf name chans specs); auto; [|apply item_free; [exact Hn|tauto]]. cbn zeta.
  set (rs := flat_map _ _). assert (L1 : (length rs < length specs)%nat).
  { unfold rs. clear - H1. induction specs as [|[k o] l IH]; [destruct H1|]. cbn [flat_map snd length]. rewrite app_length. destruct H1 as [[= -> ->]|H1].
    - cbn. assert (length (flat_map (fun c : string * option (R * R) => match snd c with Some r => [r] | None => [] end) l) <= length l)%nat; [|lia]. clear. induction l as [|[k o] l IH]; cbn; [lia|]. rewrite app_length. destruct o; cbn; lia.
    - specialize (IH H1). destruct o; cbn; lia. }
  assert (L2 : (0 < length rs)%nat).
  { unfold rs. clear - H2. induction specs as [|[k o] l IH]; [destruct H2|]. cbn [flat_map snd]. rewrite app_length. destruct H2 as [[= -> ->]|H2]; [cbn; lia|]. specialize (IH H2). lia. }
  destruct (Nat.eqb_spec (length rs) 0); [lia|]. destruct (Nat.eqb_spec (length rs) (length specs)); [lia|reflexivity].
Qed.
Print Assumptions C103_partial_ranges.
Example C103_partial_ranges_nonvacuous : mapM (channel_spec cn_pf) ["A:0:1"; "B"] = Ok [("A", Some (0, 1)); ("B", None)]. Proof. reflexivity. Qed.

(** ** the files *)
Lemma append_inj p : forall a b, (p ++ a = p ++ b)%string -> a = b.
Proof. induction p as [|x p IH]; intros a b H; [exact H|]. inversion H. now apply IH. Qed.
Lemma save_ops_other C w path fl v ops e f q : save_ops C w path fl v = (ops, e) -> q <> path -> run_ops ops f q = f q.
Proof.
  intros H Hq. destruct (C89_interrupted_save C w path fl v ops e f (length ops) H) as (A & _). rewrite firstn_all in A. now apply A.
Qed.
Lemma run_ops_app a b f : run_ops (a ++ b) f = run_ops b (run_ops a f). Proof. unfold run_ops. now rewrite fold_left_app. Qed.

Lemma merge_specs_nonempty pf s l : merge_specs pf s = Ok l -> l <> [].
Proof.
  unfold merge_specs. pose proof (split_nonempty "~" (no_blank s)) as N. destruct (split "~" (no_blank s)) as [|x r]; [contradiction|]. cbn [mapM]. destruct (merge_spec pf x); [|discriminate]. cbn [bind].
  destruct (mapM (merge_spec pf) r); [|discriminate]. cbn [bind]. intros [= <-]. discriminate.
Qed.
(** what a run that ends without an exception has done *)
Lemma chan_run_parts E C w pf o f ops : chan_run E C w pf o f = Ok (ops, None) ->
  exists mi d specs st m it sd ops1, model_create E C f (co_model o) = Ok mi /\
    (match co_data o with None => Ok None | Some p => if String.eqb p "" then Ok None else let! x := data_create C f mi p in Ok (Some x) end) = Ok d /\
    merge_specs pf (co_channels o) = Ok specs /\ foldM (merge_step E o) specs (mkChanS (Some mi) 0 (co_verbosity o) d) = Ok st /\ cs_model st = Some (m, it) /\
    merged_fill E m (cs_descr st) [] = Ok sd /\ save_ops C w (co_out o ++ ".json")%string None sd = (ops1, None) /\
    ((cs_data st = None /\ ops = ops1) \/
     exists x descr ops2, cs_data st = Some (x, descr) /\ data_save C w m it x descr (co_out o ++ "_data.json")%string None = Ok (ops2, None) /\ ops = ops1 ++ ops2).
Proof.
  intros H. unfold chan_run in H. apply bind_Ok in H as (mi & Hm & H). apply bind_Ok in H as (d & Hd & H). apply bind_Ok in H as (specs & Hs & H). apply bind_Ok in H as (st & Hst & H).
  destruct (cs_model st) as [[m it]|] eqn:Em; [|discriminate]. apply bind_Ok in H as (sd & Hsd & H).
  assert (Hsd' : merged_fill E m (cs_descr st) [] = Ok sd) by (destruct specs; [exfalso; exact (merge_specs_nonempty _ _ _ Hs eq_refl)|exact Hsd]).
  destruct (save_ops C w (co_out o ++ ".json")%string None sd) as [ops1 e] eqn:Eo. destruct e as [e|]; [discriminate|].
  exists mi, d, specs, st, m, it, sd, ops1. do 7 (split; [assumption|]).
  destruct (cs_data st) as [[x descr]|] eqn:Ed.
  - right. destruct (data_save C w m it x descr (co_out o ++ "_data.json")%string None) as [[ops2 e2]|] eqn:E2; [|discriminate]. inversion H; subst. exists x, descr, ops2. auto.
  - left. inversion H. auto.
Qed.
Lemma out_names p : (p ++ ".json")%string <> (p ++ "_data.json")%string.
Proof. intros H. apply append_inj in H. discriminate. Qed.

(** intended: the output file is a model file.  Whatever was merged, the loader refuses it. *)
Theorem C103_output_unreadable_refuted : forall E C w pf o f ops, faithful C -> chan_run E C w pf o f = Ok (ops, None) ->
  forall E' m0, model_load_file E' C (run_ops ops f) m0 (co_out o ++ ".json")%string None = Err TypeError.
Proof.
  intros E C w pf o f ops HC H E' m0. destruct (chan_run_parts _ _ _ _ _ _ _ H) as (mi & d & specs & st & m & it & sd & ops1 & _ & _ & _ & _ & _ & Hsd & H1 & Hops).
  assert (HL : load_file C (run_ops ops f) (co_out o ++ ".json")%string None = Ok sd).
  { destruct (C89_saved_file_is_loaded _ _ _ _ _ _ f HC H1) as (HL & _). destruct Hops as [(_ & ->)|(x & descr & ops2 & _ & H2 & ->)]; [exact HL|].
    unfold data_save in H2. apply bind_Ok in H2 as (sd2 & _ & H2). inversion H2 as [H3]. unfold load_file in *. rewrite run_ops_app, (save_ops_other _ _ _ _ _ _ _ _ _ H3 (out_names (co_out o))). exact HL. }
  unfold model_load_file. rewrite HL. cbn [bind]. exact (C79_merged_markup_refuted _ _ _ _ _ _ m0 Hsd).
Qed.
Print Assumptions C103_output_unreadable_refuted.

(** no file other than the two output files is touched; the second one only when a dataset is given *)
Theorem C103_files_touched : forall E C w pf o f ops q, chan_run E C w pf o f = Ok (ops, None) -> q <> (co_out o ++ ".json")%string ->
  q <> (co_out o ++ "_data.json")%string \/ co_data o = None -> run_ops ops f q = f q.
Proof.
  intros E C w pf o f ops q H Hq Hq2. destruct (chan_run_parts _ _ _ _ _ _ _ H) as (mi & d & specs & st & m & it & sd & ops1 & _ & Hd & _ & Hst & _ & _ & H1 & Hops).
  destruct Hops as [(_ & ->)|(x & descr & ops2 & Hx & H2 & ->)]; [exact (save_ops_other _ _ _ _ _ _ _ _ _ H1 Hq)|].
  destruct Hq2 as [Hq2|Hq2].
  - unfold data_save in H2. apply bind_Ok in H2 as (sd2 & _ & H2). inversion H2 as [H3]. rewrite run_ops_app, (save_ops_other _ _ _ _ _ _ _ _ _ H3 Hq2). exact (save_ops_other _ _ _ _ _ _ _ _ _ H1 Hq).
  - exfalso. rewrite Hq2 in Hd. inversion Hd; subst d.
    assert (G : forall specs st st', cs_data st = None -> foldM (merge_step E o) specs st = Ok st' -> cs_data st' = None).
    { clear. induction specs as [|sp specs IH]; intros st st' H0 H; cbn [foldM] in H; [inversion H; subst; exact H0|]. apply bind_Ok in H as (st1 & H1 & H). apply (IH st1); [|exact H].
      unfold merge_step in H1. destruct (cs_model st) as [[m it]|]; [|discriminate]. apply bind_Ok in H1 as (r & _ & H1). destruct r as [[chs' mi']|]; [|inversion H1; reflexivity].
      rewrite H0 in H1. cbn [bind] in H1. inversion H1. reflexivity. }
    rewrite (G specs _ st (eq_refl : cs_data (mkChanS (Some mi) 0 (co_verbosity o) None) = None) Hst) in Hx. discriminate.
Qed.
Print Assumptions C103_files_touched.

(** a channel that does not exist: an exception before anything is written *)
Theorem C103_unknown_channel : forall E C w pf o f mi d specs sp pre post k c st, model_create E C f (co_model o) = Ok mi ->
  (match co_data o with None => Ok None | Some p => if String.eqb p "" then Ok None else let! x := data_create C f mi p in Ok (Some x) end) = Ok d ->
  merge_specs pf (co_channels o) = Ok specs -> specs = pre ++ sp :: post -> foldM (merge_step E o) pre (mkChanS (Some mi) 0 (co_verbosity o) d) = Ok st ->
  cs_model st = Some c -> In k (ms_channels sp) -> ~ In k (keys (m_channels (fst c))) ->
  exists e, chan_run E C w pf o f = Err e /\ (e = AttributeError \/ e = KeyError).
Proof.
  intros E C w pf o f mi d specs sp pre post k [m it] st Hm Hd Hs -> Hpre Hc Hk Hn. cbn [fst] in Hn. unfold chan_run. rewrite Hm. cbn [bind]. rewrite Hd. cbn [bind]. rewrite Hs. cbn [bind].
  assert (FA : forall a b (st : ChanState), foldM (merge_step E o) (a ++ b) st = (let! s := foldM (merge_step E o) a st in foldM (merge_step E o) b s)).
  { clear. induction a as [|x a IH]; intros b st; [reflexivity|]. cbn [app foldM]. destruct (merge_step E o st x); [|reflexivity]. cbn [bind]. apply IH. }
  rewrite FA, Hpre. cbn [bind foldM]. unfold merge_step at 1. rewrite Hc.
  destruct (ms_channels sp) as [|k0 l]; [destruct Hk|]. destruct (C58_unknown_channel E m k0 l (ms_name sp) (ms_ranges sp) (co_name o) (co_unit o)) as (U1 & U2).
  assert (NN : forall l st, cs_model st = None -> (exists st', foldM (merge_step E o) l st = Ok st' /\ cs_model st' = None) \/ foldM (merge_step E o) l st = Err AttributeError).
  { clear. intros [|x l] st H; [left; exists st; auto|]. right. cbn [foldM]. unfold merge_step. now rewrite H. }
  destruct (forallb (fun k => dmem k (m_channels m)) l) eqn:Ef.
  - assert (A : forall x, In x l -> In x (keys (m_channels m))) by (intros x Hx; apply dmem_spec; rewrite forallb_forall in Ef; now apply Ef).
    destruct Hk as [<-|Hk]; [|exfalso; apply Hn; now apply A]. rewrite U2 by assumption. cbn [bind]. eexists. split; [reflexivity|now right].
  - assert (A : exists x, In x l /\ ~ In x (keys (m_channels m))).
    { clear - Ef. induction l as [|x l IH]; [discriminate|]. cbn [forallb] in Ef. destruct (dmem x (m_channels m)) eqn:Ex.
      - destruct (IH Ef) as (y & Hy & Hn). exists y. split; [now right|exact Hn].
      - exists x. split; [now left|]. intros X. apply dmem_spec in X. congruence. }
    rewrite U1 by exact A. cbn [bind]. destruct (NN post (mkChanS None 0 0 None) eq_refl) as [(st' & -> & Hst')| ->]; cbn [bind]; [rewrite Hst'|]; (eexists; split; [reflexivity|now left]).
Qed.
Print Assumptions C103_unknown_channel.

(** ** what is written *)
Lemma merged_savable E m I tm name ob obn obu chs' m2 I2 : signs E -> object E m I -> savable E m -> all_fit (m_channels m) -> mergeable m tm name ob ->
  merge_channels E m tm name ob obn obu = Ok (Some (chs', (m2, I2))) -> object E m2 I2 /\ savable E m2.
Proof.
  intros Sg Ob S Hf Mg H. destruct (merge_core_kind E m I tm name ob obn obu chs' m2 I2 Sg Ob Hf Mg H) as (mc & Ob2 & Hall & Hne & Ep & En & Ea & Ee & Eas & Eli & Ecu & Ely & Hd2 & Hnb & Hsn & Hsin & Hmok & Nm & Ng & _).
  split; [exact Ob2|]. constructor; rewrite ?Ep, ?En, ?Ea, ?Ee; try apply S. split; [exact Hd2|].
  intros k c Hc. rewrite Ely in Hc. apply layout_in in Hc as [Hc|Hc]; [|exact (proj2 (sv_chs _ _ S) k c Hc)]. injection Hc as -> ->. split; [exact Nm|]. split; [exact Ng|]. split; [exact Hsn|].
  intros n s Hs. destruct (Hmok n s Hs) as ((k0 & s0 & H0 & H1 & H2 & H3 & _) & (y & Hy & Ly & _) & _). unfold sample_of in H1. destruct (dget k0 (m_channels m)) as [c0|] eqn:E0; [|discriminate].
  destruct (proj2 (sv_chs _ _ S) k0 c0 (dget_In _ _ _ E0)) as (_ & _ & _ & Hss). destruct (Hss n s0 (dget_In _ _ _ H1)) as (A & B & _).
  split; [congruence|]. split; [intros x Hx; apply B; congruence|]. intros y' Hy'. congruence.
Qed.
Lemma create_options E C f path m I : model_create E C f path = Ok (m, I) -> object E m I /\ default_options m.
Proof.
  intros H. unfold model_create, model_load_file in H. apply bind_Ok in H as (sd & _ & H). unfold model_load in H. apply bind_Ok in H as (mr & Hr & HF).
  split; [exact (finish_object _ _ _ _ HF)|].
  assert (O : default_options mr).
  { unfold model_read in Hr. apply bind_Ok in Hr as (mv & _ & Hr). destruct mv; try discriminate. do 12 (apply bind_Ok in Hr as (? & _ & Hr)). inversion Hr; subst mr. repeat split. }
  unfold finish in HF. apply bind_Ok in HF as (it & _ & HF). inversion HF; subst m. exact O.
Qed.
Lemma create_savable E C f path m I : model_create E C f path = Ok (m, I) -> writable_model m -> savable E m.
Proof. intros H W. unfold model_create, model_load_file in H. apply bind_Ok in H as (sd & _ & H). exact (loaded_savable E (new_model true false) sd m I eq_refl H W). Qed.

(** the dataset is merged with the model as the first merge left it; this makes no difference *)
Definition same_kinds (chs chs' : dict Channel) : Prop := forall k, match dget k chs, dget k chs' with Some c, Some c' => ch_kind c' = ch_kind c | None, None => True | _, _ => False end.
Lemma same_slices it chs chs' k v : same_kinds chs chs' -> i_channels it = chs ->
  channel_slice (with_ichannels it chs') k v = channel_slice it k v.
Proof.
  intros H <-. unfold channel_slice, dgetE. cbn [with_ichannels i_offsets i_channels]. specialize (H k). destruct (dget k (i_offsets it)); [|reflexivity]. cbn [bind].
  destruct (dget k (i_channels it)) as [c|], (dget k chs') as [c'|]; try contradiction; [|reflexivity]. cbn [bind]. now rewrite (nbins_kind _ _ H).
Qed.
Lemma merge_leaves E m tm name ob obn obu chs' m2 I2 : NoDup (keys (m_channels m)) -> merge_channels E m tm name ob obn obu = Ok (Some (chs', (m2, I2))) ->
  keys chs' = keys (m_channels m) /\ same_kinds (m_channels m) chs'.
Proof.
  intros Hd H. destruct (C80_rest_unchanged E m tm name ob obn obu chs' m2 I2 Hd H) as (Ek & _). split; [exact Ek|].
  unfold merge_channels in H. apply bind_Ok in H as (ck & Hck & H). destruct ck as [[chs owners]|]; [|discriminate].
  destruct (cmerger_spec _ _ _ _ Hck) as (_ & _ & past & Hco & _). pose proof (co_grown _ _ _ _ Hco) as Hg. cbn [fst] in Hg.
  apply bind_Ok in H as (sm & Hsm & H). set (chs2 := fold_left _ owners chs) in H. apply bind_Ok in H as (kind & Hkind & H). destruct kind as [kd|]; [|discriminate].
  apply bind_Ok in H as ([m3 I3] & Hin & H). inversion H; subst chs' m3 I3; clear H.
  assert (Hg' : chans (fun _ _ => True) (m_channels m) chs) by (apply (chans_trans grown (fun a b => a = b) (fun _ _ => True) _ chs _); [auto|exact Hg|now apply chans_refl']).
  assert (X : chans (fun _ _ => True) (m_channels m) chs2).
  { unfold chs2. clear - Hg'. revert chs Hg'. induction owners as [|[n o] r IH]; intros chs Hg; [exact Hg|]. cbn [fold_left fst snd].
    destruct (sample_of chs o n) as [so|] eqn:Eso; [|now apply IH]. destruct (dget n sm) as [s1|]; [|now apply IH]. apply IH.
    eapply (chans_trans (fun _ _ => True) (fun _ _ => True)); [auto|exact Hg|]. eapply chans_set_sample; [auto|exact Eso|exact Logic.I]. }
  intros k. destruct (dget k (m_channels m)) as [c|] eqn:Ec.
  - destruct (chans_dget _ _ _ _ _ X Ec) as (c' & -> & _ & Hk & _). exact Hk.
  - destruct (dget k chs2) as [c|] eqn:E2; [|exact Logic.I]. assert (Z : In k (keys (m_channels m))) by (rewrite <- Ek; apply dmem_spec; unfold dmem; now rewrite E2). apply dmem_spec in Z. unfold dmem in Z. now rewrite Ec in Z.
Qed.
Lemma longest_same chs chs' : same_kinds chs chs' -> forall l best best' r, longest_channel chs l best = Ok (Some r) -> (best = None <-> best' = None) ->
  exists r', longest_channel chs' l best' = Ok (Some r') /\ (r = None <-> r' = None).
Proof.
  intros SK. induction l as [|k l IH]; intros best best' r H HB; cbn [longest_channel] in *; [inversion H; subst; eauto|].
  specialize (SK k). unfold dgetE in *. destruct (dget k chs) as [c|]; [|discriminate]. destruct (dget k chs') as [c'|]; [|contradiction]. cbn [bind] in *. rewrite SK.
  assert (N : forall (b : option (string * Channel)) x y, match b with None => Some (k, x) | Some (_, q) => if (length (ch_samples q) <? length (ch_samples y))%nat then Some (k, x) else b end <> None).
  { intros b x y. destruct b as [[a q]|]; [destruct (_ <? _)%nat|]; discriminate. }
  destruct (ch_kind c); try discriminate; apply (IH _ _ _ H); split; intros X; exfalso; revert X; apply N.
Qed.
Lemma check_same chs chs' tm r : same_kinds chs chs' -> cmerger_check chs tm = Ok (Some r) -> exists r', cmerger_check chs' tm = Ok (Some r').
Proof.
  intros SK H. unfold cmerger_check in *. destruct tm as [|k0 l]; [discriminate|].
  assert (F : forallb (fun k => dmem k chs') l = forallb (fun k => dmem k chs) l).
  { clear H. induction l as [|k l IH]; [reflexivity|]. cbn [forallb]. rewrite IH. f_equal. specialize (SK k). unfold dmem. destruct (dget k chs), (dget k chs'); try contradiction; reflexivity. }
  rewrite F. destruct (forallb (fun k => dmem k chs) l); [|discriminate]. cbn [negb] in *. destruct (longest_channel chs (k0 :: l) None) as [lo|] eqn:EL; [|discriminate]. cbn [bind] in H. destruct lo as [lo|]; [|discriminate].
  destruct (longest_same chs chs' SK _ None None _ EL ltac:(tauto)) as (r' & -> & Hn). cbn [bind]. destruct lo as [[k c]|]; [|discriminate]. destruct r' as [[k' c']|]; [eauto|]. exfalso. pose proof (proj2 Hn eq_refl). discriminate.
Qed.
Lemma merge_data_same m it chs' tm d mi r : same_kinds (m_channels m) chs' -> keys chs' = keys (m_channels m) -> i_channels it = m_channels m ->
  merge_data m it tm d mi = Ok (Some r) <-> merge_data (with_channels m chs') (with_ichannels it chs') tm d mi = Ok (Some r).
Proof.
  intros SK Ek Hi. unfold merge_data. cbn [with_channels m_channels]. rewrite Ek.
  assert (SK' : same_kinds chs' (m_channels m)) by (intros k; specialize (SK k); destruct (dget k (m_channels m)), (dget k chs'); try contradiction; congruence).
  assert (FE : forall l st, foldM (fun st k => if negb (existsb (String.eqb k) tm) then let! s := channel_slice (with_ichannels it chs') k (d_counts d) in Ok (fst st ++ s, snd st)
     else if (snd st : bool) then Ok st else let! l := mapM (fun k' => channel_slice (with_ichannels it chs') k' (d_counts d)) tm in Ok (fst st ++ concat l, true)) l st =
     foldM (fun st k => if negb (existsb (String.eqb k) tm) then let! s := channel_slice it k (d_counts d) in Ok (fst st ++ s, snd st)
     else if (snd st : bool) then Ok st else let! l := mapM (fun k' => channel_slice it k' (d_counts d)) tm in Ok (fst st ++ concat l, true)) l st).
  { assert (ME : mapM (fun k' => channel_slice (with_ichannels it chs') k' (d_counts d)) tm = mapM (fun k' => channel_slice it k' (d_counts d)) tm).
    { generalize tm. intros t. induction t as [|k t IH]; [reflexivity|]. cbn [mapM]. rewrite IH. now rewrite (same_slices it (m_channels m) chs' k _ SK Hi). }
    rewrite ME. induction l as [|k l IH]; intros st; [reflexivity|]. cbn [foldM]. rewrite (same_slices it (m_channels m) chs' k _ SK Hi). match goal with |- bind ?a _ = bind ?a _ => destruct a as [st'|]; [|reflexivity] end. cbn [bind]. apply IH. }
  rewrite FE. split; intros H; apply bind_Ok in H as (ck & Hck & H); (destruct ck as [q|]; [|discriminate]).
  - destruct (check_same _ _ _ _ SK Hck) as (q' & ->). exact H.
  - destruct (check_same _ _ _ _ SK' Hck) as (q' & ->). exact H.
Qed.

(** The model file of a single merge: apart from the description, which is the verbosity level instead of a text, it holds the merged model: with a
    description put in its place, the loader gives exactly the merged model. *)
Theorem C103_model_file : forall E C w pf o f m I name tm ob chs' m2 I2 ops, faithful C -> signs E -> model_create E C f (co_model o) = Ok (m, I) -> writable_model m -> all_fit (m_channels m) ->
  merge_specs pf (co_channels o) = Ok [mkMS name tm ob] -> mergeable m tm name ob -> merge_channels E m tm name ob (co_name o) (co_unit o) = Ok (Some (chs', (m2, I2))) ->
  chan_run E C w pf o f = Ok (ops, None) ->
  exists d md, load_file C (run_ops ops f) (co_out o ++ ".json")%string None = Ok d /\ dget "model" d = Some (JObj md) /\ dget "description" md = Some (JInt (co_verbosity o)) /\
    forall s, model_load E (new_model true false) (dset "model" (JObj (dset "description" (JStr s) md)) d) = Ok (with_descr m2 (Some s), I2).
Proof.
  intros E C w pf o f m I name tm ob chs' m2 I2 ops HC Sg Hm W Hf Hs Mg HM H. destruct (chan_run_parts _ _ _ _ _ _ _ H) as (mi & d & specs & st & m' & it & sd & ops1 & Hmi & _ & Hsp & Hst & Em & Hsd & H1 & Hops).
  rewrite Hm in Hmi. inversion Hmi; subst mi; clear Hmi. rewrite Hs in Hsp. inversion Hsp; subst specs; clear Hsp. cbn [foldM] in Hst. unfold merge_step in Hst. cbn [cs_model ms_channels ms_name ms_ranges cs_verb cs_data] in Hst.
  rewrite HM in Hst. cbn [bind] in Hst. apply bind_Ok in Hst as (st1 & Hst1 & Hst). inversion Hst; subst st1; clear Hst. apply bind_Ok in Hst1 as (dd & _ & Hst1). inversion Hst1; subst st; clear Hst1. cbn [cs_model cs_descr cs_data] in *.
  inversion Em; subst m' it; clear Em. destruct (create_options _ _ _ _ _ _ Hm) as (Ob & (O1 & O2 & O3 & O4 & O5)).
  destruct (merged_savable E m I tm name ob _ _ chs' m2 I2 Sg Ob (create_savable _ _ _ _ _ _ Hm W) Hf Mg HM) as (Ob2 & S2).
  destruct (merge_core_kind E m I tm name ob _ _ chs' m2 I2 Sg Ob Hf Mg HM) as (mc & _ & _ & _ & _ & _ & _ & _ & Eas & Eli & Ecu & _ & _ & _ & _ & _ & _ & _ & _ & _ & _ & Ess & Elo).
  assert (HL : load_file C (run_ops ops f) (co_out o ++ ".json")%string None = Ok sd).
  { destruct (C89_saved_file_is_loaded _ _ _ _ _ _ f HC H1) as (HL & _). destruct Hops as [(_ & ->)|(x & descr & ops2 & _ & H2 & ->)]; [exact HL|].
    unfold data_save in H2. apply bind_Ok in H2 as (sd2 & _ & H2). inversion H2 as [H3]. unfold load_file in *. rewrite run_ops_app, (save_ops_other _ _ _ _ _ _ _ _ _ H3 (out_names (co_out o))). exact HL. }
  assert (G : forall s, exists md, dget "model" sd = Some (JObj md) /\ dget "description" md = Some (JInt (co_verbosity o)) /\ model_load E (new_model true false) (dset "model" (JObj (dset "description" (JStr s) md)) sd) = Ok (with_descr m2 (Some s), I2)).
  { intros s. destruct (C79_reload_with_description E m2 m2 I2 (co_verbosity o) [] (new_model true false) s (object_finish _ _ _ Ob2) S2) as (d0 & md & A & B & D & F); try reflexivity; try (cbn; congruence).
    rewrite Hsd in A. inversion A; subst d0. eauto. }
  destruct (G "") as (md & A & B & _). exists sd, md. split; [exact HL|]. split; [exact A|]. split; [exact B|]. intros s. destruct (G s) as (md' & A' & _ & D). rewrite A in A'. inversion A'; subst md'. exact D.
Qed.
Print Assumptions C103_model_file.

(** The dataset file: the merged dataset, with the counts truncated to integers. *)
Theorem C103_data_file : forall E C w pf o f m I name tm ob chs' m2 I2 ops p d descr, faithful C -> signs E -> model_create E C f (co_model o) = Ok (m, I) -> writable_model m -> all_fit (m_channels m) -> one_owner m ->
  (forall k p, In (k, p) (m_nps m) -> np_variation p <> 0) -> co_data o = Some p -> p <> "" -> data_create C f (m, I) p = Ok (d, descr) ->
  merge_specs pf (co_channels o) = Ok [mkMS name tm ob] -> mergeable m tm name ob -> merge_channels E m tm name ob (co_name o) (co_unit o) = Ok (Some (chs', (m2, I2))) ->
  chan_run E C w pf o f = Ok (ops, None) ->
  exists d2, merge_data m I tm d (m2, I2) = Ok (Some d2) /\ data_create C (run_ops ops f) (m2, I2) (co_out o ++ "_data.json")%string = Ok (as_integers d2, None).
Proof.
  intros E C w pf o f m I name tm ob chs' m2 I2 ops p d descr HC Sg Hm W Hf Ow Hnv Hdo Hp Hd Hs Mg HM H. destruct (chan_run_parts _ _ _ _ _ _ _ H) as (mi & dd & specs & st & m' & it & sd & ops1 & Hmi & Hdd & Hsp & Hst & Em & Hsd & H1 & Hops).
  rewrite Hm in Hmi. inversion Hmi; subst mi; clear Hmi. rewrite Hs in Hsp. inversion Hsp; subst specs; clear Hsp. rewrite Hdo in Hdd. destruct (String.eqb_spec p ""); [contradiction|]. rewrite Hd in Hdd. cbn [bind] in Hdd. inversion Hdd; subst dd; clear Hdd.
  cbn [foldM] in Hst. unfold merge_step in Hst. cbn [cs_model ms_channels ms_name ms_ranges cs_verb cs_data] in Hst.
  rewrite HM in Hst. cbn [bind] in Hst. apply bind_Ok in Hst as (st1 & Hst1 & Hst). inversion Hst; subst st1; clear Hst. apply bind_Ok in Hst1 as (dm & Hdm & Hst1). inversion Hst1; subst st; clear Hst1. cbn [cs_model cs_descr cs_data] in *.
  inversion Em; subst m' it; clear Em. destruct (create_options _ _ _ _ _ _ Hm) as (Ob & _).
  pose proof (create_savable _ _ _ _ _ _ Hm W) as S. destruct (merged_savable E m I tm name ob _ _ chs' m2 I2 Sg Ob S Hf Mg HM) as (Ob2 & S2).
  destruct (merge_core_kind E m I tm name ob _ _ chs' m2 I2 Sg Ob Hf Mg HM) as (mc & _ & _ & _ & _ & En & _).
  destruct (merge_leaves E m tm name ob _ _ chs' m2 I2 (proj1 (sv_chs _ _ S)) HM) as (Ek & SK).
  apply bind_Ok in Hdm as (d2o & Hd2 & Hdm). destruct d2o as [d2|].
  2:{ exfalso. assert (Hck : exists r, cmerger_check (m_channels m) tm = Ok (Some r)).
      { unfold merge_channels in HM. apply bind_Ok in HM as (ck & Hck & HM). destruct ck as [r|]; [eauto|discriminate]. }
      destruct Hck as (r & Hck). destruct (check_same _ _ _ _ SK Hck) as (r' & Hr). unfold merge_data in Hd2. cbn [with_channels m_channels] in Hd2. rewrite Hr in Hd2. cbn [bind] in Hd2.
      apply bind_Ok in Hd2 as (st & _ & Hd2). apply bind_Ok in Hd2 as (x & _ & Hd2). discriminate. }
  exists d2. split; [apply (merge_data_same m I chs' tm d (m2, I2) d2 SK Ek (eq_sym (proj2 Ob))); exact Hd2|].
  inversion Hdm; subst dm; clear Hdm. destruct Hops as [(Hx & _)|(x & ds & ops2 & Hx & H2 & ->)]; [discriminate|]. inversion Hx; subst x ds; clear Hx.
  destruct (data_create_facts E C f m I p d descr Ob Hd) as (Lc & La & Hz & _).
  unfold merge_data in Hd2. apply bind_Ok in Hd2 as (ck & _ & Hd2). destruct ck; [|discriminate]. apply bind_Ok in Hd2 as (cs & _ & Hd2). apply bind_Ok in Hd2 as (dx & Hdx & Hd2). inversion Hd2; subst dx; clear Hd2. cbn [fst snd] in Hdx.
  assert (L2 : length (d_counts d2) = i_nbins I2 /\ length (d_aux d2) = length (m_nps m2) /\ forall i q, nth_error (values (m_nps m2)) i = Some q -> np_aux_obs q = None -> nth i (d_aux d2) 0 = 0).
  { unfold data_init in Hdx. apply bind_Ok in Hdx as (c & Hc & Hdx). apply bind_Ok in Hdx as (a & Ha & Hdx). inversion Hdx; subst d2; clear Hdx. cbn [d_counts d_aux]. split.
    - unfold set_counts in Hc. destruct (fst cs); [inversion Hc; apply repeat_length|]. destruct (_ =? _)%nat eqn:El; [|discriminate]. inversion Hc; subst c. now apply Nat.eqb_eq.
    - assert (Ea : a = d_aux d).
      { unfold set_aux_obs in Ha. rewrite La, En, Nat.eqb_refl in Ha. destruct (length (m_nps m) =? 0)%nat eqn:E0; [|congruence]. apply Nat.eqb_eq in E0. rewrite E0 in La. destruct (d_aux d); [|discriminate].
        inversion Ha. pose proof (siv_built _ _ _ (proj1 Ob2)) as Bt. destruct (pmodel_names _ _ (bt_pm _ _ _ Bt)) as (_ & Hn2 & _). assert (Ln : length (pm_nps (i_pm I2)) = 0%nat).
        { pose proof (f_equal (@length string) Hn2) as X. unfold np_names, keys in X. rewrite !map_length in X. rewrite En in X. lia. } now destruct (pm_nps (i_pm I2)). }
      subst a. rewrite En. split; [exact La|exact Hz]. }
  destruct L2 as (L2 & La2 & Hz2). destruct (sv_chs _ _ S2) as (HN2 & Hch2).
  unfold data_save in H2. apply bind_Ok in H2 as (sd2 & Hsd2 & H2). inversion H2 as [H3]. clear H2.
  assert (I0 : data_init m2 I2 [] [] = Ok (mkData (repeat 0 (i_nbins I2)) (map (fun p => snd (fst p)) (pm_nps (i_pm I2))))) by reflexivity.
  destruct (C28_dataset_save_load_roundtrip E m2 I2 (map py_int (d_counts d2)) (d_aux d2) (mkData (repeat 0 (i_nbins I2)) (map (fun p => snd (fst p)) (pm_nps (i_pm I2)))) None []) as (sd' & Hd' & Hl); auto.
  - apply Ob2.
  - intros k c Hin. destruct (Hch2 k c Hin) as (A & B & _). auto.
  - now rewrite map_length.
  - cbn [d_counts]. apply repeat_length.
  - intros k q Hin. rewrite En in Hin. exact (Hnv k q Hin).
  - unfold one_owner in Ow. now rewrite En.
  - rewrite map_map in Hd', Hl. change (mkData (map (fun x => IZR (py_int x)) (d_counts d2)) (d_aux d2)) with (as_integers d2) in Hd', Hl. rewrite data_fill_trunc in Hd'. assert (sd' = sd2) by congruence. subst sd'.
    unfold data_create. cbn [fst snd]. rewrite I0. cbn [bind]. rewrite run_ops_app. destruct (C89_saved_file_is_loaded _ _ _ _ _ _ (run_ops ops1 f) HC H3) as (HL & _). rewrite HL. cbn [bind]. rewrite Hl.
    unfold data_fill in Hsd2. apply bind_Ok in Hsd2 as (chl & _ & Hsd2). apply bind_Ok in Hsd2 as (al & _ & Hsd2). inversion Hsd2; subst sd2. reflexivity.
Qed.
Print Assumptions C103_data_file.

(** ** a concrete run: a library that knows the texts of a table *)
Definition table_codec (l : list (string * dict jv)) : Codec :=
  mkCodec (fun _ v => match find (fun tv => if jv_eq_dec (JObj (snd tv)) (JObj v) then true else false) l with Some tv => ([fst tv], None) | None => ([], Some TypeError) end)
          (fun _ s => match dget s l with Some v => Ok v | None => Err ValueError end).
Lemma table_codec_faithful l : NoDup (keys l) -> faithful (table_codec l).
Proof.
  intros HN fl v t H. unfold table_codec in *. cbn [c_dump c_parse] in *. match type of H with match ?F with _ => _ end = _ => destruct F as [[s u]|] eqn:Ef; [|discriminate] end. injection H as <-. cbn [full_text fold_left String.append fst].
  apply find_some in Ef as (Hin & He). cbn [snd] in He. destruct (jv_eq_dec (JObj u) (JObj v)) as [E|]; [|discriminate]. injection E as ->. now rewrite (In_dget _ _ _ HN Hin).
Qed.
Definition cn0 : Model :=
  mkModel "mg" None [("mu", mkPOI (Some "mu") (Some 0) (Some 10) (Some 1) None None)] [np1 "a" 0] [] (m_channels mg0) [] true false true false 0.
Definition cn_in : dict jv := match model_fill ex_env cn0 [] with Ok d => d | Err _ => [] end.
Definition cn_data : dict jv :=
  [("data", JObj [("channels", JList [JObj [("name", JStr "A"); ("counts", JInt 1)]; JObj [("name", JStr "C"); ("counts", JInt 2)];
      JObj [("name", JStr "B"); ("bins", JList [JObj [("name", JStr "b1"); ("counts", JInt 3)]; JObj [("name", JStr "b2"); ("counts", JInt 4)]])]]); ("aux_obs", JList [])])].
Definition cn_fs : fs := fun q => if String.eqb q "m.json" then Some "1" else if String.eqb q "d.json" then Some "2" else None.
Definition cn_opts : ChanOpts := mkCO "m.json" (Some "d.json") "out" "M = B,A" None (Some "") 0.
Lemma cn_all_fit : all_fit (m_channels cn0).
Proof.
  intros k c ks sm [X|[X|[X|[]]]] Hs; inversion X; subst; (destruct Hs as [Y|Hs]; [|destruct Hs as [Y|[]] || destruct Hs]); inversion Y; subst; split; try (eexists; split; reflexivity);
        intros par l Hl; cbn in Hl; repeat match type of Hl with context [String.eqb ?a ?b] => destruct (String.eqb a b) end; inversion Hl; reflexivity.
Qed.
Lemma cn_mergeable : mergeable cn0 ["B"; "A"] "M" None.
Proof.
  destruct C58_nonvacuous as (_ & _ & _ & _ & _ & _ & _ & _ & [K Ht Hf Hc Hb Hs Hno] & _). constructor; try assumption.
  destruct K as [K1 K2 K3 K4 K5]. constructor; try assumption. split; [repeat constructor; cbn; tauto|]. intros k p [X|[]]. inversion X. reflexivity.
Qed.
Lemma cn_writable : writable_model cn0.
Proof.
  constructor.
  - intros k p [[= <- <-]|[]]. repeat split; discriminate.
  - intros k p [[= <- <-]|[]]; cbn; congruence.
  - intros k c [X|[X|[X|[]]]]; inversion X; reflexivity.
  - intros k c k' s y Hc Hs Hy. destruct (cn_all_fit k c k' s Hc Hs) as ((y' & Hy' & L) & _). congruence.
Qed.
Definition facts (I : Internal) (chs : dict Channel) (offs : dict nat) (n : nat) : Prop :=
  i_channels I = chs /\ i_offsets I = offs /\ i_nbins I = n /\ i_pm I = mkPM ["mu"] [("a", 0, 1)].
Lemma cn_load : exists I, model_load ex_env (new_model true false) cn_in = Ok (cn0, I) /\ facts I (m_channels cn0) [("A", 0%nat); ("C", 1%nat); ("B", 2%nat)] 4.
Proof. eexists. split; [unfold model_load, finish, cn_in, cn0, mg0, mg_model; ev; reflexivity|]. repeat split. Qed.
Lemma cn_merged : exists chs' m2 I2, merge_channels ex_env cn0 ["B"; "A"] "M" None None (Some "") = Ok (Some (chs', (m2, I2))) /\
  m2 = with_channels cn0 [("M", mg_M); ("C", mg_C)] /\ facts I2 (m_channels m2) [("M", 0%nat); ("C", 3%nat)] 4.
Proof. do 3 eexists. split; [unfold cn0, mg0, mg_model; ev; reflexivity|]. split; [reflexivity|]. repeat split. Qed.
Example C103_nonvacuous : exists C ops I m2 I2 chs' d, faithful C /\ signs ex_env /\ model_create ex_env C cn_fs "m.json" = Ok (cn0, I) /\ writable_model cn0 /\ all_fit (m_channels cn0) /\ one_owner cn0 /\
  (forall k p, In (k, p) (m_nps cn0) -> np_variation p <> 0) /\ data_create C cn_fs (cn0, I) "d.json" = Ok (d, None) /\
  merge_specs cn_pf (co_channels cn_opts) = Ok [mkMS "M" ["B"; "A"] None] /\ mergeable cn0 ["B"; "A"] "M" None /\
  merge_channels ex_env cn0 ["B"; "A"] "M" None (co_name cn_opts) (co_unit cn_opts) = Ok (Some (chs', (m2, I2))) /\
  chan_run ex_env C (fun _ => true) cn_pf cn_opts cn_fs = Ok (ops, None) /\
  data_create C (run_ops ops cn_fs) (m2, I2) "out_data.json" = Ok (mkData [3; 4; 1; 2] [0], None).
Proof.
  destruct cn_load as (I & L & F1 & F2 & F3 & F4). destruct cn_merged as (chs' & m2 & I2 & M & E2 & G1 & G2 & G3 & G4).
  assert (D0 : data_init cn0 I [] [] = Ok (mkData [0; 0; 0; 0] [0])) by (unfold data_init, set_counts, set_aux_obs; rewrite F3, F4; reflexivity).
  assert (D1 : data_load cn0 I (mkData [0; 0; 0; 0] [0]) cn_data = (mkData [1; 2; 3; 4] [0], None)).
  { unfold data_load, cn_data. cbn [dget String.eqb Ascii.eqb Bool.eqb load_field bind as_ostr d_counts d_aux]. rewrite F1. reflexivity. }
  destruct (merge_leaves ex_env cn0 ["B"; "A"] "M" None None (Some "") chs' m2 I2 (proj1 (ky_chs _ (mg_keyed _ _ _ _ cn_mergeable))) M) as (Ek & SK).
  assert (D2 : merge_data (with_channels cn0 chs') (with_ichannels I chs') ["B"; "A"] (mkData [1; 2; 3; 4] [0]) (m2, I2) = Ok (Some (mkData [3; 4; 1; 2] [0]))).
  { apply (merge_data_same cn0 I chs' ["B"; "A"] _ (m2, I2) _ SK Ek F1). unfold merge_data, channel_slice. rewrite F1, F2. cbn. unfold data_init, set_counts, set_aux_obs. rewrite G3. subst m2. reflexivity. }
  assert (S1 : exists sd, merged_fill ex_env m2 0 [] = Ok sd /\ dget "model" sd <> None) by (subst m2; eexists; split; [ev; reflexivity|cbn; discriminate]).
  assert (S2 : exists sd2, data_fill m2 I2 (mkData [3; 4; 1; 2] [0]) None [] = Ok sd2 /\ dget "model" sd2 = None).
  { unfold data_fill, channel_slice. rewrite G1, G2, E2. eexists. split; reflexivity. }
  destruct S1 as (sd & S1 & N1). destruct S2 as (sd2 & S2 & N2).
  set (C := table_codec [("3", sd); ("4", sd2); ("1", cn_in); ("2", cn_data)]).
  assert (HC : faithful C) by (apply table_codec_faithful; cbn; repeat constructor; cbn; intuition congruence).
  assert (Hm : model_create ex_env C cn_fs "m.json" = Ok (cn0, I)) by exact L.
  assert (Hd : data_create C cn_fs (cn0, I) "d.json" = Ok (mkData [1; 2; 3; 4] [0], None)).
  { unfold data_create. cbn [fst snd]. rewrite D0. cbn [bind]. change (load_file C cn_fs "d.json" None) with (Ok cn_data). cbn [bind]. rewrite D1. reflexivity. }
  assert (P1 : c_dump C "json" sd = (["3"], None)) by (unfold C, table_codec; cbn [c_dump find snd]; destruct (jv_eq_dec (JObj sd) (JObj sd)); [reflexivity|contradiction]).
  assert (P2 : c_dump C "json" sd2 = (["4"], None)).
  { unfold C, table_codec; cbn [c_dump find snd]. destruct (jv_eq_dec (JObj sd) (JObj sd2)) as [E|_]; [injection E as E; congruence|]. destruct (jv_eq_dec (JObj sd2) (JObj sd2)); [reflexivity|contradiction]. }
  assert (Hr : exists ops, chan_run ex_env C (fun _ => true) cn_pf cn_opts cn_fs = Ok (ops, None)).
  { unfold chan_run. change (co_model cn_opts) with "m.json". rewrite Hm. cbn [bind cn_opts co_data String.eqb Ascii.eqb Bool.eqb]. rewrite Hd. cbn [bind].
    change (merge_specs cn_pf (co_channels cn_opts)) with (Ok [mkMS "M" ["B"; "A"] None]). cbn [bind foldM]. unfold merge_step. cbn [cs_model ms_channels ms_name ms_ranges cs_verb cs_data]. change (co_name cn_opts) with (@None string). change (co_unit cn_opts) with (Some ""). rewrite M. cbn [bind].
    rewrite D2. cbn [bind cs_model cs_descr cs_data co_verbosity]. change (co_verbosity cn_opts) with 0%Z. rewrite S1. cbn [bind]. change (co_out cn_opts ++ ".json")%string with "out.json". change (co_out cn_opts ++ "_data.json")%string with "out_data.json". unfold data_save. rewrite S2. cbn [bind]. unfold save_ops. cbn [negb]. change (flavor_of "out.json" None) with "json". change (flavor_of "out_data.json" None) with "json". cbn [String.eqb Ascii.eqb Bool.eqb orb].
    rewrite P1, P2. eexists. reflexivity. }
  destruct Hr as (ops & Hr). exists C, ops, I, m2, I2, chs', (mkData [1; 2; 3; 4] [0]).
  assert (O1 : one_owner cn0) by (constructor). assert (V : forall k p, In (k, p) (m_nps cn0) -> np_variation p <> 0) by (intros k p [X|[]]; inversion X; cbn; lra).
  split; [exact HC|]. split; [exact ex_signs|]. split; [exact Hm|]. split; [exact cn_writable|]. split; [exact cn_all_fit|]. split; [exact O1|]. split; [exact V|]. split; [exact Hd|]. split; [reflexivity|]. split; [exact cn_mergeable|]. split; [exact M|]. split; [exact Hr|].
  destruct (C103_data_file ex_env C (fun _ => true) cn_pf cn_opts cn_fs cn0 I "M" ["B"; "A"] None chs' m2 I2 ops "d.json" (mkData [1; 2; 3; 4] [0]) None HC ex_signs Hm cn_writable cn_all_fit O1 V eq_refl ltac:(discriminate) Hd eq_refl cn_mergeable M Hr) as (d2 & X1 & X2).
  apply (merge_data_same cn0 I chs' ["B"; "A"] _ (m2, I2) _ SK Ek F1) in X1. rewrite D2 in X1. injection X1 as <-. change (co_out cn_opts ++ "_data.json")%string with "out_data.json" in X2. rewrite X2. unfold as_integers. cbn [d_counts d_aux map]. rewrite !py_int_IZR. reflexivity.
Qed.
