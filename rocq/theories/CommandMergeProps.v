(** C102: the command that merges model files. *)
From Coq Require Import Permutation Sorted DecimalString.
From Coq Require Decimal.
From Verif Require Import Py PyFacts Base BaseFacts Expressions ExprProps Norms Sample SampleFacts Channels ChannelFacts Params Core CoreFacts CoreSpec CoreCoefs CoreYields CoreExample ModelIO ModelIOFacts ModelIOProps
  ModelTools ModelToolsFacts NPPruneFacts NPPruneProps SamplePruneProps UtilTools UtilFacts FileIO FileIOProps ToolsMoreProps MergeProps Commands CommandFacts CommandProps.
Local Open Scope string_scope.
Local Open Scope list_scope.
Local Open Scope R_scope.

Lemma Forall2_in_left {A B} (P : A -> B -> Prop) l r a : Forall2 P l r -> In a l -> exists b, In b r /\ P a b.
Proof. intros F. induction F as [|x y l r H F IH]; intros Hi; [destruct Hi|]. destruct Hi as [<-|Hi]; [exists y; split; [now left|exact H]|]. destruct (IH Hi) as (b & Hb & Hp). exists b. split; [now right|exact Hp]. Qed.
(** ** the saved model *)
Lemma with_opts_eq m : default_options m -> mkModel (m_name m) (m_descr m) (m_pois m) (m_nps m) (m_aux m) (m_channels m) (m_exprs m) true false true false 0 = m.
Proof. destruct m. unfold default_options. cbn. now intros (-> & -> & -> & -> & ->). Qed.
Lemma fill_reload E m sm : savable E m -> default_options m -> model_fill E m [] = Ok sm -> model_load E (new_model true false) sm = finish E m.
Proof.
  intros S O Hm. destruct (C17_model_save_load_roundtrip E m (new_model true false) [] S eq_refl) as (sd & Hs & m' & Hr & A1 & A2 & A3 & A4 & A5 & A6 & A7 & A8 & A9 & A10 & A11 & A12).
  rewrite Hm in Hs. inversion Hs; subst sd. unfold model_load. rewrite Hr. cbn [bind]. f_equal. rewrite <- (with_opts_eq m O). destruct m'. cbn in *. congruence.
Qed.
Lemma save_reload E C w m out ops f : faithful C -> savable E m -> default_options m -> model_save E C w m out None = Ok (ops, None) ->
  model_create E C (run_ops ops f) out = finish E m /\ forall q, q <> out -> run_ops ops f q = f q.
Proof.
  intros HC S O H. unfold model_save in H. apply bind_Ok in H as (sd & Hs & H). inversion H as [Hops]. clear H.
  destruct (C89_saved_file_is_loaded C w out None sd ops f HC Hops) as (A & B). split; [|exact B].
  unfold model_create, model_load_file. rewrite A. cbn [bind]. now apply fill_reload.
Qed.

(** a model file that can be merged: what is read from it can be written *)
Definition mergeable (E : Env) (m : Model) : Prop := savable E m /\ default_options m.
Lemma create_mergeable E C f path m I : model_create E C f path = Ok (m, I) -> writable_model m -> object E m I /\ mergeable E m.
Proof.
  intros H W. unfold model_create, model_load_file in H. apply bind_Ok in H as (sd & _ & H).
  pose proof (loaded_savable E (new_model true false) sd m I eq_refl H W) as S. unfold model_load in H. apply bind_Ok in H as (mr & Hr & HF).
  split; [exact (finish_object _ _ _ _ HF)|]. split; [exact S|].
  assert (O : default_options mr).
  { unfold model_read in Hr. apply bind_Ok in Hr as (mv & _ & Hr). destruct mv; try discriminate. do 12 (apply bind_Ok in Hr as (? & _ & Hr)). inversion Hr; subst mr. repeat split. }
  unfold finish in HF. apply bind_Ok in HF as (it & _ & HF). inversion HF; subst m. exact O.
Qed.
Lemma load_one_mergeable E C f o path m I : load_one E C f o path = Ok (m, I) -> (forall m0 I0, model_create E C f path = Ok (m0, I0) -> writable_model m0) -> object E m I /\ mergeable E m.
Proof.
  unfold load_one. destruct (f path); [|discriminate]. intros H W. apply bind_Ok in H as ([m0 I0] & H0 & H). destruct (create_mergeable E C f path m0 I0 H0 (W _ _ H0)) as (Ob & S & O).
  destruct (mo_signif o) as [z|]; [|inversion H; subst; split; [exact Ob|split; assumption]].
  destruct (prune_samples_savable E m0 I0 z m I Ob S H) as (Ob' & S'). split; [exact Ob'|]. split; [exact S'|].
  destruct (prune_result E m0 I0 z m I Ob (proj1 (sv_chs _ _ S)) H) as (Em & _). unfold default_options. rewrite Em. exact O.
Qed.

Lemma NoDup_snoc {A} (l : list A) a : NoDup l -> ~ In a l -> NoDup (l ++ [a]).
Proof. intros H Hn. apply Permutation_NoDup with (a :: l); [apply Permutation_cons_append|now constructor]. Qed.
Lemma dset_NoDup {V} k (v : V) d : NoDup (keys d) -> NoDup (keys (dset k v d)).
Proof.
  intros H. destruct (in_dec string_dec k (keys d)) as [Hi|Hi]; [now rewrite keys_dset|]. rewrite dset_app_new by exact Hi. unfold keys in *. rewrite map_app. cbn [map fst]. now apply NoDup_snoc.
Qed.
Lemma fold_dset_NoDup {V} : forall (l d : dict V), NoDup (keys d) -> NoDup (keys (fold_left (fun d kc => dset (fst kc) (snd kc) d) l d)).
Proof. induction l as [|a l IH]; intros d H; cbn [fold_left]; [exact H|]. apply IH. now apply dset_NoDup. Qed.
Lemma dset_In {V} k (v : V) d k' v' : In (k', v') (dset k v d) -> (k', v') = (k, v) \/ In (k', v') d.
Proof.
  induction d as [|[a x] d IH]; cbn [dset]; [intros [H|[]]; left; congruence|]. destruct (String.eqb_spec k a) as [->|Hne].
  - intros [H|H]; [left; congruence|right; now right].
  - intros [H|H]; [right; left; exact H|]. destruct (IH H) as [?|?]; [now left|right; now right].
Qed.
Lemma fold_dset_In {V} : forall (l d : dict V) k v, In (k, v) (fold_left (fun d kc => dset (fst kc) (snd kc) d) l d) -> In (k, v) d \/ In (k, v) l.
Proof.
  induction l as [|[a x] l IH]; intros d k v H; cbn [fold_left] in H; [now left|]. destruct (IH _ _ _ H) as [H1|H1]; [|right; now right]. cbn [fst snd] in H1.
  destruct (dset_In _ _ _ _ _ H1) as [E|E]; [right; left; congruence|now left].
Qed.
Lemma merged_mergeable E target models m' offs n : Forall (fun mi : Model * Internal => mergeable E (fst mi)) (target :: models) -> merge_models target models = Ok (m', offs, n) -> mergeable E m'.
Proof.
  intros HF H. apply merge_result in H as (-> & _). inversion HF as [|? ? (S & O) HR]; subst. split; [|exact O].
  constructor; cbn [with_channels m_pois m_nps m_aux m_exprs m_channels]; try apply S. split; [apply fold_dset_NoDup; apply S|].
  intros k c Hc. apply fold_dset_In in Hc as [Hc|Hc]; [exact (proj2 (sv_chs _ _ S) k c Hc)|]. apply in_concat in Hc as (l & Hl & Hc). apply in_map_iff in Hl as (mi & <- & Hm).
  rewrite Forall_forall in HR. destruct (HR mi Hm) as (S' & _). exact (proj2 (sv_chs _ _ S') k c Hc).
Qed.

(** ** C102 *)
(** The files named on the command line are loaded and merged in order, the parameters and expressions being those of the first: what is
    loaded from the output file is the model with these parameters and, when no channel name appears twice, the channels of all the files, in order
    with their contents.  No other file is touched. *)
Theorem C102_output_file : forall E C w glob o f files target rest ops, faithful C ->
  merge_files glob o = Ok files -> mapM (load_one E C f o) files = Ok (target :: rest) ->
  (forall path m I, In path files -> model_create E C f path = Ok (m, I) -> writable_model m) ->
  NoDup (concat (map (fun mi : Model * Internal => keys (m_channels (fst mi))) (target :: rest))) ->
  merge_run E C w glob o f = Ok (ops, None) ->
  model_create E C (run_ops ops f) (mo_out o) = finish E (with_channels (fst target) (concat (map (fun mi : Model * Internal => m_channels (fst mi)) (target :: rest)))) /\
  forall q, q <> mo_out o -> run_ops ops f q = f q.
Proof.
  intros E C w glob o f files target rest ops HC Hf HL HW HN H. unfold merge_run in H. rewrite Hf in H. cbn [bind] in H. rewrite HL in H. cbn [bind] in H.
  apply bind_Ok in H as ([[m' offs] n] & Hm & H). cbn [fst] in H. pose proof (C60_distinct_channels_kept _ _ _ _ _ Hm HN) as Ec. destruct (C60_every_channel_present _ _ _ _ _ Hm) as (Em & _).
  rewrite <- Ec, <- Em. apply mapM_Forall2 in HL.
  assert (HM : Forall (fun mi : Model * Internal => mergeable E (fst mi)) (target :: rest)).
  { apply Forall_forall. intros [m I] Hin. destruct (Forall2_in_right _ _ _ _ HL Hin) as (p & Hp & Hl). cbn [fst]. apply (load_one_mergeable E C f o p m I Hl). intros m0 I0. now apply HW. }
  destruct (merged_mergeable E _ _ _ _ _ HM Hm) as (S & O). exact (save_reload E C w m' (mo_out o) ops f HC S O H).
Qed.
Print Assumptions C102_output_file.

(** The loaded output predicts, in every channel of every input file, what the model of this file predicts, provided that the input files
    have the same parameters and expressions. *)
Theorem C102_predictions : forall E C w glob o f files target rest ops m2 I2 path m I k c off off2 b ps ns t t2, faithful C ->
  mo_signif o = None -> merge_files glob o = Ok files -> mapM (load_one E C f o) files = Ok (target :: rest) ->
  (forall path m I, In path files -> model_create E C f path = Ok (m, I) -> writable_model m) ->
  NoDup (concat (map (fun mi : Model * Internal => keys (m_channels (fst mi))) (target :: rest))) ->
  merge_run E C w glob o f = Ok (ops, None) -> model_create E C (run_ops ops f) (mo_out o) = Ok (m2, I2) ->
  (forall mi, In mi (target :: rest) -> m_nps (fst mi) = m_nps (fst target)) ->
  In path files -> model_create E C f path = Ok (m, I) -> m_pois m = m_pois (fst target) -> m_exprs m = m_exprs (fst target) ->
  names_ok m -> tables_ok E m (m_channels m) -> tables_ok E m2 (m_channels m2) -> length ps = length (m_pois m) ->
  tot_bin_exp m I ps ns None = Ok t -> tot_bin_exp m2 I2 ps ns None = Ok t2 ->
  In (k, c) (m_channels m) -> dget k (i_offsets I) = Some off -> dget k (i_offsets I2) = Some off2 -> (b < nbins c)%nat ->
  t2 (off2 + b)%nat = t (off + b)%nat.
Proof.
  intros E C w glob o f files target rest ops m2 I2 path m I k c off off2 b ps ns t t2 HC Ho Hf HL HW HN H Hr Hn Hp Hm Hpo Hex HNm HT HT2 Lps Ht Ht2 Hc Hoff Hoff2 Hb.
  destruct (C102_output_file E C w glob o f files target rest ops HC Hf HL HW HN H) as (HO & _). rewrite Hr in HO. symmetry in HO.
  unfold merge_run in H. rewrite Hf in H. cbn [bind] in H. rewrite HL in H. cbn [bind] in H. apply bind_Ok in H as ([[m' offs] n] & Hmm & _).
  pose proof (C60_distinct_channels_kept _ _ _ _ _ Hmm HN) as Ec. destruct (C60_every_channel_present _ _ _ _ _ Hmm) as (Em & _). rewrite <- Ec, <- Em in HO.
  apply mapM_Forall2 in HL.
  assert (HA : forall mi, In mi (target :: rest) -> object E (fst mi) (snd mi) /\ mergeable E (fst mi)).
  { intros [m1 I1] Hin. destruct (Forall2_in_right _ _ _ _ HL Hin) as (p & Hp1 & Hl). cbn [fst snd]. apply (load_one_mergeable E C f o p m1 I1 Hl). intros m0 I0. now apply HW. }
  assert (Hin : In (m, I) (target :: rest)).
  { destruct (Forall2_in_left _ _ _ _ HL Hp) as (mi & Hmi & Hl). unfold load_one in Hl. destruct (f path); [|discriminate]. rewrite Hm in Hl. cbn [bind] in Hl. rewrite Ho in Hl. inversion Hl; subst mi. exact Hmi. }
  destruct (HA _ Hin) as (Ob & _ & O1 & O2 & O3 & O4 & O5). destruct (HA target (or_introl eq_refl)) as (_ & _ & T1 & T2 & T3 & T4 & T5). cbn [fst snd] in *.
  apply (C60_predictions E target rest m' offs n m2 I2 m I k c off off2 b ps ns t t2); auto; try congruence.
  intros [m1 I1] H1. exists m1. apply object_finish. exact (proj1 (HA _ H1)).
Qed.
Print Assumptions C102_predictions.

(** *** which files are merged *)
(** Names of existing files are merged in the order given. *)
Theorem C102_files_in_order : forall glob o, mo_sort o = false -> (forall s, In s (mo_files o) -> glob s = [s]) -> merge_files glob o = Ok (mo_files o).
Proof.
  intros glob o Hs Hg. unfold merge_files. rewrite Hs. f_equal. induction (mo_files o) as [|s l IH]; [reflexivity|]. cbn [map concat]. rewrite IH by (intros x Hx; apply Hg; now right).
  assert (X : expand_spec glob s = [s]); [|now rewrite X]. unfold expand_spec. pose proof (Hg s (or_introl eq_refl)) as G. destruct s as [|[[] [] [] [] [] [] [] []] s]; cbn; try exact G; reflexivity.
Qed.
Print Assumptions C102_files_in_order.
Example C102_files_in_order_nonvacuous : merge_files (fun s => [s]) (mkMO ["b.json"; "a.json"] "out" false None) = Ok ["b.json"; "a.json"].
Proof. reflexivity. Qed.

(** intended: a file that does not exist is an error.  In fact every name goes through glob, and the ones matching nothing are dropped: the
    others are merged without it. *)
Theorem C102_missing_file_ignored_refuted : forall E C w glob l1 s l2 out sort z f, (forall r, s <> String "*" r) -> glob s = [] ->
  merge_run E C w glob (mkMO (l1 ++ s :: l2) out sort z) f = merge_run E C w glob (mkMO (l1 ++ l2) out sort z) f.
Proof.
  intros E C w glob l1 s l2 out sort z f Hs Hg. unfold merge_run, merge_files. cbn [mo_files mo_sort mo_out].
  assert (X : concat (map (expand_spec glob) (l1 ++ s :: l2)) = concat (map (expand_spec glob) (l1 ++ l2))); [|rewrite X; reflexivity].
  rewrite !map_app, !concat_app. cbn [map concat]. assert (Y : expand_spec glob s = []); [|now rewrite Y].
  unfold expand_spec. destruct s as [|[[] [] [] [] [] [] [] []] s]; cbn; try exact Hg. exfalso. exact (Hs s eq_refl).
Qed.
Print Assumptions C102_missing_file_ignored_refuted.
Example C102_missing_file_ignored_nonvacuous : (forall r, "none.json" <> String "*" r) /\ (fun s => if String.eqb s "a.json" then [s] else []) "none.json" = [].
Proof. split; [discriminate|reflexivity]. Qed.

(** intended: the input files can be specified with wildcards.  A pattern starting with a star is taken as the name of a file. *)
Theorem C102_leading_star_refuted : forall E C w glob r o f, mo_files o = [String "*" r] -> f (String "*" r) = None -> merge_run E C w glob o f = Err IOError.
Proof.
  intros E C w glob r o f Hf Hn. unfold merge_run, merge_files. rewrite Hf. cbn [map expand_spec concat app].
  assert (S : sort_files [String "*" r] = Ok [String "*" r]) by reflexivity. destruct (mo_sort o); [rewrite S|]; cbn [bind mapM]; unfold load_one; rewrite Hn; reflexivity.
Qed.
Print Assumptions C102_leading_star_refuted.
Example C102_leading_star_nonvacuous : exists o, mo_files o = [String "*" ".json"] /\ only "a.json" "in" (String "*" ".json") = None.
Proof. exists (mkMO ["*.json"] "out.json" false None). split; reflexivity. Qed.

(** *** the numerical sort *)
Lemma tokens_app_sep : forall s a r cur, is_word a = false -> tokens (s ++ String a r)%string cur = tokens s cur ++ String a "" :: tokens r "".
Proof.
  induction s as [|x s IH]; intros a r cur Ha; cbn [tokens String.append].
  - rewrite Ha. reflexivity.
  - destruct (is_word x); [now apply IH|]. rewrite IH by exact Ha. reflexivity.
Qed.
Lemma append_assoc_s (a b c : string) : ((a ++ b) ++ c = a ++ (b ++ c))%string.
Proof. induction a; cbn; [reflexivity|]. now rewrite IHa. Qed.
Lemma append_nil_s (a : string) : (a ++ "" = a)%string. Proof. induction a; cbn; [reflexivity|]. now rewrite IHa. Qed.
Fixpoint all_word (s : string) : bool := match s with EmptyString => true | String a r => (is_word a && all_word r)%bool end.
Lemma digits_word s : all_digits s = true -> all_word s = true.
Proof. induction s as [|a s IH]; cbn; [auto|]. intros H. apply andb_true_iff in H as (H1 & H2). rewrite (IH H2). unfold is_word. rewrite H1. reflexivity. Qed.
Lemma tokens_word : forall d cur, all_word d = true -> tokens d cur = [(cur ++ d)%string].
Proof.
  induction d as [|a d IH]; intros cur H; cbn [tokens]; [now rewrite append_nil_s|]. cbn in H. apply andb_true_iff in H as (H1 & H2). rewrite H1, IH by exact H2. now rewrite append_assoc_s.
Qed.
Lemma key_lt_prefix T U V : key_lt (T ++ U) (T ++ V) = key_lt U V.
Proof. induction T as [|x T IH]; [reflexivity|]. cbn [app key_lt]. assert (token_eqb x x = true) as -> by (destruct x; cbn; [apply Z.eqb_refl|apply String.eqb_refl]). exact IH. Qed.
Lemma key_lt_refl T : key_lt T T = Ok false.
Proof. rewrite <- (app_nil_r T). rewrite key_lt_prefix. reflexivity. Qed.

(** a file name with a number in it: [pre] is empty or ends with a character which is not part of a word, [post] is empty or starts with one *)
Definition separated (pre post : string) : Prop :=
  (pre = "" \/ exists p a, pre = (p ++ String a "")%string /\ is_word a = false) /\ (post = "" \/ exists a p, post = String a p /\ is_word a = false).
Definition numeral (d : string) : Prop := d <> "" /\ all_digits d = true.
Lemma alphanum_key pre post : separated pre post -> exists T U, forall d, numeral d -> alphanum (pre ++ d ++ post)%string = T ++ TokInt (digits_value d 0) :: U.
Proof.
  intros (Hp & Hq).
  assert (X : exists T U, forall d, all_word d = true -> tokens (pre ++ d ++ post)%string "" = T ++ d :: U).
  { assert (Y : exists U, forall d, all_word d = true -> tokens (d ++ post)%string "" = d :: U).
    { destruct Hq as [->|(a & p & -> & Ha)].
      - exists []. intros d Hd. rewrite append_nil_s. now rewrite tokens_word.
      - exists (String a "" :: tokens p ""). intros d Hd. rewrite tokens_app_sep by exact Ha. now rewrite tokens_word. }
    destruct Y as (U & HU). destruct Hp as [->|(p & a & -> & Ha)].
    - exists [], U. exact HU.
    - exists (tokens p "" ++ [String a ""]), U. intros d Hd. rewrite append_assoc_s. cbn [String.append]. rewrite tokens_app_sep by exact Ha. rewrite HU by exact Hd. now rewrite <- app_assoc. }
  destruct X as (T & U & HX). exists (map to_token T), (map to_token U). intros d (Hd & Hdig). unfold alphanum. rewrite HX by now apply digits_word. rewrite map_app. cbn [map]. f_equal. f_equal.
  unfold to_token. rewrite Hdig. destruct (String.eqb_spec d ""); [contradiction|reflexivity].
Qed.

Lemma insert_numeric name : (exists T U, forall d, numeral d -> alphanum (name d) = T ++ TokInt (digits_value d 0) :: U) ->
  forall l x, numeral x -> Forall numeral l -> StronglySorted (fun a b => (digits_value a 0 <= digits_value b 0)%Z) l ->
  exists l', insert_file (name x) (map name l) = Ok (map name l') /\ Permutation (x :: l) l' /\ StronglySorted (fun a b => (digits_value a 0 <= digits_value b 0)%Z) l'.
Proof.
  intros (T & U & HA) l x Hx. induction l as [|y l IH]; intros HF HS; cbn [map insert_file].
  - exists [x]. split; [reflexivity|]. split; [reflexivity|]. repeat constructor.
  - inversion HF as [|? ? Hy HF']; subst. inversion HS as [|? ? HS' Hall]; subst. rewrite !HA by assumption. rewrite key_lt_prefix.
    assert (K : key_lt (TokInt (digits_value y 0) :: U) (TokInt (digits_value x 0) :: U) = Ok (Z.ltb (digits_value y 0) (digits_value x 0))).
    { cbn [key_lt token_eqb]. destruct (Z.eqb_spec (digits_value y 0) (digits_value x 0)) as [->|]; [rewrite key_lt_refl, Z.ltb_irrefl; reflexivity|reflexivity]. }
    rewrite K. cbn [bind]. destruct (IH HF' HS') as (l' & Hl' & Hp & Hs). rewrite Hl'. cbn [bind]. destruct (Z.ltb_spec (digits_value y 0) (digits_value x 0)) as [Hlt|Hge].
    + exists (y :: l'). split; [reflexivity|]. split; [rewrite <- Hp; apply perm_swap|]. constructor; [exact Hs|]. apply Forall_forall. intros z Hz. apply (Permutation_in _ (Permutation_sym Hp)) in Hz.
      destruct Hz as [<-|Hz]; [lia|]. rewrite Forall_forall in Hall. now apply Hall.
    + exists (x :: y :: l). split; [reflexivity|]. split; [reflexivity|]. constructor; [exact HS|]. constructor; [lia|]. rewrite Forall_forall in Hall |- *. intros z Hz. specialize (Hall z Hz). lia.
Qed.
Lemma numeric_sort : forall pre post ds, separated pre post -> Forall numeral ds ->
  exists ds', sort_files (map (fun d => pre ++ d ++ post)%string ds) = Ok (map (fun d => pre ++ d ++ post)%string ds') /\ Permutation ds ds' /\
    StronglySorted (fun a b => (digits_value a 0 <= digits_value b 0)%Z) ds'.
Proof.
  intros pre post ds Hs. pose proof (alphanum_key pre post Hs) as HA. induction ds as [|d ds IH]; intros HF; [exists []; split; [reflexivity|split; constructor]|].
  inversion HF as [|? ? Hd HF']; subst. destruct (IH HF') as (ds' & H1 & H2 & H3). cbn [map sort_files]. rewrite H1. cbn [bind].
  destruct (insert_numeric (fun d => pre ++ d ++ post)%string HA ds' d Hd) as (l' & A & B & Cc); [|exact H3|].
  - rewrite Forall_forall in *. intros x Hx. apply HF'. apply (Permutation_in _ (Permutation_sym H2)). exact Hx.
  - exists l'. split; [exact A|]. split; [rewrite <- B; now constructor|exact Cc].
Qed.

(** *** specification: the characters of words, and numbers, without the functions of the model *)
Definition word_char (a : ascii) : Prop := In a (list_ascii_of_string "ABCDEFGHIJKLMNOPQRSTUVWXYZabcdefghijklmnopqrstuvwxyz0123456789_").
Definition digit_char (a : ascii) : Prop := In a (list_ascii_of_string "0123456789").
(** every character of [s] satisfies [P] *)
Definition made_of (P : ascii -> Prop) (s : string) : Prop := forall a, In a (list_ascii_of_string s) -> P a.
(** [pre] is empty or ends with a character that is not part of a word *)
Definition word_ends_before (pre : string) : Prop := pre = "" \/ exists p a, pre = (p ++ String a "")%string /\ ~ word_char a.
Definition word_starts_after (post : string) : Prop := post = "" \/ exists a p, post = String a p /\ ~ word_char a.
(** a number as written, possibly with leading zeroes (Coq's decimal numbers) *)
Definition written (u : Decimal.uint) : string := NilEmpty.string_of_uint u.

Lemma listed a l : existsb (Ascii.eqb a) l = true -> In a l.
Proof. intros H. apply existsb_exists in H as (b & Hb & E). apply Ascii.eqb_eq in E. now subst b. Qed.
Lemma word_char_iff a : word_char a <-> is_word a = true.
Proof.
  unfold word_char. split.
  - intros H. repeat (destruct H as [<-|H]; [reflexivity|]). destruct H.
  - intros H. apply listed. destruct a as [[] [] [] [] [] [] [] []]; first [discriminate H|reflexivity].
Qed.
Lemma digit_char_iff a : digit_char a <-> is_digit a = true.
Proof.
  unfold digit_char. split.
  - intros H. repeat (destruct H as [<-|H]; [reflexivity|]). destruct H.
  - intros H. apply listed. destruct a as [[] [] [] [] [] [] [] []]; first [discriminate H|reflexivity].
Qed.
Lemma not_word_char a : ~ word_char a -> is_word a = false.
Proof. intros H. destruct (is_word a) eqn:E; [|reflexivity]. exfalso. apply H. now apply word_char_iff. Qed.
Lemma made_of_word s : made_of word_char s -> all_word s = true.
Proof. induction s as [|a s IH]; intros H; [reflexivity|]. cbn [all_word]. rewrite (proj1 (word_char_iff a)) by (apply H; now left). apply IH. intros b Hb. apply H. now right. Qed.
Lemma made_of_digits s : made_of digit_char s -> all_digits s = true.
Proof. induction s as [|a s IH]; intros H; [reflexivity|]. cbn [all_digits]. rewrite (proj1 (digit_char_iff a)) by (apply H; now left). apply IH. intros b Hb. apply H. now right. Qed.
Lemma not_made_of_digits s : ~ made_of digit_char s -> all_digits s = false.
Proof.
  intros H. destruct (all_digits s) eqn:E; [|reflexivity]. exfalso. apply H. clear H. revert E. induction s as [|a s IH]; intros E b Hb; [destruct Hb|]. cbn in E. apply andb_true_iff in E as (E1 & E2).
  destruct Hb as [<-|Hb]; [now apply digit_char_iff|]. now apply IH.
Qed.
Lemma written_digits u : all_digits (written u) = true.
Proof. unfold written. induction u; cbn; auto. Qed.
Lemma written_nonempty u : u <> Decimal.Nil -> written u <> "".
Proof. destruct u; cbn; congruence. Qed.
Lemma written_value u : digits_value (written u) 0 = Z.of_nat (Nat.of_uint u).
Proof.
  unfold Nat.of_uint, written. change 0%Z with (Z.of_nat 0). generalize 0%nat as acc. induction u; intros acc; cbn [NilEmpty.string_of_uint digits_value Nat.of_uint_acc]; [reflexivity|..].
  all: rewrite <- IHu; f_equal; rewrite Nat.tail_mul_spec; cbn -[Z.mul Z.of_nat Nat.mul]; lia.
Qed.
Lemma separated_spec pre post : word_ends_before pre -> word_starts_after post -> separated pre post.
Proof. intros [->|(p & a & -> & H)] [->|(b & q & -> & H')]; split; eauto 8 using not_word_char. Qed.
Lemma after_spec post : word_starts_after post -> post = "" \/ exists a q, post = String a q /\ is_word a = false.
Proof. intros [->|(b & q & -> & H')]; eauto using not_word_char. right. eauto using not_word_char. Qed.

(** Files whose names differ in one number that stands between characters which are not letters, digits or underscores are merged in the order of the numbers. *)
Theorem C102_numeric_sort : forall pre post us, word_ends_before pre -> word_starts_after post -> Forall (fun u => u <> Decimal.Nil) us ->
  exists us', sort_files (map (fun u => pre ++ written u ++ post)%string us) = Ok (map (fun u => pre ++ written u ++ post)%string us') /\ Permutation us us' /\
    StronglySorted (fun a b => (Nat.of_uint a <= Nat.of_uint b)%nat) us'.
Proof.
  intros pre post us H1 H2 HF. destruct (numeric_sort pre post (map written us) (separated_spec _ _ H1 H2)) as (ds' & A & B & Cs).
  { rewrite Forall_map. eapply Forall_impl; [|exact HF]. intros u Hu. split; [now apply written_nonempty|apply written_digits]. }
  apply Permutation_sym in B. destruct (Permutation_map_inv _ _ B) as (us' & -> & Hp). exists us'. rewrite !map_map in A. split; [exact A|]. split; [exact Hp|].
  clear - Cs. induction us' as [|u us' IH]; [constructor|]. cbn [map] in Cs. inversion Cs as [|? ? Cs' Hall]; subst. constructor; [now apply IH|].
  rewrite Forall_map in Hall. eapply Forall_impl; [|exact Hall]. cbn beta. intros v. rewrite !written_value. lia.
Qed.
Print Assumptions C102_numeric_sort.
Example C102_numeric_sort_nonvacuous : exists us, word_ends_before "m-" /\ word_starts_after ".json" /\ Forall (fun u => u <> Decimal.Nil) us /\ map (fun u => "m-" ++ written u ++ ".json")%string us = ["m-10.json"; "m-2.json"; "m-01.json"] /\
  sort_files ["m-10.json"; "m-2.json"; "m-01.json"] = Ok ["m-01.json"; "m-2.json"; "m-10.json"].
Proof.
  exists [Nat.to_uint 10; Nat.to_uint 2; Decimal.D0 (Nat.to_uint 1)]. repeat split.
  - right. exists "m", "-"%char. split; [reflexivity|]. intros H. apply word_char_iff in H. discriminate.
  - right. exists "."%char, "json". split; [reflexivity|]. intros H. apply word_char_iff in H. discriminate.
  - repeat constructor; discriminate.
Qed.

(** whatever the names, all the files are merged, each as many times as it is given *)
Theorem C102_sort_permutation : forall l l', sort_files l = Ok l' -> Permutation l l'.
Proof.
  assert (I : forall x l l', insert_file x l = Ok l' -> Permutation (x :: l) l').
  { intros x. induction l as [|y l IH]; intros l' H; cbn [insert_file] in H; [inversion H; reflexivity|]. apply bind_Ok in H as (b & _ & H). apply bind_Ok in H as (r & Hr & H). inversion H; subst l'.
    destruct b; [|reflexivity]. rewrite <- (IH r Hr). apply perm_swap. }
  induction l as [|x l IH]; intros l' H; cbn [sort_files] in H; [inversion H; reflexivity|]. apply bind_Ok in H as (r & Hr & H). rewrite <- (I _ _ _ H). constructor. now apply IH.
Qed.
Print Assumptions C102_sort_permutation.
Example C102_sort_permutation_nonvacuous : sort_files ["b"; "a"; "b"] = Ok ["a"; "b"; "b"].
Proof. reflexivity. Qed.

(** intended: the files are sorted numerically.  A number next to a letter or an underscore is not seen as a number: such names are compared as text,
    character by character, so that m_10 comes before m_2; *)
Lemma str_ltb_prefix p : forall a b, str_ltb (p ++ a)%string (p ++ b)%string = str_ltb a b.
Proof. induction p as [|x p IH]; intros a b; [reflexivity|]. cbn [String.append str_ltb]. now rewrite Ascii.eqb_refl. Qed.
Lemma sort_as_text : forall p d d' post x r x' r', all_word p = true -> p <> "" -> all_digits p = false -> numeral d -> numeral d' -> (post = "" \/ exists a q, post = String a q /\ is_word a = false) ->
  d = String x r -> d' = String x' r' -> (nat_of_ascii x < nat_of_ascii x')%nat ->
  sort_files [(p ++ d' ++ post)%string; (p ++ d ++ post)%string] = Ok [(p ++ d ++ post)%string; (p ++ d' ++ post)%string].
Proof.
  intros p d d' post x r x' r' Hp Hp0 Hpd (Hd0 & Hd) (Hd0' & Hd') Hq -> -> Hx.
  assert (W : forall u v, all_word u = true -> all_word v = true -> all_word (u ++ v)%string = true).
  { induction u as [|a u IH]; intros v Hu Hv; [exact Hv|]. cbn in *. apply andb_true_iff in Hu as (A & B). now rewrite A, IH. }
  assert (ND : forall v, all_digits (p ++ v)%string = false).
  { intros v. clear - Hpd. induction p as [|a p IH]; [discriminate|]. cbn in *. destruct (is_digit a); [|reflexivity]. now apply IH. }
  assert (NE : forall v, (p ++ v)%string <> "") by (intros v Hv; destruct p; [now apply Hp0|discriminate]).
  assert (Y : exists U, forall d, all_word d = true -> alphanum (p ++ d ++ post)%string = TokStr (p ++ d)%string :: U).
  { unfold alphanum. destruct Hq as [->|(a & q & -> & Ha)].
    - exists []. intros v Hv. rewrite append_nil_s. rewrite tokens_word by now apply W. cbn [map String.append]. unfold to_token. rewrite ND, andb_false_r. reflexivity.
    - exists (map to_token (String a "" :: tokens q "")). intros v Hv. rewrite <- append_assoc_s, tokens_app_sep by exact Ha. rewrite tokens_word by now apply W. cbn [map app String.append]. unfold to_token at 1. rewrite ND, andb_false_r. reflexivity. }
  destruct Y as (U & HU). cbn [sort_files bind insert_file]. rewrite !HU by now apply digits_word. cbn [key_lt token_eqb].
  assert (Nx : x <> x') by (intros ->; lia).
  assert (E1 : String.eqb (p ++ String x r)%string (p ++ String x' r')%string = false).
  { apply String.eqb_neq. intros HE. pose proof (f_equal (fun s => str_ltb s (p ++ String x' r')%string) HE) as F. cbn beta in F. rewrite !str_ltb_prefix in F. cbn [str_ltb] in F. rewrite Ascii.eqb_refl in F.
    destruct (Ascii.eqb_spec x x') as [|_]; [contradiction|]. apply Nat.ltb_lt in Hx. rewrite Hx in F. clear - F. induction r' as [|a r' IH]; cbn in F; [discriminate|]. rewrite Ascii.eqb_refl in F. auto. }
  rewrite E1, str_ltb_prefix. cbn [str_ltb]. destruct (Ascii.eqb_spec x x') as [|_]; [contradiction|]. apply Nat.ltb_lt in Hx. rewrite Hx. reflexivity.
Qed.
Theorem C102_sort_as_text_refuted : forall p d d' post x r x' r', made_of word_char p -> ~ made_of digit_char p -> made_of digit_char d -> made_of digit_char d' -> word_starts_after post ->
  d = String x r -> d' = String x' r' -> (nat_of_ascii x < nat_of_ascii x')%nat ->
  sort_files [(p ++ d' ++ post)%string; (p ++ d ++ post)%string] = Ok [(p ++ d ++ post)%string; (p ++ d' ++ post)%string].
Proof.
  intros p d d' post x r x' r' Hp Hpd Hd Hd' Hq E1 E2 Hx. eapply sort_as_text; eauto using made_of_word, not_made_of_digits, after_spec.
  - intros ->. apply Hpd. intros a [].
  - subst d. split; [discriminate|now apply made_of_digits].
  - subst d'. split; [discriminate|now apply made_of_digits].
Qed.
Print Assumptions C102_sort_as_text_refuted.
Example C102_sort_as_text_nonvacuous : sort_files ["m_2.json"; "m_10.json"] = Ok ["m_10.json"; "m_2.json"] /\ made_of word_char "m_" /\ ~ made_of digit_char "m_" /\ made_of digit_char "10" /\ made_of digit_char "2".
Proof.
  split; [reflexivity|]. split; [intros a [<-|[<-|[]]]; now apply word_char_iff|]. split; [intros H; specialize (H "_"%char (or_intror (or_introl eq_refl))); now apply digit_char_iff in H|].
  split; [intros a [<-|[<-|[]]]|intros a [<-|[]]]; now apply digit_char_iff.
Qed.
(** and a name starting with a number cannot be compared with one starting with a letter *)
Lemma sort_mixed : forall d w post post', numeral d -> all_word w = true -> all_digits w = false -> (post = "" \/ exists a q, post = String a q /\ is_word a = false) -> (post' = "" \/ exists a q, post' = String a q /\ is_word a = false) ->
  sort_files [(d ++ post)%string; (w ++ post')%string] = Err TypeError.
Proof.
  intros d w post post' (Hd0 & Hd) Hw Hwd Hq Hq'.
  assert (Y : forall d post, all_word d = true -> (post = "" \/ exists a q, post = String a q /\ is_word a = false) -> exists U, alphanum (d ++ post)%string = to_token d :: U).
  { clear. intros d post Hd [->|(a & q & -> & Ha)].
    - exists []. rewrite append_nil_s. unfold alphanum. now rewrite tokens_word.
    - exists (map to_token (String a "" :: tokens q "")). unfold alphanum. rewrite tokens_app_sep by exact Ha. now rewrite tokens_word. }
  destruct (Y d post (digits_word _ Hd) Hq) as (U & HU). destruct (Y w post' Hw Hq') as (V & HV). cbn [sort_files bind insert_file]. rewrite HU, HV. unfold to_token. rewrite Hd, Hwd.
  destruct (String.eqb_spec d ""); [contradiction|]. rewrite andb_false_r. reflexivity.
Qed.
Theorem C102_sort_mixed_refuted : forall d w post post', d <> "" -> made_of digit_char d -> made_of word_char w -> ~ made_of digit_char w -> word_starts_after post -> word_starts_after post' ->
  sort_files [(d ++ post)%string; (w ++ post')%string] = Err TypeError.
Proof. intros d w post post' N Hd Hw Hwd Hq Hq'. apply sort_mixed; auto using made_of_word, not_made_of_digits, after_spec. split; [exact N|now apply made_of_digits]. Qed.
Print Assumptions C102_sort_mixed_refuted.
Example C102_sort_mixed_nonvacuous : sort_files ["1.json"; "a.json"] = Err TypeError /\ made_of digit_char "1" /\ made_of word_char "a" /\ ~ made_of digit_char "a".
Proof.
  split; [reflexivity|]. split; [intros a [<-|[]]; now apply digit_char_iff|]. split; [intros a [<-|[]]; now apply word_char_iff|]. intros H. specialize (H "a"%char (or_introl eq_refl)). now apply digit_char_iff in H.
Qed.

(** *** a concrete run: a library that knows three texts *)
Definition three_texts (v1 v2 vout : dict jv) : Codec :=
  mkCodec (fun fl v => if jv_eq_dec (JObj v) (JObj vout) then (["o"; "ut"], None) else ([], Some TypeError)) (fun fl s => if String.eqb s "1" then Ok v1 else if String.eqb s "2" then Ok v2 else Ok vout).
Lemma three_texts_faithful v1 v2 vout : faithful (three_texts v1 v2 vout).
Proof. intros fl v l H. unfold three_texts in *. cbn [c_dump c_parse] in *. destruct (jv_eq_dec (JObj v) (JObj vout)) as [E|]; [|discriminate]. injection H as <-. cbn. congruence. Qed.
Definition cm_model (ch : string) : Model :=
  mkModel "cm" None [("mu", mkPOI (Some "mu") (Some 0) (Some 10) (Some 1) None None)] [np1 "a" 0] [] [(ch, mkChannel ch KSingle [("S", pr_sample (ExprNorm "mu") [("a", up_down (1/5) (-1/5))])])] [] true false true false 0.
Definition cm_file (ch : string) : dict jv := match model_fill ex_env (cm_model ch) [] with Ok d => d | Err _ => [] end.
Definition cm_fs : fs := fun q => if String.eqb q "a.json" then Some "1" else if String.eqb q "b.json" then Some "2" else None.
Definition cm_opts : MergeOpts := mkMO ["a.json"; "b.json"] "merged.json" false None.
Lemma cm_load ch : ch = "SR" \/ ch = "CR" -> exists I, model_load ex_env (new_model true false) (cm_file ch) = Ok (cm_model ch, I) /\ writable_model (cm_model ch) /\ i_channels I = m_channels (cm_model ch) /\
  i_offsets I = [(ch, 0%nat)] /\ i_nbins I = 1%nat /\ i_nvar I = 1%nat.
Proof.
  intros H. assert (W : writable_model (cm_model ch)).
  { constructor.
    - intros k p [[= <- <-]|[]]. repeat split; discriminate.
    - intros k p [[= <- <-]|[]]; cbn; congruence.
    - intros k c [[= <- <-]|[]]. reflexivity.
    - intros k c k' s y [[= <- <-]|[]] [[= <- <-]|[]] [= <-]. reflexivity. }
  destruct H as [-> | ->]; (eexists; split; [unfold model_load, finish; ev; reflexivity|]; split; [exact W|]; split; [reflexivity|]; split; [reflexivity|]; split; reflexivity).
Qed.
Example C102_nonvacuous : exists C ops target rest, faithful C /\ merge_files (fun s => [s]) cm_opts = Ok ["a.json"; "b.json"] /\
  mapM (load_one ex_env C cm_fs cm_opts) ["a.json"; "b.json"] = Ok (target :: rest) /\
  (forall path m I, In path ["a.json"; "b.json"] -> model_create ex_env C cm_fs path = Ok (m, I) -> writable_model m) /\
  NoDup (concat (map (fun mi : Model * Internal => keys (m_channels (fst mi))) (target :: rest))) /\
  merge_run ex_env C (fun _ => true) (fun s => [s]) cm_opts cm_fs = Ok (ops, None) /\
  exists m2 I2, model_create ex_env C (run_ops ops cm_fs) "merged.json" = Ok (m2, I2) /\ keys (m_channels m2) = ["SR"; "CR"] /\ i_nbins I2 = 2%nat.
Proof.
  destruct (cm_load "SR" (or_introl eq_refl)) as (I1 & L1 & W1 & C1 & O1 & N1 & V1). destruct (cm_load "CR" (or_intror eq_refl)) as (I2 & L2 & W2 & C2 & O2 & N2 & V2).
  set (mg := with_channels (cm_model "SR") (m_channels (cm_model "SR") ++ m_channels (cm_model "CR"))).
  assert (HM : exists offs n, merge_models (cm_model "SR", I1) [(cm_model "CR", I2)] = Ok (mg, offs, n)).
  { unfold merge_models. cbn [foldM fst snd]. rewrite O1, N1, N2, O2. cbn. rewrite C1, C2, V1, V2. cbn. do 2 eexists. reflexivity. }
  destruct HM as (offs & n & HM).
  assert (HF : exists sm m2 I3, model_fill ex_env mg [] = Ok sm /\ finish ex_env mg = Ok (m2, I3) /\ keys (m_channels m2) = ["SR"; "CR"] /\ i_nbins I3 = 2%nat).
  { do 3 eexists. split; [unfold mg; ev; reflexivity|]. split; [unfold mg, finish; ev; reflexivity|]. split; reflexivity. }
  destruct HF as (sm & m2 & I3 & F1 & F2 & F3 & F4).
  set (C := three_texts (cm_file "SR") (cm_file "CR") sm). exists C.
  assert (HC : faithful C) by apply three_texts_faithful.
  assert (M1 : model_create ex_env C cm_fs "a.json" = Ok (cm_model "SR", I1)) by exact L1.
  assert (M2 : model_create ex_env C cm_fs "b.json" = Ok (cm_model "CR", I2)) by exact L2.
  assert (ML : mapM (load_one ex_env C cm_fs cm_opts) ["a.json"; "b.json"] = Ok [(cm_model "SR", I1); (cm_model "CR", I2)]).
  { cbn [mapM]. unfold load_one. change (cm_fs "a.json") with (Some "1"). change (cm_fs "b.json") with (Some "2"). cbn iota. rewrite M1, M2. reflexivity. }
  assert (HW : forall path m I, In path ["a.json"; "b.json"] -> model_create ex_env C cm_fs path = Ok (m, I) -> writable_model m).
  { intros path m I [<-|[<-|[]]] H; [rewrite M1 in H|rewrite M2 in H]; injection H as <- <-; assumption. }
  assert (HN : NoDup (concat (map (fun mi : Model * Internal => keys (m_channels (fst mi))) [(cm_model "SR", I1); (cm_model "CR", I2)]))).
  { cbn. repeat constructor; cbn; intuition congruence. }
  assert (Hr : exists ops, merge_run ex_env C (fun _ => true) (fun s => [s]) cm_opts cm_fs = Ok (ops, None)).
  { unfold merge_run. change (merge_files (fun s => [s]) cm_opts) with (Ok (A := list string) ["a.json"; "b.json"]). cbn [bind]. rewrite ML. cbn [bind]. rewrite HM. cbn [bind fst]. unfold model_save. rewrite F1. cbn [bind].
    unfold save_ops. cbn [negb]. change ((flavor_of (mo_out cm_opts) None =? "json") || (flavor_of (mo_out cm_opts) None =? "yaml"))%bool with true. cbn iota. unfold C at 1, three_texts. cbn [c_dump].
    destruct (jv_eq_dec (JObj sm) (JObj sm)) as [|N]; [|contradiction]. eexists. reflexivity. }
  destruct Hr as (ops & Hr). exists ops, (cm_model "SR", I1), [(cm_model "CR", I2)]. split; [exact HC|]. split; [reflexivity|]. split; [exact ML|]. split; [exact HW|]. split; [exact HN|]. split; [exact Hr|].
  exists m2, I3. split; [|split; assumption].
  destruct (C102_output_file ex_env C _ (fun s => [s]) cm_opts cm_fs ["a.json"; "b.json"] _ _ ops HC eq_refl ML HW HN Hr) as (HO & _). change (mo_out cm_opts) with "merged.json" in HO. rewrite HO. exact F2.
Qed.
