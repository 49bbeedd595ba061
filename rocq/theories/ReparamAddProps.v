(** C82: adding POIs and expressions to a model, and changing the normalizations of samples. *)
From Verif Require Import CoreExample Py PyFacts Base Expressions Norms Sample Channels ChannelFacts Params Core CoreFacts CoreSpec ModelIO ModelTools ModelToolsFacts.
Local Open Scope string_scope.
Local Open Scope list_scope.

Lemma NoDup_snoc {A} (d : dict A) n p : NoDup (keys d) -> ~ In n (keys d) -> NoDup (keys (d ++ [(n, p)])).
Proof. intros Hd Hn. rewrite <- dset_app_new by exact Hn. now apply NoDup_keys_dset. Qed.

(** ** POIs *)
Lemma add_pois_spec l : forall m m', add_pois m l = Ok m' -> exists names, map (fun p => Some (fst p)) names = map poi_name l /\ map snd names = l /\
  m' = with_pois m (m_pois m ++ names) /\ (NoDup (keys (m_pois m)) -> NoDup (keys (m_pois m ++ names))).
Proof.
  induction l as [|p l IH]; intros m m' H; cbn [add_pois foldM] in H.
  - inversion H; subst m'. exists []. rewrite app_nil_r. repeat split; auto. now destruct m.
  - apply bind_Ok in H as (m1 & H1 & H). apply bind_Ok in H1 as (n & Hn & H1). destruct (dmem n (m_pois m)) eqn:Em; [discriminate|]. inversion H1; subst m1; clear H1.
    assert (Hnot : ~ In n (keys (m_pois m))) by (intros X; apply dmem_spec in X; congruence).
    destruct (IH _ _ H) as (names & A & B & C & D). exists ((n, p) :: names).
    assert (En : poi_name p = Some n) by (unfold name_of in Hn; destruct (poi_name p); [now inversion Hn|discriminate]).
    cbn [map fst snd]. rewrite A, B, En. split; [reflexivity|]. split; [reflexivity|]. split.
    + rewrite C. cbn [m_pois with_pois]. rewrite dset_app_new by exact Hnot. rewrite <- app_assoc. destruct m; reflexivity.
    + intros Hd. cbn [m_pois with_pois] in D. rewrite dset_app_new in D by exact Hnot. rewrite <- app_assoc in D. apply D.
      rewrite <- dset_app_new by exact Hnot. now apply NoDup_keys_dset.
Qed.

(** The POIs are appended, in the order given and under their own names, to those of the model; nothing is overwritten and
    nothing else changes. *)
Theorem C82_added_pois : forall m l m', add_pois m l = Ok m' -> NoDup (keys (m_pois m)) ->
  (exists added, m_pois m' = m_pois m ++ added /\ map snd added = l /\ (forall n p, In (n, p) added -> poi_name p = Some n)) /\
  NoDup (keys (m_pois m')) /\
  m_nps m' = m_nps m /\ m_aux m' = m_aux m /\ m_channels m' = m_channels m /\ m_exprs m' = m_exprs m /\ m_name m' = m_name m.
Proof.
  intros m l m' H Hd. destruct (add_pois_spec l m m' H) as (names & A & B & -> & D). split; [|split; [exact (D Hd)|repeat split]].
  exists names. split; [reflexivity|]. split; [exact B|]. subst l. clear -A. induction names as [|[n p] r IH]; cbn in *; [intros ? ? []|].
  injection A as E A. intros n0 p0 [X|X]; [now inversion X; subst|now apply IH].
Qed.
Print Assumptions C82_added_pois.

(** A POI whose name is already used by a POI of the model, or by an earlier POI of the list, is refused. *)
Theorem C82_duplicate_pois_are_refused : forall m l, (forall p, In p l -> exists n, poi_name p = Some n) ->
  (exists pre p post n, l = pre ++ p :: post /\ poi_name p = Some n /\ (In n (keys (m_pois m)) \/ exists q, In q pre /\ poi_name q = Some n)) ->
  add_pois m l = Err KeyError.
Proof.
  intros m l Hn (pre & p & post & n & -> & Hp & Hdup). revert m Hn Hdup. induction pre as [|q pre IH]; intros m Hn Hdup; unfold add_pois in *; cbn [app foldM].
  - rewrite Hp. cbn [name_of bind]. destruct Hdup as [H|(q & [] & _)]. apply dmem_spec in H. now rewrite H.
  - destruct (Hn q (or_introl eq_refl)) as (nq & Hq). rewrite Hq. cbn [name_of bind]. destruct (dmem nq (m_pois m)) eqn:Em; [reflexivity|]. cbn [bind].
    apply IH; [intros x Hx; apply Hn; now right|]. cbn [m_pois with_pois].
    assert (Hnot : ~ In nq (keys (m_pois m))) by (intros X; apply dmem_spec in X; congruence).
    rewrite dset_app_new by exact Hnot. unfold keys. rewrite map_app. cbn [map fst].
    destruct Hdup as [H|(q' & [->|H] & E)]; [left; apply in_or_app; now left| |right; eauto].
    left. apply in_or_app. right. left. congruence.
Qed.
Print Assumptions C82_duplicate_pois_are_refused.

(** Only POI names are looked at: the name of a nuisance parameter is accepted, and the model then has a POI and an NP with
    the same name. *)
Theorem C82_refuted_collision_with_an_np : forall m p n, poi_name p = Some n -> In n (keys (m_nps m)) -> ~ In n (keys (m_pois m)) ->
  exists m', add_pois m [p] = Ok m' /\ In n (keys (m_pois m')) /\ In n (keys (m_nps m')).
Proof.
  intros m p n Hp Hnp Hnot. unfold add_pois. cbn [foldM]. rewrite Hp. cbn [name_of bind].
  destruct (dmem n (m_pois m)) eqn:Em; [apply dmem_spec in Em; contradiction|]. cbn [bind]. eexists. split; [reflexivity|]. cbn [m_pois m_nps with_pois].
  rewrite dset_app_new by exact Hnot. split; [|exact Hnp]. unfold keys. rewrite map_app. apply in_or_app. right. now left.
Qed.
Print Assumptions C82_refuted_collision_with_an_np.

(** ** Expressions *)
Theorem C82_added_expressions : forall m l m', add_expressions m l = Ok m' -> NoDup (keys (m_exprs m)) ->
  m_exprs m' = m_exprs m ++ map (fun e => (expr_name e, e)) l /\ NoDup (keys (m_exprs m')) /\
  m_pois m' = m_pois m /\ m_nps m' = m_nps m /\ m_aux m' = m_aux m /\ m_channels m' = m_channels m /\ m_name m' = m_name m.
Proof.
  intros m l. revert m. induction l as [|e l IH]; intros m m' H Hd; unfold add_expressions in *; cbn [foldM] in H.
  - inversion H; subst m'. cbn [map]. rewrite app_nil_r. repeat split; auto.
  - apply bind_Ok in H as (m1 & H1 & H). destruct (dmem (expr_name e) (m_exprs m)) eqn:Em; [discriminate|]. inversion H1; subst m1; clear H1.
    assert (Hnot : ~ In (expr_name e) (keys (m_exprs m))) by (intros X; apply dmem_spec in X; congruence).
    destruct (IH _ _ H) as (A & B & C & D & F & G & K); [cbn [m_exprs with_exprs]; now apply NoDup_keys_dset|].
    cbn [m_exprs m_pois m_nps m_aux m_channels m_name with_exprs] in *. rewrite dset_app_new in A by exact Hnot. rewrite <- app_assoc in A. cbn [app] in A.
    cbn [map]. now repeat split.
Qed.
Print Assumptions C82_added_expressions.
Theorem C82_duplicate_expressions_are_refused : forall m l,
  (exists pre e post, l = pre ++ e :: post /\ (In (expr_name e) (keys (m_exprs m)) \/ exists q, In q pre /\ expr_name q = expr_name e)) ->
  add_expressions m l = Err KeyError.
Proof.
  intros m l (pre & e & post & -> & Hdup). revert m Hdup. induction pre as [|q pre IH]; intros m Hdup; unfold add_expressions in *; cbn [app foldM].
  - destruct Hdup as [H|(q & [] & _)]. apply dmem_spec in H. now rewrite H.
  - destruct (dmem (expr_name q) (m_exprs m)) eqn:Em; [reflexivity|]. cbn [bind].
    apply IH. cbn [m_exprs with_exprs].
    assert (Hnot : ~ In (expr_name q) (keys (m_exprs m))) by (intros X; apply dmem_spec in X; congruence).
    rewrite dset_app_new by exact Hnot. unfold keys. rewrite map_app. cbn [map fst].
    destruct Hdup as [H|(q' & [->|H] & E)]; [left; apply in_or_app; now left| |right; eauto].
    left. apply in_or_app. right. left. congruence.
Qed.
Print Assumptions C82_duplicate_expressions_are_refused.

(** ** Normalizations *)
(** a new normalization is for the channels and samples whose full names match its two patterns *)
Definition is_for (rmatch : string -> string -> bool) (c : Channel) (s : Sample) (e : string * string * norm) : Prop :=
  rmatch (fst (fst e) ++ "$")%string (ch_name c) = true /\ rmatch (snd (fst e) ++ "$")%string (s_name s) = true.
Definition only_one (P : string * string * norm -> Prop) (l : list (string * string * norm)) (e : string * string * norm) : Prop :=
  exists pre post, l = pre ++ e :: post /\ P e /\ forall x, In x pre \/ In x post -> ~ P x.

Lemma filter_one {A} (f : A -> bool) l : match filter f l with
  | [] => forall x, In x l -> f x = false
  | [e] => exists pre post, l = pre ++ e :: post /\ f e = true /\ forall x, In x pre \/ In x post -> f x = false
  | e1 :: e2 :: _ => exists a b c, l = a ++ e1 :: b ++ e2 :: c /\ f e1 = true /\ f e2 = true
  end.
Proof.
  induction l as [|a l IH]; cbn [filter]; [intros ? []|]. destruct (f a) eqn:Ea.
  - destruct (filter f l) as [|b r].
    + exists [], l. split; [reflexivity|]. split; [exact Ea|]. intros x [[]|H]. now apply IH.
    + destruct r as [|b2 r]; [destruct IH as (pre & post & -> & Hb & _); exists [], pre, post; auto|].
      destruct IH as (p & q & r0 & -> & Hb & _). exists [], p, (q ++ b2 :: r0). auto.
  - destruct (filter f l) as [|e1 [|e2 r]].
    + intros x [<-|H]; auto.
    + destruct IH as (pre & post & -> & H1 & H2). exists (a :: pre), post. split; [reflexivity|]. split; [exact H1|]. intros x [[<-|H]|H]; auto.
    + destruct IH as (p & q & r0 & -> & H1 & H2). exists (a :: p), q, r0. auto.
Qed.

(** A sample matched by no new normalization is left as it was; one matched by exactly one gets it, and keeps its name, its
    nominal normalization, its yields and its impacts.  The rest of the model does not change. *)
Theorem C82_updated_norms : forall rmatch m new m', update_norms rmatch m new = Ok m' ->
  m_pois m' = m_pois m /\ m_nps m' = m_nps m /\ m_aux m' = m_aux m /\ m_exprs m' = m_exprs m /\ m_name m' = m_name m /\
  length (m_channels m') = length (m_channels m) /\
  forall i k c, nth_error (m_channels m) i = Some (k, c) -> exists c', nth_error (m_channels m') i = Some (k, c') /\
    ch_name c' = ch_name c /\ ch_kind c' = ch_kind c /\ length (ch_samples c') = length (ch_samples c) /\
    forall j ks s, nth_error (ch_samples c) j = Some (ks, s) -> exists s', nth_error (ch_samples c') j = Some (ks, s') /\
      (((forall e, In e new -> ~ is_for rmatch c s e) /\ s' = s) \/
       (exists e, only_one (is_for rmatch c s) new e /\ s_norm s' = snd e /\
          s_name s' = s_name s /\ s_nominal_norm s' = s_nominal_norm s /\ s_yields s' = s_yields s /\ s_impacts s' = s_impacts s)).
Proof.
  intros rmatch m new m' H. unfold update_norms in H. apply bind_Ok in H as (chs & Hc & H). inversion H; subst m'; clear H. cbn [m_pois m_nps m_aux m_exprs m_name m_channels with_channels].
  apply mapM_Forall2 in Hc. do 5 (split; [reflexivity|]). split; [symmetry; eapply Forall2_length; eassumption|].
  intros i k c Hi. revert i Hi. induction Hc as [|[k0 c0] y l r H1 H2 IH]; intros [|i] Hi; try discriminate; cbn [nth_error] in *; [|apply IH; exact Hi].
  inversion Hi; subst k0 c0. cbn [fst snd] in H1. apply bind_Ok in H1 as (ss & Hs & H1). inversion H1; subst y. eexists. split; [reflexivity|]. split; [reflexivity|]. split; [reflexivity|].
  apply mapM_Forall2 in Hs. cbn [ch_samples with_samples]. split; [symmetry; eapply Forall2_length; eassumption|].
  clear -Hs. intros j. revert ss Hs. generalize (ch_samples c). induction j as [|j IH]; intros ls ss Hs ks s Hj; destruct Hs as [|[k1 s1] y l r G1 G2]; try discriminate; cbn [nth_error] in *; [|eapply IH; eassumption].
  inversion Hj; subst k1 s1. cbn [fst snd] in G1. apply bind_Ok in G1 as (s' & Hn & G1). inversion G1; subst y. exists s'. split; [reflexivity|].
  unfold new_norm in Hn. pose proof (filter_one (fun e => rmatch (fst (fst e) ++ "$")%string (ch_name c) && rmatch (snd (fst e) ++ "$")%string (s_name s)) new) as F. cbn beta in F.
  destruct (filter _ new) as [|e [|e2 re]]; [|inversion Hn; subst s'|discriminate].
  - inversion Hn; subst s'. left. split; [|reflexivity]. intros e He (A & B). specialize (F e He). cbn beta in F. rewrite A, B in F. discriminate.
  - right. exists e. destruct F as (pre & post & -> & E & F). apply andb_true_iff in E as (A & B). split; [|repeat split]. exists pre, post. split; [reflexivity|].
    split; [now split|]. intros x Hx (C & D). specialize (F x Hx). cbn beta in F. rewrite C, D in F. discriminate.
Qed.
Print Assumptions C82_updated_norms.

(** The update fails, with KeyError, exactly when some sample is matched by two entries. *)
Theorem C82_ambiguous_norms : forall rmatch m new,
  (exists m', update_norms rmatch m new = Ok m') \/
  (update_norms rmatch m new = Err KeyError /\ exists k c ks s a e1 b e2 d, In (k, c) (m_channels m) /\ In (ks, s) (ch_samples c) /\
     new = a ++ e1 :: b ++ e2 :: d /\ is_for rmatch c s e1 /\ is_for rmatch c s e2).
Proof.
  intros rmatch m new. unfold update_norms.
  set (g := fun kc : string * Channel => let! l := mapM (fun ks => let! s := new_norm rmatch new (snd kc) (snd ks) in Ok (fst ks, s)) (ch_samples (snd kc)) in Ok (fst kc, with_samples (snd kc) l)).
  assert (G : (exists r, mapM g (m_channels m) = Ok r) \/ (mapM g (m_channels m) = Err KeyError /\ exists k c ks s a e1 b e2 d, In (k, c) (m_channels m) /\ In (ks, s) (ch_samples c) /\
     new = a ++ e1 :: b ++ e2 :: d /\ is_for rmatch c s e1 /\ is_for rmatch c s e2)).
  { generalize (m_channels m). induction d as [|[k c] l IH]; [left; eexists; reflexivity|]. cbn [mapM].
    assert (S : (exists r, mapM (fun ks => let! s := new_norm rmatch new c (snd ks) in Ok (fst ks, s)) (ch_samples c) = Ok r) \/
       (mapM (fun ks => let! s := new_norm rmatch new c (snd ks) in Ok (fst ks, s)) (ch_samples c) = Err KeyError /\ exists ks s a e1 b e2 d, In (ks, s) (ch_samples c) /\ new = a ++ e1 :: b ++ e2 :: d /\ is_for rmatch c s e1 /\ is_for rmatch c s e2)).
    { generalize (ch_samples c). induction d as [|[ks s] ls IHs]; [left; eexists; reflexivity|]. cbn [mapM snd fst].
      unfold new_norm at 1 3. pose proof (filter_one (fun e => rmatch (fst (fst e) ++ "$")%string (ch_name c) && rmatch (snd (fst e) ++ "$")%string (s_name s)) new) as F. cbn beta in F.
      destruct (filter _ new) as [|e [|e2 re]]; cbn [bind].
      3:{ right. split; [reflexivity|]. destruct F as (a & b & d & E & A & B). apply andb_true_iff in A, B. exists ks, s, a, e, b, e2, d. split; [now left|]. repeat split; tauto. }
      all: destruct IHs as [(r & Hr)|(Hr & ks0 & s0 & a & e1 & b & e2 & d & Hin & X)]; rewrite Hr; cbn [bind]; [left; eexists; reflexivity|right; split; [reflexivity|]; exists ks0, s0, a, e1, b, e2, d; split; [now right|exact X]]. }
    unfold g at 1 3. cbn [fst snd]. destruct S as [(r & Hr)|(Hr & ks & s & a & e1 & b & e2 & d & Hin & X)]; rewrite Hr; cbn [bind].
    - destruct IH as [(r2 & H2)|(H2 & k0 & c0 & ks & s & a & e1 & b & e2 & d & Hin & X)]; rewrite H2; cbn [bind]; [left; eexists; reflexivity|right].
      split; [reflexivity|]. exists k0, c0, ks, s, a, e1, b, e2, d. split; [now right|exact X].
    - right. split; [reflexivity|]. exists k, c, ks, s, a, e1, b, e2, d. split; [now left|]. split; [exact Hin|exact X]. }
  destruct G as [(r & Hr)|(Hr & X)]; rewrite Hr; cbn [bind]; [left; eexists; reflexivity|right; split; [reflexivity|exact X]].
Qed.
Print Assumptions C82_ambiguous_norms.

(** a model with two channels; exact patterns *)
Definition ra_match (p n : string) : bool := String.eqb p (n ++ "$") || String.eqb p ".*$".
Definition ra_sample (n : string) : Sample := mkSample n (ExprNorm "mu") (Some 1) (Some [3%R]) [].
Definition ra_model : Model :=
  mkModel "ra" None [("mu", mkPOI (Some "mu") None None (Some 1%R) None None)] [("a", mkNP (Some "a") (Some 0%R) 1%R (Some 1%R) None None None)] []
    [("P", mkChannel "P" KSingle [("S", ra_sample "S"); ("T", ra_sample "T")]); ("Q", mkChannel "Q" KSingle [("S", ra_sample "S")])] [] true false true false 0%R.
Definition ra_poi (n : string) : POI := mkPOI (Some n) None None None None None.
Example C82_nonvacuous :
  (exists m1 m2 m3, add_pois ra_model [ra_poi "x"; ra_poi "y"] = Ok m1 /\ keys (m_pois m1) = ["mu"; "x"; "y"] /\
     add_expressions m1 [ENumber "e" 1%R; ELinComb "f" 0%R [("x", 1%R); ("y", 2%R)]] = Ok m2 /\ keys (m_exprs m2) = ["e"; "f"] /\
     update_norms ra_match m2 [("P", "S", ExprNorm "f"); ("Q", ".*", ExprNorm "e")] = Ok m3 /\
     map (fun kc => map (fun ks => s_norm (snd ks)) (ch_samples (snd kc))) (m_channels m3) = [[ExprNorm "f"; ExprNorm "mu"]; [ExprNorm "e"]]) /\
  add_pois ra_model [ra_poi "x"; ra_poi "x"] = Err KeyError /\ add_pois ra_model [ra_poi "mu"] = Err KeyError /\ (exists m', add_pois ra_model [ra_poi "a"] = Ok m') /\
  update_norms ra_match ra_model [("P", "S", ExprNorm "f"); (".*", "S", ExprNorm "e")] = Err KeyError /\ NoDup (keys (m_pois ra_model)).
Proof.
  split; [do 3 eexists; repeat split|]. repeat split; [eexists; reflexivity|]. repeat constructor; cbn; intuition congruence.
Qed.
