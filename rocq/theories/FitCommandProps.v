(** Property theorems about fit_model (C112): the stored results of a fit, and the options. *)
From Verif Require Import Py PyFacts Base BaseFacts Expressions Norms Sample Channels Params ParamsFacts Core CoreExample CoreMore CoreMoreProps NpMin UtilFacts PoiMin PoiMinFacts PoiMinProps PoiHistProps TestStat FitData CoreFacts PoiObjProps ChannelFacts
  ParamsProps UtilProps Calculators Scans ModelIO ModelTools UtilTools FileIO FileIOProps Commands ScanCommand ScanFacts ScanCommandProps ScanCommandOptProps FitCommand.
Local Open Scope string_scope.
Local Open Scope list_scope.
Local Open Scope R_scope.

(** ** Specification *)
(** the names the results file uses for itself *)
Definition reserved : list string := ["min_nll"; "min_pars"; "correlation_matrix"].
(** [numbers l]: a JSON list of numbers *)
Definition numbers (l : list R) : jv := JList (map JFlt l).
(** the inputs of the run: model, dataset and hypothesis *)
Definition fit_inputs (E : Env) (C : Codec) (pf : string -> option R) (rmatch : string -> string -> bool) (o : FitOpts) (f : fs) (m : Model) (it : Internal) (data : Data) : Prop :=
  fit_model E C pf rmatch o f = Ok (m, it) /\ fit_dataset C pf rmatch o f (m, it) = Ok data.

(** ** Lemmas *)
Lemma enumerate_snd {A} (l : list A) : map snd (enumerate l) = l.
Proof. unfold enumerate. generalize 0%nat. induction l as [|a l IH]; intros n; cbn; [reflexivity|now rewrite IH]. Qed.
Lemma enumerate_in {A} (l : list A) i a : nth_error l i = Some a -> In (i, a) (enumerate l).
Proof.
  unfold enumerate. change i with (0 + i)%nat at 2. generalize 0%nat. revert i. induction l as [|b l IH]; intros [|i] n H; cbn in *; try discriminate; [left; rewrite Nat.add_0_r; congruence|].
  right. replace (n + S i)%nat with (S n + i)%nat by lia. now apply IH.
Qed.
Lemma keys_dset_iff {V} k k' (v : V) d : In k' (keys (dset k v d)) <-> k' = k \/ In k' (keys d).
Proof.
  rewrite <- !dmem_spec. unfold dmem. destruct (string_dec k' k) as [->|N]; [rewrite dget_dset_eq; intuition|]. rewrite dget_dset_neq by exact N. intuition.
Qed.
Lemma poi_entries p errs ps d0 d : NoDup ps ->
  foldM (fun d par => let! x := pars_get p par in let! e := dgetE par errs in let! je := jnum e in Ok (dset par (JObj [("best_fit_value", JFlt x); ("uncertainty", je)]) d)) ps d0 = Ok d ->
  (forall k, ~ In k ps -> dget k d = dget k d0) /\
  (forall k, In k ps -> exists x e, pars_get p k = Ok x /\ dget k errs = Some (Fin e) /\ dget k d = Some (JObj [("best_fit_value", JFlt x); ("uncertainty", JFlt e)])) /\
  (forall k, In k (keys d) <-> In k (keys d0) \/ In k ps).
Proof.
  revert d0. induction ps as [|k ps IH]; intros d0 Hn H; cbn in H.
  - injection H as <-. split; [reflexivity|]. split; [intros k []|]. intros k. cbn [In]. tauto.
  - inversion Hn as [|? ? Hk Hn']; subst. apply bind_Ok in H as (d1 & H1 & H). apply bind_Ok in H1 as (x & Hx & H1). apply bind_Ok in H1 as (e & He & H1). apply bind_Ok in H1 as (je & Hj & H1). injection H1 as <-.
    assert (exists y, e = Fin y /\ je = JFlt y) as (y & -> & ->) by (destruct e; cbn in Hj; try discriminate; injection Hj as <-; eauto).
    destruct (IH _ Hn' H) as (A & B & K). split; [|split].
    + intros k' Hk'. rewrite A by (intros X; apply Hk'; now right). apply dget_dset_neq. intros X. apply Hk'. left. congruence.
    + intros k' [<-|Hk']; [|now apply B]. exists x, y. split; [exact Hx|]. split; [unfold dgetE in He; destruct (dget k errs); [injection He as ->; reflexivity|discriminate]|]. rewrite A by exact Hk. apply dget_dset_eq.
    + intros k'. rewrite K, keys_dset_iff. cbn. split; [intros [[->|]|]; tauto|intros [|[<-|]]; tauto].
Qed.

Lemma fit_results_ok e m cov v p d : NoDup (keys (m_pois m)) -> (forall k, In k (keys (m_pois m)) -> ~ In k reserved) -> fit_results e m cov v p = Ok d ->
  exists c x pd, cov = Some c /\ v = Fin x /\ pars_dict p false true false = Ok pd /\ (forall i, (i < length (m_pois m))%nat -> 0 < c i i) /\
    dget "min_nll" d = Some (JFlt x) /\ dget "min_pars" d = Some (JObj (map (fun kx => (fst kx, JFlt (snd kx))) pd)) /\
    (forall i k, nth_error (keys (m_pois m)) i = Some k -> exists y, pars_get p k = Ok y /\ dget k d = Some (JObj [("best_fit_value", JFlt y); ("uncertainty", JFlt (sqrt (c i i)))])) /\
    dget "correlation_matrix" d = Some (JList (map (fun i => numbers (map (fun j => c i j / sqrt (c i i) / sqrt (c j j)) (seq 0 (length (m_pois m))))) (seq 0 (length (m_pois m))))) /\
    (forall k, In k (keys d) <-> In k reserved \/ In k (keys (m_pois m))).
Proof.
  intros Hn Hr H. unfold fit_results in H. apply bind_Ok in H as (nll & Hv & H). apply bind_Ok in H as (pd & Hp & H). destruct v as [x| | |]; try discriminate. injection Hv as <-.
  destruct cov as [c|]; [|discriminate]. apply bind_Ok in H as (errs & He & H). apply bind_Ok in H as (rho & Hc & H). apply bind_Ok in H as (out & Ho & H). injection H as <-.
  injection He as <-. unfold correlation_matrix in Hc. destruct (forallb _ _) eqn:Ef in Hc; [|discriminate]. injection Hc as <-.
  destruct (poi_entries _ _ _ _ _ Hn Ho) as (A & B & K). exists c, x, pd. split; [reflexivity|]. split; [reflexivity|]. split; [exact Hp|].
  assert (Hpos : forall i, (i < length (m_pois m))%nat -> 0 < c i i).
  { intros i Hi. rewrite forallb_forall in Ef. apply Rltb_true, Ef. apply in_seq. lia. }
  split; [exact Hpos|].
  assert (R1 : ~ In "min_nll" (keys (m_pois m))) by (intros X; apply (Hr _ X); cbn; auto). assert (R2 : ~ In "min_pars" (keys (m_pois m))) by (intros X; apply (Hr _ X); cbn; auto).
  split; [rewrite dget_dset_neq by discriminate; rewrite (A _ R1); reflexivity|]. split; [rewrite dget_dset_neq by discriminate; rewrite (A _ R2); reflexivity|]. split; [|split].
  - intros i k Hk. assert (Hin : In k (keys (m_pois m))) by (eapply nth_error_In; eauto). destruct (B k Hin) as (y & e0 & H1 & H2 & H3). exists y. split; [exact H1|]. rewrite dget_dset_neq by (intros ->; apply (Hr _ Hin); cbn; auto). rewrite H3. do 5 f_equal.
    assert (Hi : (i < length (m_pois m))%nat) by (rewrite <- (map_length fst (m_pois m)); apply nth_error_Some; fold (keys (m_pois m)); rewrite Hk; discriminate).
    assert (G : dget k (map (fun ik => (snd ik, esqrt (c (fst ik) (fst ik)))) (enumerate (keys (m_pois m)))) = Some (esqrt (c i i))).
    { apply In_dget; [|].
      - unfold keys at 1. rewrite map_map. cbn [fst]. rewrite enumerate_snd. exact Hn.
      - apply in_map_iff. exists (i, k). split; [reflexivity|]. apply enumerate_in. exact Hk. }
    rewrite G in H2. injection H2 as H2. unfold esqrt in H2. pose proof (Hpos i Hi). rewrite (proj2 (Rltb_false _ _)) in H2 by lra. congruence.
  - rewrite dget_dset_eq. do 2 f_equal. apply map_ext. intros i. unfold numbers. rewrite map_map. reflexivity.
  - intros k. rewrite keys_dset_iff, K. cbn. intuition congruence.
Qed.

(** the names of the parameters are those of the model *)
Lemma ranges_keys pf rmatch l : forall ps ps' r, ranges_loop pf rmatch l ps = (ps', r) -> keys ps' = keys ps.
Proof.
  assert (X : forall f names ps, keys (on_pois f names ps) = keys ps) by (intros f names ps; unfold keys, on_pois; rewrite map_map; reflexivity).
  assert (Y : forall f a names ps q, set_side pf f a names ps = Some q -> keys q = keys ps) by (intros f a names ps q; unfold set_side; destruct (String.eqb a ""); [intros [= <-]; reflexivity|]; destruct (pf a); [|discriminate]; intros [= <-]; apply X).
  induction l as [|a l IH]; intros ps ps' r H; cbn [ranges_loop] in H; [congruence|]. destruct a as [|v [|rg [|? ?]]]; try (injection H as <- <-; reflexivity).
  destruct (_ =? _)%nat; [injection H as <- <-; reflexivity|].
  match type of H with context [match ?z with Some _ => _ | None => _ end] => destruct z as [[lo hi]|] end; [|injection H as <- <-; reflexivity].
  destruct (set_side pf with_min lo _ ps) as [p1|] eqn:E1; [|injection H as <- <-; reflexivity]. destruct (set_side pf with_max hi _ p1) as [p2|] eqn:E2; [|injection H as <- <-; eapply Y; eauto].
  rewrite (IH _ _ _ H), (Y _ _ _ _ _ E2). eapply Y; eauto.
Qed.
Lemma fit_model_names E C pf rmatch o f m it : fit_model E C pf rmatch o f = Ok (m, it) -> pm_pois (i_pm it) = keys (m_pois m).
Proof.
  intros H. unfold fit_model in H. apply bind_Ok in H as ([m0 it0] & H0 & H). apply bind_Ok in H as (u & _ & H). cbn [fst snd] in H.
  assert (X : pm_pois (i_pm it0) = keys (m_pois m0)).
  { unfold model_load_file in H0. apply bind_Ok in H0 as (sd & _ & H0). unfold model_load in H0. apply bind_Ok in H0 as (m1 & _ & H0). unfold finish in H0. apply bind_Ok in H0 as (I & HI & H0). injection H0 as <- <-.
    apply siv_built in HI. pose proof (bt_pm _ _ _ HI) as P. unfold pmodel_of in P. apply bind_Ok in P as (l & _ & P). injection P as <-. reflexivity. }
  assert (Y : keys (m_pois (match ft_cutoff o with Some c => with_cutoff m0 c | None => m0 end)) = keys (m_pois m0)) by (destruct (ft_cutoff o); reflexivity).
  destruct (ft_setrange o) as [spec|].
  - destruct (process_setranges pf rmatch spec _) as [ps r] eqn:Ep. apply bind_Ok in H as ([] & _ & H). injection H as <- <-. unfold process_setranges in Ep. rewrite X, <- Y. symmetry. exact (ranges_keys _ _ _ _ _ _ Ep).
  - injection H as <- <-. congruence.
Qed.

(** the output file *)
Lemma strip_suffix_end s : strip_suffix ".json" (s ++ ".json") = s.
Proof.
  induction s as [|c s IH]; [reflexivity|]. cbn [append strip_suffix]. destruct (String.eqb_spec (String c (s ++ ".json")) ".json") as [X|_]; [|now rewrite IH].
  exfalso. injection X as _ X. apply (f_equal String.length) in X. assert (L : forall a b, String.length (a ++ b) = (String.length a + String.length b)%nat) by (induction a; cbn; auto). rewrite L in X. cbn in X. lia.
Qed.
Lemma strip_suffix_none s : (forall p, s <> (p ++ ".json")%string) -> strip_suffix ".json" s = s.
Proof.
  induction s as [|c s IH]; intros N; [reflexivity|]. cbn [strip_suffix]. destruct (String.eqb_spec (String c s) ".json") as [X|_]; [exfalso; exact (N "" X)|]. f_equal. apply IH. intros p ->. exact (N (String c p) eq_refl).
Qed.
(** the option --output-file, with or without the extension *)
Definition output_base (o : FitOpts) (base : string) : Prop := ft_out o = Some (base ++ ".json")%string \/ ft_out o = Some base /\ forall s, base <> (s ++ ".json")%string.
Lemma output_file o base : output_base o base -> exists out, ft_out o = Some out /\ fit_file out = (base ++ ".json")%string.
Proof. intros [H|[H N]]; (eexists; split; [exact H|]); unfold fit_file; [rewrite strip_suffix_end|rewrite strip_suffix_none by exact N]; reflexivity. Qed.

Lemma run_inv L E C w pf rmatch o f ops t : fit_run L E C w pf rmatch o f = (ops, Ok t) ->
  exists m it data hypo v p s, fit_inputs E C pf rmatch o f m it data /\ fit_hypo pf rmatch o m = Ok hypo /\ best_fit (fl_fit L m it data) m it o = Ok (v, p, s) /\ fit_test L (m, it) data s hypo = Ok t /\
    match ft_out o with
    | None => ops = []
    | Some file => exists d, fit_results (fl_imshow L) m (covariance_matrix (fl_inv L) E m it (pois p) (nps p) data) v p = Ok d /\ save_ops C w (fit_file file) (Some "json") d = (ops, None)
    end.
Proof.
  intros H. unfold fit_run in H. match type of H with (match ?x with _ => _ end) = _ => destruct x as [[[[file d]|] t0]|e] eqn:Ex end; [| |discriminate].
  - destruct (save_ops C w (fit_file file) (Some "json") d) as [ops' [e|]] eqn:Es; [discriminate|]. injection H as <- <-.
    apply bind_Ok in Ex as ([m it] & Hm & Ex). apply bind_Ok in Ex as (data & Hd & Ex). apply bind_Ok in Ex as (hypo & Hh & Ex). apply bind_Ok in Ex as ([[v p] s] & Hb & Ex). cbn [fst snd] in *. apply bind_Ok in Ex as (pv & _ & Ex).
    apply bind_Ok in Ex as (out & Ho & Ex). apply bind_Ok in Ex as (t1 & Ht & Ex). injection Ex as -> ->. exists m, it, data, hypo, v, p, s. split; [split; assumption|]. split; [exact Hh|]. split; [exact Hb|]. split; [exact Ht|].
    destruct (ft_out o) as [file'|]; [|discriminate]. apply bind_Ok in Ho as (d' & Ho & X). injection X as -> ->. eauto.
  - injection H as <- <-. apply bind_Ok in Ex as ([m it] & Hm & Ex). apply bind_Ok in Ex as (data & Hd & Ex). apply bind_Ok in Ex as (hypo & Hh & Ex). apply bind_Ok in Ex as ([[v p] s] & Hb & Ex). cbn [fst snd] in *. apply bind_Ok in Ex as (pv & _ & Ex).
    apply bind_Ok in Ex as (out & Ho & Ex). apply bind_Ok in Ex as (t1 & Ht & Ex). injection Ex as -> ->. exists m, it, data, hypo, v, p, s. split; [split; assumption|]. split; [exact Hh|]. split; [exact Hb|]. split; [exact Ht|].
    destruct (ft_out o) as [file'|]; [|reflexivity]. apply bind_Ok in Ho as (d' & Ho & X). discriminate.
Qed.

(** the fits of a model: profiling keeps the parameters those of the model, and returns the likelihood of the parameters it returns *)
Definition profiles (F : FitEnv) (pm : PModel) (nllf : Params -> ext) : Prop := forall k fl h d p x, wf h pm -> f_prof F k fl h = Ok (d, p, x) -> wf p pm /\ nllf p = x.
Lemma repair_wf pm l : forall p q, wf p pm -> foldM repair l p = Ok q -> wf q pm.
Proof. induction l as [|b l IH]; intros p q W H; cbn [foldM] in H; [injection H as <-; exact W|]. apply bind_Ok in H as (p1 & H1 & H). exact (IH _ _ (proj1 (repair_spec _ _ _ _ W H1)) H). Qed.
Lemma update_wf pm idx : forall x p q, wf p pm -> update_hypo p idx x = Ok q -> wf q pm.
Proof.
  unfold update_hypo. induction idx as [|i idx IH]; intros [|y x] p q W H; cbn [combine foldM] in H; try (injection H as <-; exact W). apply bind_Ok in H as (p1 & H1 & H). apply (IH x p1 q); [|exact H]. cbn [fst snd] in H1. apply bind_Ok in H1 as (l & Hl & H1). injection H1 as <-.
  unfold lset in Hl. destruct (_ <? _)%nat; [|discriminate]. injection Hl as <-. destruct W as (A & B & D). repeat split; cbn; auto. now rewrite set_nth_length.
Qed.
Lemma best_fit_at F m it o v p s : at_result (f_opt F) -> best_fit F m it o = Ok (v, p, s) -> exists k fl h d, wf h (i_pm it) /\ f_prof F k fl h = Ok (d, p, v).
Proof.
  intros Ha H. unfold best_fit in H. apply bind_Ok in H as ([r0 s1] & H & Hb). destruct r0 as [v1|]; [|discriminate].
  unfold minimize in H. cbn [fit_minimizer mini_init mi_init] in H. apply bind_Ok in H as (s2 & Hs2 & H). apply bind_Ok in Hs2 as ([ini bs] & Hi & Hs2). injection Hs2 as <-. cbn [PoiMin.with_pois mi_init mi_bounds fst snd] in H.
  assert (Wi : wf ini (i_pm it)).
  { unfold set_pois_min in Hi. apply bind_Ok in Hi as (p0 & H0 & Hi). apply bind_Ok in Hi as (q1 & Hq & Hi). injection Hq as <-. apply bind_Ok in Hi as (b2 & _ & Hi). apply bind_Ok in Hi as (q2 & Hf & Hi). injection Hi as <- <-. exact (repair_wf _ _ _ _ (pars_init_sizes _ _ _ _ H0) Hf). }
  rewrite (pars_clone_wf _ _ Wi) in H. apply bind_Ok in H as (cur & Hcur & H). injection Hcur as <-. apply bind_Ok in H as (fr & _ & H). apply bind_Ok in H as (x0 & _ & H). destruct (_ && _)%bool.
  - apply bind_Ok in H as ([[d q] v'] & Hf & H). injection H as <- <-. cbn in Hb. injection Hb as <- <- <-. eauto 6.
  - apply bind_Ok in H as (r & Hr & H). apply bind_Ok in H as (s3 & Hs & H). destruct (o_success r); [|discriminate]. injection H as <- <-.
    match type of Hs with context [mi_niter ?x] => set (sx := x) in * end.
    assert (G : (exists l, o_evals r = l ++ [o_x r]) /\ (let! h := update_hypo ini (map fst fr) (o_x r) in let! (d, p, v) := f_prof F (mi_niter sx) (mi_floor sx) h in Ok v) = Ok (o_fun r)).
    { clear -Hr Ha. repeat (match type of Hr with (if ?c then _ else _) = _ => destruct c | match ?c with _ => _ end = _ => destruct c end; try discriminate); exact (Ha _ _ _ _ _ _ Hr). }
    destruct G as ((l & El) & Eo). rewrite El, rev_app_distr in Hs. cbn [rev app] in Hs. apply bind_Ok in Hs as (h & Hh & Hs). rewrite Hh in Eo. cbn [bind] in Eo.
    apply bind_Ok in Hs as ([[d q] x] & Hf & Hs). rewrite Hf in Eo. cbn [bind] in Eo. injection Eo as Eo. injection Hs as <-. cbn in Hb. injection Hb as <- <- <-. rewrite <- Eo. eexists _, _, h, d. split; [exact (update_wf _ _ _ _ _ Wi Hh)|exact Hf].
Qed.
Lemma best_fit_spec F m it o nllf v p s : profiles F (i_pm it) nllf -> at_result (f_opt F) -> best_fit F m it o = Ok (v, p, s) -> wf p (i_pm it) /\ nllf p = v.
Proof. intros Hp Ha H. destruct (best_fit_at _ _ _ _ _ _ _ Ha H) as (k & fl & h & d & Wh & Hf). exact (Hp _ _ _ _ _ _ Wh Hf). Qed.

(** ** the results of the fit *)
(** C112: after a successful run, the results file <output>.json holds the likelihood of the best fit, the values of all the parameters at the best fit, and for every POI its best-fit value and
    its uncertainty: the square root of the diagonal element of the inverse of the Hessian of the likelihood at the best fit, with the correlation matrix made from the same inverse *)
Theorem C112_results : forall L E C w pf rmatch o f base ops t m it data nllf, faithful C -> inverts (fl_inv L) -> output_base o base -> fit_inputs E C pf rmatch o f m it data ->
  NoDup (pm_pois (i_pm it) ++ np_names (i_pm it)) -> (forall k, In k (keys (m_pois m)) -> ~ In k reserved) -> profiles (fl_fit L m it data) (i_pm it) nllf -> at_result (f_opt (fl_fit L m it data)) ->
  fit_run L E C w pf rmatch o f = (ops, Ok t) ->
  exists p v d pd H c, let n := length (m_pois m) in
    wf p (i_pm it) /\ nllf p = Fin v /\ nll_hessian E m it (pois p) (nps p) data = Ok H /\
    (forall i j, (i < n)%nat -> (j < n)%nat -> rsum n (fun k => H i k * c k j) = (if (i =? j)%nat then 1 else 0) /\ c i j = c j i) /\ (forall i, (i < n)%nat -> 0 < c i i) /\
    load_file C (run_ops ops f) (base ++ ".json") (Some "json") = Ok d /\ (forall k, In k (keys d) <-> In k reserved \/ In k (keys (m_pois m))) /\
    dget "min_nll" d = Some (JFlt v) /\ dget "min_pars" d = Some (JObj pd) /\
    (forall k x, In k (keys (m_pois m)) -> pars_get p k = Ok x -> dget k pd = Some (JFlt x)) /\
    (forall i k nom var x, nth_error (pm_nps (i_pm it)) i = Some (k, nom, var) -> nth_error (nps p) i = Some x -> dget k pd = Some (JFlt (nom + x * var))) /\
    (forall i k, nth_error (keys (m_pois m)) i = Some k -> exists x, nth_error (pois p) i = Some x /\ dget k d = Some (JObj [("best_fit_value", JFlt x); ("uncertainty", JFlt (sqrt (c i i)))])) /\
    dget "correlation_matrix" d = Some (JList (map (fun i => numbers (map (fun j => c i j / sqrt (c i i) / sqrt (c j j)) (seq 0 n))) (seq 0 n))).
Proof.
  intros L E C w pf rmatch o f base ops t m it data nllf HC Hi Ho [Hm Hd] Hn Hr Hp Ha H. destruct (run_inv _ _ _ _ _ _ _ _ _ _ H) as (m' & it' & data' & hypo & v & p & s & [Hm' Hd'] & _ & Hb & _ & Hf).
  rewrite Hm in Hm'. injection Hm' as <- <-. rewrite Hd in Hd'. injection Hd' as <-. destruct (output_file o base Ho) as (out & Eo & Ef). rewrite Eo in Hf. destruct Hf as (d & Hres & Hsave). rewrite Ef in Hsave.
  pose proof (fit_model_names _ _ _ _ _ _ _ _ Hm) as Hk. destruct (best_fit_spec _ _ _ _ _ _ _ _ Hp Ha Hb) as [Wp Hv].
  assert (Hnp : NoDup (keys (m_pois m))) by (rewrite <- Hk; exact (NoDup_app_l _ _ Hn)).
  destruct (fit_results_ok _ _ _ _ _ _ Hnp Hr Hres) as (c & x & pd & Hc & -> & Hpd & Hpos & R1 & R2 & R3 & R4 & R5).
  destruct (C87_covariance_is_inverse _ _ _ _ _ _ _ _ Hi Hc) as (Hs & HH & _ & Hinv). destruct (C89_saved_file_is_loaded _ _ _ _ _ _ f HC Hsave) as [Hload _].
  exists p, x, d, (map (fun kx => (fst kx, JFlt (snd kx))) pd), Hs, c. cbv zeta. split; [exact Wp|]. split; [exact Hv|]. split; [exact HH|]. split; [intros i j Li Lj; destruct (Hinv i j Li Lj) as (A & _ & B); split; assumption|].
  split; [exact Hpos|]. split; [exact Hload|]. split; [exact R5|]. split; [exact R1|]. split; [exact R2|].
  assert (Epd : pd = pars_dict_plain (i_pm it) (pois p) (nps p) true false) by (unfold pars_dict in Hpd; rewrite (proj1 Wp) in Hpd; injection Hpd as <-; reflexivity).
  assert (G : forall k y, dget k pd = Some y -> dget k (map (fun kx : string * R => (fst kx, JFlt (snd kx))) pd) = Some (JFlt y)).
  { clear. induction pd as [|[a b] pd IH]; cbn; [discriminate|]. intros k y. destruct (String.eqb k a); [congruence|apply IH]. }
  split; [|split; [|split; [|exact R4]]].
  - intros k y Hin Hy. apply G. rewrite <- Hk in Hin. destruct (pars_dict_plain_get p (i_pm it) true k Wp Hn) as (vv & x' & A & B & _ & D); [apply in_or_app; now left|]. rewrite Epd, A. f_equal. rewrite Hy in B. injection B as <-. apply (proj1 (D eq_refl)). exact Hin.
  - intros i k nom var y Hi' Hy. apply G. assert (Ik : index k (np_names (i_pm it)) = Some i) by (apply nth_index; [exact (NoDup_app_r _ _ Hn)|unfold np_names; rewrite nth_error_map, Hi'; reflexivity]).
    assert (Ink : In k (np_names (i_pm it))) by (apply in_map_iff; exists (k, nom, var); split; [reflexivity|eapply nth_error_In; eauto]).
    assert (Hg : pars_get p k = Ok y). { unfold pars_get. rewrite (proj1 Wp). assert (index k (pm_pois (i_pm it)) = None) as -> by (apply index_None; intros X; exact (NoDup_app_disj _ _ _ Hn X Ink)). rewrite Ik. unfold lget. rewrite Hy. reflexivity. }
    destruct (C26_dict_values p (i_pm it) k Wp Hn) as (_ & A & _); [apply in_or_app; now right|]. destruct (A i nom var y Ik Hi' Hg) as [(d0 & E0 & G0) _]. rewrite Hpd in E0. injection E0 as <-. exact G0.
  - intros i k Hi'. destruct (R3 i k Hi') as (y & Hy & Hd2). exists y. split; [|exact Hd2]. unfold pars_get in Hy. rewrite (proj1 Wp), Hk in Hy. rewrite (nth_index _ _ _ Hnp Hi') in Hy. unfold lget in Hy. destruct (nth_error (pois p) i); congruence.
Qed.
Print Assumptions C112_results.

(** ** the minimum *)
(** an optimization that finds the minimum in the ranges *)
Definition finds_minimum (o : optimizer) : Prop := forall me obj jac x0 ranges r v, o me obj jac x0 ranges = Ok r -> o_success r = true -> o_fun r = Fin v ->
  forall x w, Forall2 (fun b y => (forall lo, fst b = Some lo -> lo <= y) /\ (forall hi, snd b = Some hi -> y <= hi)) ranges x -> obj x = Ok (Fin w) -> v <= w.
(** the POI values of [h] are in the ranges of the model *)
Definition in_ranges (m : Model) (h : Params) : Prop := forall k po x, In (k, po) (m_pois m) -> pars_get h k = Ok x -> (forall lo, poi_min po = Some lo -> lo <= x) /\ (forall hi, poi_max po = Some hi -> x <= hi).

Lemma nth_error_ext {A} (l l' : list A) : length l = length l' -> (forall i a b, nth_error l i = Some a -> nth_error l' i = Some b -> a = b) -> l = l'.
Proof.
  revert l'. induction l as [|a l IH]; intros [|b l'] HL H; try discriminate; [reflexivity|]. f_equal; [apply (H 0%nat); reflexivity|]. apply IH; [now injection HL|]. intros i x y Hx Hy. apply (H (S i)); assumption.
Qed.
Lemma pars_ext pm p q : wf p pm -> wf q pm -> NoDup (pm_pois pm ++ np_names pm) -> (forall k, In k (pm_pois pm ++ np_names pm) -> pars_get p k = pars_get q k) -> p = q.
Proof.
  intros (Mp & Pp & Np) (Mq & Pq & Nq) Hn H. destruct p as [ps ns mp], q as [ps' ns' mq]. cbn [pois nps pmod] in *. subst mp mq. f_equal.
  - apply nth_error_ext; [congruence|]. intros i a b Ha Hb. assert (Li : (i < length (pm_pois pm))%nat) by (rewrite <- Pp; apply nth_error_Some; congruence). destruct (nth_error_length _ _ Li) as [k Hk].
    assert (Hin : In k (pm_pois pm)) by (eapply nth_error_In; eauto). specialize (H k (in_or_app _ _ _ (or_introl Hin))). unfold pars_get in H. cbn [pmod pois nps] in H. rewrite (nth_index _ _ _ (NoDup_app_l _ _ Hn) Hk) in H. unfold lget in H. rewrite Ha, Hb in H. congruence.
  - apply nth_error_ext; [congruence|]. intros i a b Ha Hb. assert (Li : (i < length (np_names pm))%nat) by (rewrite np_names_length, <- Np; apply nth_error_Some; congruence). destruct (nth_error_length _ _ Li) as [k Hk].
    assert (Hin : In k (np_names pm)) by (eapply nth_error_In; eauto). specialize (H k (in_or_app _ _ _ (or_intror Hin))). unfold pars_get in H. cbn [pmod pois nps] in H.
    rewrite (proj2 (index_None _ _) (fun X => NoDup_app_disj _ _ _ Hn X Hin)), (nth_index _ _ _ (NoDup_app_r _ _ Hn) Hk) in H. unfold lget in H. rewrite Ha, Hb in H. congruence.
Qed.
Lemma np_value_zero pm h k x : wf h pm -> nps h = repeat 0 (length (pm_nps pm)) -> NoDup (pm_pois pm ++ np_names pm) -> In k (np_names pm) -> pars_get h k = Ok x -> x = 0.
Proof.
  intros W Hz Hn Hin H. unfold pars_get in H. rewrite (proj1 W), (proj2 (index_None _ _) (fun X => NoDup_app_disj _ _ _ Hn X Hin)), Hz in H. destruct (index k (np_names pm)) as [i|]; [|discriminate].
  unfold lget in H. destruct (nth_error (repeat 0 (length (pm_nps pm))) i) eqn:En; [|discriminate]. injection H as <-. apply nth_error_In, repeat_spec in En. exact En.
Qed.
(** the start of the fit *)
Lemma fit_start m it p bs : NoDup (pm_pois (i_pm it) ++ np_names (i_pm it)) -> pm_pois (i_pm it) = keys (m_pois m) -> (forall k po, In (k, po) (m_pois m) -> exists lo hi, poi_min po = Some lo /\ poi_max po = Some hi /\ lo <= hi) ->
  set_pois_min m it None None None false = Ok (p, bs) -> wf p (i_pm it) /\ bs = model_bounds m /\ (forall k x, In k (np_names (i_pm it)) -> pars_get p k = Ok x -> x = 0) /\ in_ranges m p.
Proof.
  intros Hn Hk Hr H. unfold set_pois_min in H. apply bind_Ok in H as (p0 & H0 & H). apply bind_Ok in H as (q1 & Hq & H). injection Hq as <-. apply bind_Ok in H as (b2 & Hb2 & H). injection Hb2 as <-. apply bind_Ok in H as (q2 & Hf & H). injection H as <- <-.
  pose proof (pars_init_sizes _ _ _ _ H0) as W0. assert (Z : nps p0 = repeat 0 (length (pm_nps (i_pm it)))).
  { unfold pars_init in H0. apply bind_Ok in H0 as (l & El & H0). apply bind_Ok in H0 as (? & _ & H0). apply bind_Ok in H0 as (ns & En & H0). apply bind_Ok in H0 as (? & _ & H0). injection H0 as <-. injection En as <-. reflexivity. }
  assert (Hnk : NoDup (keys (m_pois m))) by (rewrite <- Hk; exact (NoDup_app_l _ _ Hn)). pose proof (keyed_model m Hnk) as K. assert (Hp : map pb_par (values (model_bounds m)) = keys (m_pois m)) by (rewrite (keyed_pars _ K); unfold keys, model_bounds; rewrite map_map; reflexivity).
  destruct (repair_all _ _ _ _ W0 (eq_ind_r (fun l => NoDup l) Hnk Hp) Hf) as (W & Hl & Ho). split; [exact W|]. split; [reflexivity|]. split.
  - intros k x Hin Hx. rewrite Ho in Hx by (rewrite Hp, <- Hk; intros X; exact (NoDup_app_disj _ _ _ Hn X Hin)). exact (np_value_zero _ _ _ _ W0 Z Hn Hin Hx).
  - intros k po x Hin Hx. destruct (Hl (mkPB k (poi_min po) (poi_max po))) as (v0 & v & _ & Hv & Hc); [unfold values, model_bounds; rewrite map_map; apply in_map_iff; exists (k, po); split; [reflexivity|exact Hin]|].
    cbn [pb_par] in Hv. rewrite Hx in Hv. injection Hv as <-. destruct Hc as [[[A B] ->]|[_ Hc]]; [split; assumption|]. destruct (Hr k po Hin) as (lo & hi & El & Eh & Hle). unfold middle in Hc. cbn [pb_min pb_max] in Hc. rewrite El, Eh in Hc. injection Hc as <-.
    rewrite El, Eh. split; intros y [= <-]; lra.
Qed.
Lemma free_ranges m k b : In (k, b) (free_list (model_bounds m)) -> exists po, In (k, po) (m_pois m) /\ b = mkPB k (poi_min po) (poi_max po).
Proof. unfold free_list. rewrite filter_In. intros [H _]. unfold model_bounds in H. apply in_map_iff in H as ([k' po] & E & H). injection E as <- <-. eauto. Qed.

(** C112: with an optimization that finds minima, the likelihood in the results file is at most the profile likelihood at any POI values in their ranges (those of the model, changed by --setrange) *)
Theorem C112_minimum : forall L E C w pf rmatch o f base ops t m it data h d q u, faithful C -> output_base o base -> fit_inputs E C pf rmatch o f m it data ->
  NoDup (pm_pois (i_pm it) ++ np_names (i_pm it)) -> (forall k, In k (keys (m_pois m)) -> ~ In k reserved) -> (forall k po, In (k, po) (m_pois m) -> exists lo hi, poi_min po = Some lo /\ poi_max po = Some hi /\ lo <= hi) ->
  finds_minimum (f_opt (fl_fit L m it data)) -> fit_run L E C w pf rmatch o f = (ops, Ok t) ->
  wf h (i_pm it) -> nps h = repeat 0 (length (pm_nps (i_pm it))) -> in_ranges m h -> f_prof (fl_fit L m it data) 1 (Some (/ 10000000)) h = Ok (d, q, Fin u) ->
  exists doc v, load_file C (run_ops ops f) (base ++ ".json") (Some "json") = Ok doc /\ dget "min_nll" doc = Some (JFlt v) /\ v <= u.
Proof.
  intros L E C w pf rmatch o f base ops t m it data h d q u HC Ho [Hm Hd] Hn Hr Hrg Ha H Wh Hz Hin Hu. destruct (run_inv _ _ _ _ _ _ _ _ _ _ H) as (m' & it' & data' & hypo & v & p & s & [Hm' Hd'] & _ & Hb & _ & Hf).
  rewrite Hm in Hm'. injection Hm' as <- <-. rewrite Hd in Hd'. injection Hd' as <-. destruct (output_file o base Ho) as (out & Eo & Ef). rewrite Eo in Hf. destruct Hf as (doc & Hres & Hsave). rewrite Ef in Hsave.
  pose proof (fit_model_names _ _ _ _ _ _ _ _ Hm) as Hk. assert (Hnp : NoDup (keys (m_pois m))) by (rewrite <- Hk; exact (NoDup_app_l _ _ Hn)).
  destruct (fit_results_ok _ _ _ _ _ _ Hnp Hr Hres) as (c & x & pd & Hc & -> & Hpd & Hpos & R1 & _). destruct (C89_saved_file_is_loaded _ _ _ _ _ _ f HC Hsave) as [Hload _].
  exists doc, x. split; [exact Hload|]. split; [exact R1|]. unfold best_fit in Hb. apply bind_Ok in Hb as ([r s1] & Hmin & Hb). destruct r as [v1|]; [|discriminate]. destruct (mi_min_pars s1) as [p1|]; [|discriminate]. injection Hb as -> -> ->.
  set (F := fl_fit L m it data) in *. clear Hres R1 Hload Hsave H Hpd Hpos Hc.
  assert (Hmin2 : exists init, set_pois_min m it None None None false = Ok (init, model_bounds m) /\ wf init (i_pm it) /\ (forall k x, In k (np_names (i_pm it)) -> pars_get init k = Ok x -> x = 0) /\ in_ranges m init /\
    minimize m it F (PoiMin.with_pois (fit_minimizer o) (init, model_bounds m)) None = Ok (RNll (Fin x), s)).
  { assert (Hmin' := Hmin). unfold minimize in Hmin'. cbn [fit_minimizer mini_init mi_init] in Hmin'. apply bind_Ok in Hmin' as (s2 & Hs2 & Hmin'). apply bind_Ok in Hs2 as ([init bs] & Hs & Hs2). destruct (fit_start m it init bs Hn Hk Hrg Hs) as (A & -> & B & D).
    exists init. split; [exact Hs|]. split; [exact A|]. split; [exact B|]. split; [exact D|]. injection Hs2 as <-. rewrite <- Hmin. unfold minimize. cbn [fit_minimizer mini_init mi_init]. rewrite Hs. reflexivity. }
  destruct Hmin2 as (init & Hs & Wi & Zi & Ri & Hmin2).
  assert (Same : forall g, wf g (i_pm it) -> (forall k x, In k (np_names (i_pm it)) -> pars_get g k = Ok x -> x = 0) -> (forall k, In k (keys (m_pois m)) -> pars_get g k = pars_get h k) -> g = h).
  { intros g Wg Zg Hg. apply (pars_ext (i_pm it)); [exact Wg|exact Wh|exact Hn|]. intros k Hin'. apply in_app_or in Hin' as [Hp|Hp]; [apply Hg; rewrite <- Hk; exact Hp|].
    destruct (pars_get_total g _ k Wg) as [a Ea]; [apply in_or_app; now right|]. destruct (pars_get_total h _ k Wh) as [b Eb]; [apply in_or_app; now right|]. rewrite Ea, Eb. rewrite (Zg _ _ Hp Ea), (np_value_zero _ _ _ _ Wh Hz Hn Hp Eb). reflexivity. }
  assert (Fixed : forall g k po, wf g (i_pm it) -> in_ranges m g -> In (k, po) (m_pois m) -> open_range (mkPB k (poi_min po) (poi_max po)) = false -> pars_get g k = pars_get h k).
  { intros g k po Wg Rg Hin' Hop. destruct (Hrg k po Hin') as (lo & hi & El & Eh & Hle). unfold open_range in Hop. cbn [pb_min pb_max] in Hop. rewrite El, Eh in Hop. apply Rltb_false in Hop.
    assert (Ik : In k (pm_pois (i_pm it))) by (rewrite Hk; apply in_map_iff; exists (k, po); auto).
    destruct (pars_get_total g _ k Wg) as [a Ea]; [apply in_or_app; now left|]. destruct (pars_get_total h _ k Wh) as [b Eb]; [apply in_or_app; now left|]. destruct (Rg k po a Hin' Ea) as [A1 A2]. destruct (Hin k po b Hin' Eb) as [B1 B2].
    rewrite Ea, Eb. f_equal. pose proof (A1 lo El). pose proof (A2 hi Eh). pose proof (B1 lo El). pose proof (B2 hi Eh). lra. }
  assert (Kb : keys (model_bounds m) = keys (m_pois m)) by (unfold keys, model_bounds; rewrite map_map; reflexivity).
  assert (Inv : forall k, In k (keys (m_pois m)) -> ~ In k (keys (free_list (model_bounds m))) -> exists po, In (k, po) (m_pois m) /\ open_range (mkPB k (poi_min po) (poi_max po)) = false).
  { intros k Hin' Hno. apply in_map_iff in Hin' as ([k' po] & Ek & Hin'). cbn in Ek. subst k'. exists po. split; [exact Hin'|]. destruct (open_range _) eqn:Eop; [|reflexivity]. exfalso. apply Hno. apply in_map_iff. exists (k, mkPB k (poi_min po) (poi_max po)). split; [reflexivity|].
    unfold free_list. apply filter_In. split; [|exact Eop]. unfold model_bounds. apply in_map_iff. exists (k, po). auto. }
  destruct (free_list (model_bounds m)) as [|kb0 fl0] eqn:Efl.
  - (* nothing to fit *)
    assert (Ei : init = h) by (apply Same; [exact Wi|exact Zi|]; intros k Hin'; destruct (Inv k Hin' (fun X => X)) as (po & A & B); exact (Fixed init k po Wi Ri A B)). subst init.
    unfold minimize in Hmin2. cbn [PoiMin.with_pois fit_minimizer mini_init mi_init mi_bounds fst snd bind mi_method mi_niter mi_floor] in Hmin2. rewrite (pars_clone_wf _ _ Wi) in Hmin2. cbn [bind] in Hmin2.
    apply bind_Ok in Hmin2 as (fr & Hfr & Hmin2). destruct (free_bounds_values _ _ Hfr) as [Hfv _]. rewrite Efl in Hfv. destruct fr as [|? ?]; [|discriminate]. cbn [map mapM bind length Nat.eqb andb] in Hmin2. destruct (negb (String.eqb (ft_method o) "")) eqn:Em.
    + cbn [with_method mi_niter mi_floor] in Hmin2. change (mi_niter (PoiMin.with_pois (fit_minimizer o) (h, model_bounds m))) with 1%nat in Hmin2. change (mi_floor (PoiMin.with_pois (fit_minimizer o) (h, model_bounds m))) with (Some (/ 10000000)) in Hmin2. rewrite Hu in Hmin2. cbn in Hmin2. injection Hmin2 as <- _. lra.
    + apply negb_false_iff, String.eqb_eq in Em. unfold fit_minimizer in Hmin2. rewrite Em in Hmin2. cbn in Hmin2. discriminate.
  - assert (Kd : keyed (model_bounds m)) by (apply keyed_model; exact Hnp). rewrite <- Efl in Inv.
    assert (Ne : free_list (model_bounds m) <> []) by (rewrite Efl; discriminate).
    destruct (C85_optimization m it F (PoiMin.with_pois (fit_minimizer o) (init, model_bounds m)) init (model_bounds m) _ _ eq_refl eq_refl Wi Kd (eq_trans Kb (eq_sym Hk)) Ne Hmin2) as (me & obj & jac & x0 & ranges & res & Hopt & _ & Hrn & _ & Hobj & Hs1 & Hs0).
    destruct (o_success res) eqn:Esc; [|discriminate (Hs0 eq_refl)]. destruct (Hs1 eq_refl) as [Er _]. injection Er as Er. rewrite Efl in *. set (fl := kb0 :: fl0) in *.
    assert (G : exists ys, Forall2 (fun kb y => pars_get h (fst kb) = Ok y) fl ys).
    { assert (X : forall l, (forall kb, In kb l -> In kb fl) -> exists ys, Forall2 (fun kb y => pars_get h (fst kb) = Ok y) l ys).
      { induction l as [|[k b] l IH]; intros Hl; [exists []; constructor|]. destruct IH as [ys Hys]; [intros kb Hkb; apply Hl; now right|]. pose proof (Hl (k, b) (or_introl eq_refl)) as Hkb. rewrite <- Efl in Hkb. apply free_ranges in Hkb as (po & Hpo & _).
        destruct (pars_get_total h _ k Wh) as [a Ea]; [apply in_or_app; left; rewrite Hk; apply in_map_iff; exists (k, po); auto|]. exists (a :: ys). constructor; assumption. }
      apply X. auto. }
    destruct G as [ys Hys]. destruct (Hobj ys) as (g & Wg & Hg & Hgo & Eg); [symmetry; clear - Hys; induction Hys; cbn; congruence|].
    assert (Eh : g = h).
    { apply Same; [exact Wg| |].
      - intros k y Hp Hy. rewrite Hgo in Hy; [exact (Zi _ _ Hp Hy)|]. intros X. rewrite <- Efl in X. apply in_map_iff in X as ([k' b] & Ek & X). cbn in Ek. subst k'. apply free_ranges in X as (po & X & _).
        apply (NoDup_app_disj _ _ k Hn); [rewrite Hk; apply in_map_iff; exists (k, po); auto|exact Hp].
      - intros k Hp. destruct (in_dec string_dec k (keys fl)) as [Hf|Hf].
        + apply in_map_iff in Hf as ([k' b] & Ek & Hf). cbn in Ek. subst k'. clear - Hys Hg Hf. revert ys Hys Hg. induction fl as [|kb l IH]; intros ys Hys Hg; [contradiction|]. inversion Hys; subst. inversion Hg; subst. destruct Hf as [->|Hf]; [cbn in *; congruence|eapply IH; eauto].
        + destruct (Inv k Hp) as (po & A & B); [exact Hf|]. rewrite Hgo by exact Hf. exact (Fixed init k po Wi Ri A B). }
    subst g. change (mi_niter (PoiMin.with_pois (fit_minimizer o) (init, model_bounds m))) with 1%nat in Eg. change (mi_floor (PoiMin.with_pois (fit_minimizer o) (init, model_bounds m))) with (Some (/ 10000000)) in Eg. rewrite Hu in Eg. refine (Ha _ _ _ _ _ _ x Hopt Esc (eq_sym Er) ys u _ Eg). rewrite Hrn.
    assert (X : forall l ys, (forall kb, In kb l -> In kb fl) -> Forall2 (fun kb y => pars_get h (fst kb) = Ok y) l ys -> Forall2 (fun b y => (forall lo, fst b = Some lo -> lo <= y) /\ (forall hi, snd b = Some hi -> y <= hi)) (map (fun kb => (pb_min (snd kb), pb_max (snd kb))) l) ys).
    { induction l as [|[k b] l IH]; intros zs Hl Hz'; inversion Hz' as [|? z ? zs' Hz1 Hz2]; subst; [constructor|]. cbn [map]. constructor; [|apply IH; [intros kb Hkb; apply Hl; now right|exact Hz2]].
      pose proof (Hl (k, b) (or_introl eq_refl)) as Hkb. rewrite <- Efl in Hkb. apply free_ranges in Hkb as (po & Hpo & ->). cbn [fst snd pb_min pb_max] in *. exact (Hin k po z Hpo Hz1). }
    apply X; auto.
Qed.
Print Assumptions C112_minimum.

(** ** the inputs and the options *)
(** C112: the model is the one of the file, with the cutoff of --cutoff and the ranges of --setrange *)
Theorem C112_model : forall E C pf rmatch o f m it, fit_model E C pf rmatch o f = Ok (m, it) ->
  exists m0, model_load_file E C f (new_model true (ft_linear o)) (ft_model o) None = Ok (m0, it) /\
    (forall c, ft_cutoff o = Some c -> m_cutoff m = c) /\ (ft_cutoff o = None -> m_cutoff m = m_cutoff m0) /\
    (ft_setrange o = None -> m_pois m = m_pois m0) /\ (forall spec, ft_setrange o = Some spec -> process_setranges pf rmatch spec (m_pois m0) = (m_pois m, Ok tt)) /\
    keys (m_pois m) = keys (m_pois m0) /\ m_name m = m_name m0 /\ m_nps m = m_nps m0 /\ m_aux m = m_aux m0 /\ m_channels m = m_channels m0 /\ m_exprs m = m_exprs m0.
Proof.
  intros E C pf rmatch o f m it H. unfold fit_model in H. apply bind_Ok in H as ([m0 it0] & H0 & H). apply bind_Ok in H as (u & _ & H). cbn [fst snd] in H. exists m0.
  set (m1 := match ft_cutoff o with Some c => with_cutoff m0 c | None => m0 end) in *.
  assert (Y : m_pois m1 = m_pois m0 /\ m_name m1 = m_name m0 /\ m_nps m1 = m_nps m0 /\ m_aux m1 = m_aux m0 /\ m_channels m1 = m_channels m0 /\ m_exprs m1 = m_exprs m0 /\ (forall c, ft_cutoff o = Some c -> m_cutoff m1 = c) /\ (ft_cutoff o = None -> m_cutoff m1 = m_cutoff m0)).
  { unfold m1. destruct (ft_cutoff o); repeat split; try reflexivity; intros; cbn; congruence. }
  destruct Y as (Y1 & Y2 & Y3 & Y4 & Y5 & Y6 & Y7 & Y8). destruct (ft_setrange o) as [spec|].
  - destruct (process_setranges pf rmatch spec _) as [ps r] eqn:Ep. apply bind_Ok in H as ([] & -> & H). injection H as <- <-. rewrite Y1 in Ep. cbn [ModelTools.with_pois m_pois m_name m_nps m_aux m_channels m_exprs m_cutoff].
    split; [exact H0|]. split; [exact Y7|]. split; [exact Y8|]. split; [discriminate|]. split; [intros spec' [= <-]; exact Ep|]. split; [exact (ranges_keys _ _ _ _ _ _ Ep)|]. repeat split; assumption.
  - injection H as <- <-. split; [exact H0|]. split; [exact Y7|]. split; [exact Y8|]. split; [intros _; exact Y1|]. split; [discriminate|]. split; [now rewrite Y1|]. repeat split; assumption.
Qed.
Print Assumptions C112_model.
(** C112: the dataset is the one of --data-file; else, the expected one for the values of --asimov; else, the one in the model file *)
Theorem C112_dataset : forall C pf rmatch o f m it data, fit_dataset C pf rmatch o f (m, it) = Ok data ->
  (ft_data o <> "" -> exists rest, data_create C f (m, it) (ft_data o) = Ok (data, rest)) /\
  (ft_data o = "" -> ft_asimov o = None -> exists rest, data_create C f (m, it) (ft_model o) = Ok (data, rest)) /\
  (ft_data o = "" -> forall spec, ft_asimov o = Some spec -> NoDup (pm_pois (i_pm it)) ->
     exists vals ps t, process_setvals pf rmatch m true true true false spec = Ok vals /\ length ps = length (pm_pois (i_pm it)) /\
       (forall i n, nth_error (pm_pois (i_pm it)) i = Some n -> exists x, dget n vals = Some (SNum x) /\ nth_error ps i = Some x) /\
       tot_bin_exp m it ps (repeat 0 (length (pm_nps (i_pm it)))) None = Ok t /\ d_counts data = map t (seq 0 (i_nbins it)) /\ d_aux data = repeat 0 (length (pm_nps (i_pm it)))).
Proof.
  intros C pf rmatch o f m it data H.
  (* the dataset is built as in poi_scan *)
  set (so := mkSO (ft_model o) (Some (ft_data o)) (ft_asimov o) None "" "" false false "" None false false 0 None None false).
  assert (X : scan_data C pf rmatch so f (m, it) = Ok data).
  { unfold fit_dataset in H. unfold scan_data, so. cbn [so_data so_asimov so_model]. destruct (String.eqb (ft_data o) ""); cbn [negb] in H; exact H. }
  destruct (C105_dataset C pf rmatch so f m it data X) as (A & B & D). unfold so in A, B, D. cbn [so_data so_asimov so_model] in A, B, D. split; [intros N; exact (A _ eq_refl N)|]. split.
  - intros E1 E2. apply B; [right; congruence|exact E2].
  - intros E1 spec E2 Hn. apply (D (or_intror (f_equal Some E1)) spec E2 Hn).
Qed.
Print Assumptions C112_dataset.

(** C112: whatever happens, only the results file is written, and nothing without --output-file *)
Theorem C112_only_output : forall L E C w pf rmatch o f ops r, fit_run L E C w pf rmatch o f = (ops, r) ->
  (ft_out o = None -> ops = []) /\ (forall base q, output_base o base -> q <> (base ++ ".json")%string -> run_ops ops f q = f q).
Proof.
  intros L E C w pf rmatch o f ops r H. unfold fit_run in H. match type of H with (match ?x with _ => _ end) = _ => destruct x as [[[[file d]|] t0]|e] eqn:Ex end.
  - destruct (save_ops C w (fit_file file) (Some "json") d) as [ops' e] eqn:Es. injection H as <- <-.
    assert (Hf : ft_out o = Some file).
    { apply bind_Ok in Ex as (mi & _ & Ex). apply bind_Ok in Ex as (dt & _ & Ex). apply bind_Ok in Ex as (hy & _ & Ex). apply bind_Ok in Ex as ([[v p] s] & _ & Ex). apply bind_Ok in Ex as (pv & _ & Ex). apply bind_Ok in Ex as (out & Ho & Ex). apply bind_Ok in Ex as (t1 & _ & Ex). injection Ex as -> ->.
      destruct (ft_out o) as [file'|]; [|discriminate]. apply bind_Ok in Ho as (d' & _ & X). injection X as -> ->. reflexivity. }
    split; [congruence|]. intros base q Ho N. destruct (output_file o base Ho) as (out & Eo & Ef). rewrite Hf in Eo. injection Eo as <-. rewrite Ef in Es. eapply save_only; eauto.
  - injection H as <- <-. split; reflexivity.
  - injection H as <- <-. split; reflexivity.
Qed.
Print Assumptions C112_only_output.

(** C112: the test of a hypothesis does not change what is stored *)
Definition with_hypo (o : FitOpts) (h : option string) : FitOpts :=
  mkFt (ft_model o) (ft_data o) h (ft_out o) (ft_asimov o) (ft_setrange o) (ft_method o) (ft_linear o) (ft_niter o) (ft_regularize o) (ft_cutoff o) (ft_verbosity o).
Theorem C112_hypothesis_kept_apart : forall L E C w pf rmatch o h f ops t, fit_run L E C w pf rmatch (with_hypo o h) f = (ops, Ok t) -> fit_run L E C w pf rmatch (with_hypo o None) f = (ops, Ok None).
Proof.
  intros L E C w pf rmatch o h f ops t H. destruct (run_inv _ _ _ _ _ _ _ _ _ _ H) as (m & it & data & hypo & v & p & s & [Hm Hd] & Hh & Hb & Ht & Hf).
  assert (Hpv : exists pv, poi_values m p = Ok pv).
  { unfold fit_run in H. change (fit_model E C pf rmatch (with_hypo o h) f) with (fit_model E C pf rmatch o f) in *. rewrite Hm in H. cbn [bind] in H. rewrite Hd in H. cbn [bind fst snd] in H. rewrite Hh in H. cbn [bind] in H. rewrite Hb in H. cbn [bind] in H.
    destruct (poi_values m p) as [pv|]; [eauto|]. cbn in H. discriminate. }
  destruct Hpv as [pv Hpv]. unfold fit_run. change (fit_model E C pf rmatch (with_hypo o None) f) with (fit_model E C pf rmatch (with_hypo o h) f). rewrite Hm. cbn [bind].
  change (fit_dataset C pf rmatch (with_hypo o None) f) with (fit_dataset C pf rmatch (with_hypo o h) f). rewrite Hd. cbn [bind fst snd]. change (fit_hypo pf rmatch (with_hypo o None) m) with (@Ok (option (dict R)) None). cbn [bind].
  change (best_fit (fl_fit L m it data) m it (with_hypo o None)) with (best_fit (fl_fit L m it data) m it (with_hypo o h)). rewrite Hb. cbn [bind]. rewrite Hpv. cbn [bind].
  change (ft_out (with_hypo o None)) with (ft_out (with_hypo o h)). destruct (ft_out (with_hypo o h)) as [file|].
  - destruct Hf as (d & Hd2 & Hs). rewrite Hd2. cbn [bind fit_test]. rewrite Hs. reflexivity.
  - subst ops. reflexivity.
Qed.
Print Assumptions C112_hypothesis_kept_apart.
(** Refuted: a hypothesis that cannot be tested (here, with a value outside of the model) does not only lose the test: the results of the fit are not stored *)
Theorem C112_hypothesis_loses_results_refuted : forall L E C w pf rmatch o f m it data hypo v p s e, fit_inputs E C pf rmatch o f m it data -> fit_hypo pf rmatch o m = Ok hypo -> best_fit (fl_fit L m it data) m it o = Ok (v, p, s) ->
  fit_test L (m, it) data s hypo = Err e -> exists e', fit_run L E C w pf rmatch o f = ([], Err e').
Proof.
  intros L E C w pf rmatch o f m it data hypo v p s e [Hm Hd] Hh Hb Ht. unfold fit_run. rewrite Hm. cbn [bind]. rewrite Hd. cbn [bind fst snd]. rewrite Hh. cbn [bind]. rewrite Hb. cbn [bind].
  destruct (poi_values m p) as [pv|e']; cbn [bind]; [|eauto]. destruct (ft_out o) as [file|]; [destruct (fit_results _ _ _ _ _) as [d|e']; cbn [bind]; [|eauto]|cbn [bind]]; rewrite Ht; cbn [bind]; eauto.
Qed.
Print Assumptions C112_hypothesis_loses_results_refuted.

(** the test of the hypothesis, after the best fit: the test statistic of the hypothesis and, for exactly one POI, the test with q~mu, its p-value and CLs being defined *)
Theorem C112_hypothesis_test : forall L E C w pf rmatch o f m it data h v p s ops t, fit_inputs E C pf rmatch o f m it data -> fit_hypo pf rmatch o m = Ok (Some h) -> best_fit (fl_fit L m it data) m it o = Ok (v, p, s) ->
  fit_run L E C w pf rmatch o f = (ops, Ok t) ->
  exists tm q s', t = Some (tm, q) /\ opti_tmu m it (fl_fit L m it data) s h None = Ok (tm, s') /\
    (length (m_pois m) = 1%nat -> exists plr s'', q = Some plr /\ compute_fast_q (fl_dist L) CalcQMuTilda (fl_solver L) m it (fl_fit L m it) data s' h None = Ok (plr, s'') /\
       In "tmu" (keys (plr_ts plr)) /\ In "q~mu" (keys (plr_ts plr)) /\ In "pv" (keys (plr_pvs plr)) /\ In "cls" (keys (plr_pvs plr))) /\
    (length (m_pois m) <> 1%nat -> q = None).
Proof.
  intros L E C w pf rmatch o f m it data h v p s ops t [Hm Hd] Hh Hb H. unfold fit_run in H. rewrite Hm in H. cbn [bind] in H. rewrite Hd in H. cbn [bind fst snd] in H. rewrite Hh in H. cbn [bind] in H. rewrite Hb in H. cbn [bind] in H.
  assert (T : fit_test L (m, it) data s (Some h) = Ok t).
  { destruct (poi_values m p) as [pv|e']; cbn [bind] in H; [|discriminate]. destruct (ft_out o) as [file|].
    - destruct (fit_results _ _ _ _ _) as [d|e']; cbn [bind] in H; [|discriminate]. destruct (fit_test L (m, it) data s (Some h)) as [t'|e']; cbn [bind] in H; [|discriminate].
      destruct (save_ops C w (fit_file file) (Some "json") d) as [ops' [e'|]]; congruence.
    - cbn [bind] in H. destruct (fit_test L (m, it) data s (Some h)) as [t'|e']; cbn [bind] in H; congruence. }
  clear H. unfold fit_test in T. cbn [fst snd] in T. apply bind_Ok in T as ([tm s'] & T1 & T).
  assert (G : forall (d : dict pyval) k x, dgetE k d = Ok x -> In k (keys d)).
  { intros d k x Hx. unfold dgetE in Hx. destruct (dget k d) as [y|] eqn:Ey; [|discriminate]. unfold keys. apply in_map_iff. exists (k, y). split; [reflexivity|exact (dget_In _ _ _ Ey)]. }
  destruct (length (m_pois m) =? 1)%nat eqn:E1.
  - apply Nat.eqb_eq in E1. apply bind_Ok in T as (d0 & _ & T). apply bind_Ok in T as ([q s''] & T2 & T). apply bind_Ok in T as (a1 & A1 & T). apply bind_Ok in T as (a2 & A2 & T). apply bind_Ok in T as (a3 & A3 & T). apply bind_Ok in T as (a4 & A4 & T). injection T as <-.
    exists tm, (Some q), s'. split; [reflexivity|]. split; [exact T1|]. split; [|congruence]. intros _. exists q, s''. repeat (split; [reflexivity || exact T2 || eapply G; eassumption|]). eapply G; eassumption.
  - apply Nat.eqb_neq in E1. injection T as <-. exists tm, None, s'. split; [reflexivity|]. split; [exact T1|]. split; [contradiction|reflexivity].
Qed.
Print Assumptions C112_hypothesis_test.

(** intended: --iterations sets the number of iterations of the NP computation.  Refuted: it is ignored. *)
Definition with_niter (o : FitOpts) (n : nat) : FitOpts :=
  mkFt (ft_model o) (ft_data o) (ft_hypo o) (ft_out o) (ft_asimov o) (ft_setrange o) (ft_method o) (ft_linear o) n (ft_regularize o) (ft_cutoff o) (ft_verbosity o).
Theorem C112_iterations_refuted : forall L E C w pf rmatch o f n, fit_run L E C w pf rmatch (with_niter o n) f = fit_run L E C w pf rmatch o f.
Proof. reflexivity. Qed.
Print Assumptions C112_iterations_refuted.
(** intended: --regularize sets loose constraints on the free NPs.  Refuted: the run ends in an AttributeError. *)
Theorem C112_regularize_refuted : forall L E C w pf rmatch o f mi x, model_load_file E C f (new_model true (ft_linear o)) (ft_model o) None = Ok mi -> ft_regularize o = Some x -> fit_run L E C w pf rmatch o f = ([], Err AttributeError).
Proof. intros L E C w pf rmatch o f mi x Hm Hx. unfold fit_run, fit_model. rewrite Hm. cbn [bind]. rewrite Hx. reflexivity. Qed.
Print Assumptions C112_regularize_refuted.
(** a failed optimization is not reported as such: the run ends in a TypeError; nothing is stored *)
Theorem C112_failed_fit : forall L E C w pf rmatch o f m it data hypo s, fit_inputs E C pf rmatch o f m it data -> fit_hypo pf rmatch o m = Ok hypo -> minimize m it (fl_fit L m it data) (fit_minimizer o) None = Ok (RPair, s) ->
  fit_run L E C w pf rmatch o f = ([], Err TypeError).
Proof. intros L E C w pf rmatch o f m it data hypo s [Hm Hd] Hh Hs. unfold fit_run. rewrite Hm. cbn [bind]. rewrite Hd. cbn [bind fst snd]. rewrite Hh. cbn [bind]. unfold best_fit. rewrite Hs. reflexivity. Qed.
Print Assumptions C112_failed_fit.
(** intended: without a covariance matrix the file has "uncertainty": null and "correlation_matrix": null, as the code says.  Refuted: the run ends in an exception and nothing is stored. *)
Theorem C112_singular_refuted : forall L E C w pf rmatch o f m it data hypo v p s out, fit_inputs E C pf rmatch o f m it data -> fit_hypo pf rmatch o m = Ok hypo -> best_fit (fl_fit L m it data) m it o = Ok (v, p, s) -> ft_out o = Some out ->
  covariance_matrix (fl_inv L) E m it (pois p) (nps p) data = None -> exists e, fit_run L E C w pf rmatch o f = ([], Err e).
Proof.
  intros L E C w pf rmatch o f m it data hypo v p s out [Hm Hd] Hh Hb Ho Hc. unfold fit_run. rewrite Hm. cbn [bind]. rewrite Hd. cbn [bind fst snd]. rewrite Hh. cbn [bind]. rewrite Hb. cbn [bind].
  destruct (poi_values m p) as [pv|e']; cbn [bind]; [|eauto]. rewrite Ho, Hc. unfold fit_results. destruct (jnum v); cbn [bind]; [|eauto]. destruct (pars_dict p false true false); cbn [bind]; eauto.
Qed.
Print Assumptions C112_singular_refuted.
(** Refuted: the results of a POI that is called like one of the entries of the file are lost *)
Theorem C112_name_clash_refuted : forall L E C w pf rmatch o f base ops t m it data, faithful C -> output_base o base -> fit_inputs E C pf rmatch o f m it data -> fit_run L E C w pf rmatch o f = (ops, Ok t) ->
  exists d l, load_file C (run_ops ops f) (base ++ ".json") (Some "json") = Ok d /\ dget "correlation_matrix" d = Some (JList l).
Proof.
  intros L E C w pf rmatch o f base ops t m it data HC Ho [Hm Hd] H. destruct (run_inv _ _ _ _ _ _ _ _ _ _ H) as (m' & it' & data' & hypo & v & p & s & [Hm' Hd'] & _ & Hb & _ & Hf).
  rewrite Hm in Hm'. injection Hm' as <- <-. rewrite Hd in Hd'. injection Hd' as <-. destruct (output_file o base Ho) as (out & Eo & Ef). rewrite Eo in Hf. destruct Hf as (d & Hres & Hsave). rewrite Ef in Hsave.
  destruct (C89_saved_file_is_loaded _ _ _ _ _ _ f HC Hsave) as [Hload _]. exists d. unfold fit_results in Hres. apply bind_Ok in Hres as (? & _ & Hres). apply bind_Ok in Hres as (? & _ & Hres). destruct (covariance_matrix _ _ _ _ _ _ _); [|discriminate].
  apply bind_Ok in Hres as (? & _ & Hres). apply bind_Ok in Hres as (? & _ & Hres). apply bind_Ok in Hres as (? & _ & Hres). injection Hres as <-. eexists. split; [exact Hload|]. apply dget_dset_eq.
Qed.
Print Assumptions C112_name_clash_refuted.
