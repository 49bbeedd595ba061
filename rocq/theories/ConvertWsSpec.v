(** What the conversion of a workspace channel computes for each sample (closed form of the programs of ConvertWsFacts). *)
From Verif Require Import Py PyFacts ConvertWs ConvertWsFacts.
Local Open Scope string_scope.
Local Open Scope list_scope.
Local Open Scope R_scope.

Lemma foldM_snoc {A S} (f : S -> A -> res S) l a : forall s, foldM f (l ++ [a]) s = bind (foldM f l s) (fun s' => f s' a).
Proof. induction l as [|x l IH]; intros s; cbn; [destruct (f s a); reflexivity|]. destruct (f s x) as [s'|]; cbn; [apply IH|reflexivity]. Qed.
Lemma set_last_snoc k x t d : set_last k x (t ++ [d]) = t ++ [dset k x d].
Proof. induction t as [|a t IH]; [reflexivity|]. cbn [app]. cbn [set_last]. destruct (t ++ [d]) eqn:E; [destruct t; discriminate|]. now rewrite IH. Qed.
Lemma push_last_snoc x t r : push_last x (t ++ [r]) = t ++ [r ++ [x]].
Proof. induction t as [|a t IH]; [reflexivity|]. cbn [app]. cbn [push_last]. destruct (t ++ [r]) eqn:E; [destruct t; discriminate|]. now rewrite IH. Qed.

(** the table of impacts of one bin: for each variation in turn, the entry of its key *)
Definition table (fmt : R -> string) (eps y0 : R) (Y : R -> R) (variations : list R) (d : dict R) : res (dict R) :=
  foldM (fun d v => let! x := imp_value eps y0 (Y v) in Ok (dset (fmt v) x d)) variations d.

Section One.
Context (rng : ranges) (fmt : R -> string) (trim : R -> R) (eps : R) (I : nat -> env -> R) (dflt : nat) (variations : list R) (valid : option (list R)) (e0 : env) (ns : list string).
Notation Y b k s e := (sep ns (I b) dflt k (w_norm s) e).
Definition moved (p : WPar) (x : R) : env := put (p_name p) (clip (rng (p_name p)) (p_nominal p + x * p_error p)) e0.

(** everything but the entries of one NP, and the working yields *)
Definition rest (p : string) (s s' : WSample) : Prop :=
  w_norm s' = w_norm s /\ w_nom s' = w_nom s /\ dget "nominal" (w_yields s') = dget "nominal" (w_yields s) /\
  (forall q, q <> p -> dget q (w_imps s') = dget q (w_imps s) /\ dget q (w_valid s') = dget q (w_valid s)).
Lemma rest_refl p s : rest p s s. Proof. repeat split. Qed.
Lemma rest_trans p a b c : rest p a b -> rest p b c -> rest p a c.
Proof. intros (A1 & A2 & A3 & A4) (B1 & B2 & B3 & B4). split; [congruence|]. split; [congruence|]. split; [congruence|]. intros q Hq. destruct (A4 q Hq), (B4 q Hq). split; congruence. Qed.
Lemma upd_fields key e k s : w_nom (upd_y ns (I 0%nat) dflt key e k s) = w_nom s.
Proof. unfold upd_y, saved. destruct (w_norm s); reflexivity. Qed.

Lemma var_one b k p s v s' t d y0 : P_var rng fmt eps I dflt e0 ns b k p s v = Ok s' ->
  dget (p_name p) (w_imps s) = Some (t ++ [d]) -> dget "nominal" (w_yields s) = Some y0 ->
  exists x, imp_value eps y0 (Y b k s (moved p (v * eps))) = Ok x /\ dget (p_name p) (w_imps s') = Some (t ++ [dset (fmt v) x d]) /\
    dget (p_name p) (w_valid s') = dget (p_name p) (w_valid s) /\ rest (p_name p) s s'.
Proof.
  intros H Ht Hy. unfold P_var, record_impact, sample_impact, dgetE in H.
  set (e := put (p_name p) (clip (rng (p_name p)) (p_nominal p + v * (p_error p * eps))) e0) in *.
  assert (Ee : moved p (v * eps) = e) by (unfold moved, e; f_equal; f_equal; ring). rewrite Ee.
  set (u := upd_y ns (I b) dflt "var" e k s) in *.
  assert (U1 : w_yields u = dset "var" (Y b k s e) (w_yields s)) by (unfold u, upd_y, saved; destruct (w_norm s) eqn:E; cbn; rewrite ?E; reflexivity).
  assert (U2 : w_imps u = w_imps s /\ w_valid u = w_valid s /\ w_norm u = w_norm s /\ w_nom u = w_nom s) by (unfold u, upd_y, saved; destruct (w_norm s) eqn:E; cbn; auto).
  destruct U2 as (U2 & U3 & U4 & U5). clearbody u. rewrite U1, U2, Ht in H. rewrite dget_dset_eq in H. cbn [bind] in H. rewrite dget_dset_ne, Hy in H by discriminate. cbn [bind] in H.
  fold (imp_value eps y0 (Y b k s e)) in H. destruct (imp_value eps y0 (Y b k s e)) as [x|]; [|discriminate]. cbn [bind] in H. injection H as <-.
  exists x. split; [reflexivity|]. unfold rest. cbn. rewrite dget_dset_eq, set_last_snoc. split; [reflexivity|]. split; [now rewrite U3|].
  split; [exact U4|]. split; [exact U5|]. split; [rewrite U1; apply dget_dset_ne; discriminate|]. intros q Hq. rewrite dget_dset_ne by exact Hq. rewrite U3. split; reflexivity.
Qed.
Lemma var_fold b k p vs : forall s s' t d y0, foldM (P_var rng fmt eps I dflt e0 ns b k p) vs s = Ok s' ->
  dget (p_name p) (w_imps s) = Some (t ++ [d]) -> dget "nominal" (w_yields s) = Some y0 ->
  exists d', table fmt eps y0 (fun v => Y b k s (moved p (v * eps))) vs d = Ok d' /\ dget (p_name p) (w_imps s') = Some (t ++ [d']) /\
    dget (p_name p) (w_valid s') = dget (p_name p) (w_valid s) /\ rest (p_name p) s s'.
Proof.
  induction vs as [|v vs IH]; intros s s' t d y0 H Ht Hy; cbn in H.
  - injection H as <-. exists d. split; [reflexivity|]. split; [exact Ht|]. split; [reflexivity|apply rest_refl].
  - destruct (P_var rng fmt eps I dflt e0 ns b k p s v) as [s1|] eqn:E; [|discriminate]. cbn [bind] in H.
    destruct (var_one b k p s v s1 t d y0 E Ht Hy) as (x & X1 & X2 & X3 & X4). destruct X4 as (N1 & X4).
    destruct (IH s1 s' t _ y0 H X2 ltac:(destruct X4 as (_ & X4 & _); congruence)) as (d' & D1 & D2 & D3 & D4).
    exists d'. split; [unfold table in *; cbn [foldM]; rewrite X1; cbn [bind]; rewrite N1 in D1; exact D1|]. split; [exact D2|]. split; [congruence|]. apply (rest_trans _ _ s1); [split; assumption|exact D4].
Qed.
Definition vrow (b k : nat) (o : option string) (p : WPar) (y0 : R) (pts : list R) : list R :=
  map (fun v => trim (sep ns (I b) dflt k o (moved p v) / Rmax y0 (1 / 100000))) pts.
Lemma valid_fold b k p vs : forall s s' t r y0, foldM (P_valid rng trim I dflt e0 ns b k p) vs s = Ok s' ->
  dget (p_name p) (w_valid s) = Some (t ++ [r]) -> dget "nominal" (w_yields s) = Some y0 ->
  dget (p_name p) (w_valid s') = Some (t ++ [r ++ vrow b k (w_norm s) p y0 vs]) /\ dget (p_name p) (w_imps s') = dget (p_name p) (w_imps s) /\ rest (p_name p) s s'.
Proof.
  induction vs as [|v vs IH]; intros s s' t r y0 H Ht Hy; cbn in H.
  - injection H as <-. cbn. rewrite app_nil_r. split; [exact Ht|]. split; [reflexivity|apply rest_refl].
  - destruct (P_valid rng trim I dflt e0 ns b k p s v) as [s1|] eqn:E; [|discriminate]. cbn [bind] in H.
    unfold P_valid, record_valid, dgetE in E. fold (moved p v) in E. set (u := upd_y ns (I b) dflt "valid" (moved p v) k s) in *.
    assert (U1 : w_yields u = dset "valid" (Y b k s (moved p v)) (w_yields s)) by (unfold u, upd_y, saved; destruct (w_norm s) eqn:En; cbn; rewrite ?En; reflexivity).
    assert (U2 : w_imps u = w_imps s /\ w_valid u = w_valid s /\ w_norm u = w_norm s /\ w_nom u = w_nom s) by (unfold u, upd_y, saved; destruct (w_norm s) eqn:En; cbn; auto).
    destruct U2 as (U2 & U3 & U4 & U5). clearbody u. rewrite U1, U3, Ht in E. rewrite dget_dset_eq in E. cbn [bind] in E. rewrite dget_dset_ne, Hy in E by discriminate. cbn [bind] in E. injection E as <-.
    destruct (IH _ s' t (r ++ [trim (Y b k s (moved p v) / Rmax y0 (1 / 100000))]) y0 H) as (D1 & D2 & D3).
    + cbn. now rewrite dget_dset_eq, push_last_snoc.
    + cbn. rewrite U1, dget_dset_ne by discriminate. exact Hy.
    + cbn in D1. rewrite U4 in D1. cbn [vrow map]. split; [rewrite D1; now rewrite <- app_assoc|]. split; [rewrite D2; cbn; now rewrite U2|].
      apply (rest_trans _ _ (with_valid (dset (p_name p) (push_last (trim (Y b k s (moved p v) / Rmax y0 (1 / 100000))) (t ++ [r])) (w_valid s)) u)); [|exact D3].
      split; [exact U4|]. split; [exact U5|]. split; [cbn; rewrite U1; apply dget_dset_ne; discriminate|]. intros q Hq. cbn. rewrite U2, dget_dset_ne by exact Hq. split; reflexivity.
Qed.
Definition vrows (b k : nat) (o : option string) (p : WPar) (y0 : R) : list (list R) :=
  match valid with None => [] | Some pts => [vrow b k o p y0 pts] end.
Lemma par_one b k p s s' t tv y0 : P_par rng fmt trim eps I dflt variations valid e0 ns b k s p = Ok s' ->
  dget (p_name p) (w_imps s) = Some t -> dget (p_name p) (w_valid s) = Some tv -> dget "nominal" (w_yields s) = Some y0 ->
  exists d, table fmt eps y0 (fun v => Y b k s (moved p (v * eps))) variations [] = Ok d /\ dget (p_name p) (w_imps s') = Some (t ++ [d]) /\
    dget (p_name p) (w_valid s') = Some (tv ++ vrows b k (w_norm s) p y0) /\ rest (p_name p) s s'.
Proof.
  intros H Ht Hv Hy. unfold P_par, new_bin, dgetE in H. rewrite Ht in H. cbn [bind] in H.
  set (s1 := with_imps (dset (p_name p) (t ++ [[]]) (w_imps s)) s) in *.
  destruct (foldM (P_var rng fmt eps I dflt e0 ns b k p) variations s1) as [s2|] eqn:E; [|discriminate]. cbn [bind] in H.
  assert (R1 : rest (p_name p) s s1) by (split; [reflexivity|]; split; [reflexivity|]; split; [reflexivity|]; intros q Hq; cbn; rewrite dget_dset_ne by exact Hq; split; reflexivity).
  destruct (var_fold b k p variations s1 s2 t [] y0 E) as (d & D1 & D2 & D3 & D4); [cbn; apply dget_dset_eq|exact Hy|].
  exists d. split; [exact D1|]. change (w_valid s1) with (w_valid s) in D3. rewrite Hv in D3. assert (R2 : rest (p_name p) s s2) by (eapply rest_trans; eassumption).
  unfold vrows. destruct valid as [pts|].
  - unfold new_valid_bin, dgetE in H. rewrite D3 in H. cbn [bind] in H. set (s3 := with_valid (dset (p_name p) (tv ++ [[]]) (w_valid s2)) s2) in *.
    assert (Hy3 : dget "nominal" (w_yields s3) = Some y0) by (cbn; destruct R2 as (_ & _ & X & _); now rewrite X).
    destruct (valid_fold b k p pts s3 s' tv [] y0 H (dget_dset_eq _ _ _) Hy3) as (F1 & F2 & F3).
    split; [rewrite F2; exact D2|]. split; [rewrite F1; cbn; destruct R2 as (-> & _); reflexivity|].
    eapply rest_trans; [exact R2|]. eapply rest_trans; [|exact F3]. split; [reflexivity|]; split; [reflexivity|]; split; [reflexivity|]; intros q Hq; cbn; rewrite dget_dset_ne by exact Hq; split; reflexivity.
  - injection H as <-. split; [exact D2|]. split; [now rewrite D3, app_nil_r|exact R2].
Qed.
Lemma par_fold b k pars : NoDup (map p_name pars) -> forall s s' y0, foldM (P_par rng fmt trim eps I dflt variations valid e0 ns b k) pars s = Ok s' -> dget "nominal" (w_yields s) = Some y0 ->
  w_norm s' = w_norm s /\ w_nom s' = w_nom s /\
  (forall p t tv, In p pars -> dget (p_name p) (w_imps s) = Some t -> dget (p_name p) (w_valid s) = Some tv ->
     exists d, table fmt eps y0 (fun v => Y b k s (moved p (v * eps))) variations [] = Ok d /\ dget (p_name p) (w_imps s') = Some (t ++ [d]) /\
       dget (p_name p) (w_valid s') = Some (tv ++ vrows b k (w_norm s) p y0)) /\
  (forall q, ~ In q (map p_name pars) -> dget q (w_imps s') = dget q (w_imps s) /\ dget q (w_valid s') = dget q (w_valid s)).
Proof.
  intros ND. induction pars as [|p pars IH]; intros s s' y0 H Hy; cbn in H.
  - injection H as <-. repeat split; intros; contradiction.
  - inversion ND as [|? ? Hni ND']; subst. destruct (P_par rng fmt trim eps I dflt variations valid e0 ns b k s p) as [s1|] eqn:E; [|discriminate]. cbn [bind] in H.
    assert (exists t, dget (p_name p) (w_imps s) = Some t) as (t0 & Ht0).
    { unfold P_par, new_bin, dgetE in E. destruct (dget (p_name p) (w_imps s)) as [t|]; [eauto|discriminate]. }
    assert (RR : rest (p_name p) s s1 /\ forall tv, dget (p_name p) (w_valid s) = Some tv ->
        exists d, table fmt eps y0 (fun v => Y b k s (moved p (v * eps))) variations [] = Ok d /\ dget (p_name p) (w_imps s1) = Some (t0 ++ [d]) /\ dget (p_name p) (w_valid s1) = Some (tv ++ vrows b k (w_norm s) p y0)).
    { destruct (dget (p_name p) (w_valid s)) as [tv0|] eqn:Etv.
      - destruct (par_one b k p s s1 t0 tv0 y0 E Ht0 Etv Hy) as (d & D1 & D2 & D3 & D4). split; [exact D4|]. intros tv Htv. injection Htv as <-. eauto.
      - split; [|intros; discriminate]. unfold P_par, new_bin, dgetE in E. rewrite Ht0 in E. cbn [bind] in E.
        set (s2 := with_imps (dset (p_name p) (t0 ++ [[]]) (w_imps s)) s) in *.
        destruct (foldM (P_var rng fmt eps I dflt e0 ns b k p) variations s2) as [s3|] eqn:E3; [|discriminate]. cbn [bind] in E.
        destruct (var_fold b k p variations s2 s3 t0 [] y0 E3) as (d & D1 & D2 & D3 & D4); [cbn; apply dget_dset_eq|exact Hy|].
        destruct valid as [pts|]; [unfold new_valid_bin, dgetE in E; rewrite D3 in E; change (w_valid s2) with (w_valid s) in E; rewrite Etv in E; discriminate|].
        injection E as <-. eapply rest_trans; [|exact D4]. split; [reflexivity|]; split; [reflexivity|]; split; [reflexivity|]; intros q Hq; cbn; rewrite dget_dset_ne by exact Hq; split; reflexivity. }
    destruct RR as ((R1 & R2 & R3 & R4) & RP).
    destruct (IH ND' s1 s' y0 H ltac:(congruence)) as (I1 & I2 & I3 & I4). split; [congruence|]. split; [congruence|]. split.
    + intros q t tv [<-|Hq] Ht Htv.
      * destruct (RP tv Htv) as (d & D1 & D2 & D3). rewrite Ht in Ht0. injection Ht0 as <-. exists d. split; [exact D1|]. destruct (I4 (p_name p) Hni) as (X1 & X2). split; congruence.
      * assert (Hne : p_name q <> p_name p) by (intros X; apply Hni; rewrite <- X; now apply in_map). destruct (R4 _ Hne) as (X1 & X2).
        destruct (I3 q t tv Hq ltac:(congruence) ltac:(congruence)) as (d & D1 & D2 & D3). rewrite R1 in D1, D3. eauto.
    + intros q Hq. cbn in Hq. assert (Hne : q <> p_name p) by (intros ->; apply Hq; now left). destruct (R4 _ Hne) as (X1 & X2).
      destruct (I4 q (fun X => Hq (or_intror X))) as (Y1 & Y2). split; congruence.
Qed.
Lemma set_nth_snoc {A} (l : list A) x y m : set_nth (length l) x (l ++ y :: m) = l ++ x :: m.
Proof. induction l as [|a l IH]; cbn; [reflexivity|now rewrite IH]. Qed.
Lemma init_fold {A : Type} pars q : forall d : dict (list A), In q (map p_name pars) -> dget q (fold_left (fun d p => dset (p_name p) [] d) pars d) = Some [].
Proof.
  induction pars as [|p pars IH] using rev_ind; intros d H; [contradiction|]. rewrite fold_left_app. cbn. rewrite map_app, in_app_iff in H. cbn in H.
  destruct (String.eqb q (p_name p)) eqn:E.
  - apply String.eqb_eq in E. subst. apply dget_dset_eq.
  - apply String.eqb_neq in E. rewrite dget_dset_ne by exact E. apply IH. destruct H as [H|[H|[]]]; [exact H|congruence].
Qed.

(** the loop over the bins *)
Definition bins_done (pars : list WPar) (nbins k m : nat) (o : option string) (s : WSample) : Prop :=
  w_norm s = o /\ w_nom s = map (fun b => trim (sep ns (I b) dflt k o e0)) (seq 0 m) ++ repeat 0 (nbins - m) /\
  forall p, In p pars ->
    (exists tables, dget (p_name p) (w_imps s) = Some tables /\ length tables = m /\
       forall b, (b < m)%nat -> table fmt eps (sep ns (I b) dflt k o e0) (fun v => sep ns (I b) dflt k o (moved p (v * eps))) variations [] = Ok (nth b tables [])) /\
    dget (p_name p) (w_valid s) = Some (flat_map (fun b => vrows b k o p (sep ns (I b) dflt k o e0)) (seq 0 m)).
Lemma bins_fold pars nbins k s0 : NoDup (map p_name pars) -> forall m s', (m <= nbins)%nat ->
  foldM (P_bin rng fmt trim eps I dflt variations valid e0 ns pars k) (seq 0 m) (start nbins pars e0 s0) = Ok s' -> bins_done pars nbins k m (w_norm s0) s'.
Proof.
  intros ND. induction m as [|m IH]; intros s' Hm H.
  - cbn in H. injection H as <-. unfold bins_done, start. cbn. split; [destruct (w_norm s0) eqn:E; cbn; auto|]. split; [now rewrite Nat.sub_0_r|].
    intros p Hp. assert (In (p_name p) (map p_name pars)) by now apply in_map.
    split; [exists []; split; [now apply init_fold|]; split; [reflexivity|intros; lia]|now apply init_fold].
  - rewrite seq_S, foldM_snoc in H. cbn [plus] in H. destruct (foldM _ (seq 0 m) _) as [s|] eqn:E; [|discriminate]. cbn [bind] in H.
    destruct (IH s ltac:(lia) eq_refl) as (B1 & B2 & B3).
    unfold P_bin, set_nominal, dgetE in H. set (u := upd_y ns (I m) dflt "nominal" e0 k s) in *.
    assert (U1 : w_yields u = dset "nominal" (Y m k s e0) (w_yields s)) by (unfold u, upd_y, saved; destruct (w_norm s) eqn:En; cbn; rewrite ?En; reflexivity).
    assert (U2 : w_imps u = w_imps s /\ w_valid u = w_valid s /\ w_norm u = w_norm s /\ w_nom u = w_nom s) by (unfold u, upd_y, saved; destruct (w_norm s) eqn:En; cbn; auto).
    destruct U2 as (U2 & U3 & U4 & U5). clearbody u. rewrite U1, dget_dset_eq in H. cbn [bind] in H.
    destruct (par_fold m k pars ND _ s' (Y m k s e0) H) as (F1 & F2 & F3 & F4); [cbn; rewrite U1; apply dget_dset_eq|]. cbn in F1, F2, F3. rewrite U4, B1 in *.
    split; [congruence|]. split.
    + rewrite F2, U5, B2. rewrite seq_S, map_app. cbn [map plus].
      replace (nbins - m)%nat with (S (nbins - S m)) by lia. cbn [repeat].
      assert (L : length (map (fun b => trim (sep ns (I b) dflt k (w_norm s0) e0)) (seq 0 m)) = m) by now rewrite map_length, seq_length.
      rewrite <- L at 1. rewrite set_nth_snoc, <- app_assoc. reflexivity.
    + intros p Hp. destruct (B3 p Hp) as ((tables & T1 & T2 & T3) & V1). rewrite U2, U3 in F3.
      destruct (F3 p tables _ Hp T1 V1) as (d & D1 & D2 & D3). split.
      * exists (tables ++ [d]). split; [exact D2|]. split; [rewrite app_length; cbn; lia|]. intros b Hb.
        destruct (Nat.eq_dec b m) as [->|Hne]; [rewrite app_nth2 by lia; rewrite T2, Nat.sub_diag; exact D1|].
        rewrite app_nth1 by lia. apply T3. lia.
      * rewrite seq_S, flat_map_app. cbn [flat_map plus]. rewrite app_nil_r. exact D3.
Qed.
End One.

(** looking up a table *)
Lemma table_lookup fmt eps y0 Y vs : forall d d', table fmt eps y0 Y vs d = Ok d' -> forall v, In v vs -> (forall v', In v' vs -> fmt v' = fmt v -> v' = v) ->
  exists x, dget (fmt v) d' = Some x /\ imp_value eps y0 (Y v) = Ok x.
Proof.
  induction vs as [|a vs IH] using rev_ind; intros d d' H v Hv Hd; [contradiction|]. unfold table in H. rewrite foldM_snoc in H.
  destruct (foldM _ vs d) as [d1|] eqn:E; [|discriminate]. cbn [bind] in H. destruct (imp_value eps y0 (Y a)) as [x|] eqn:Ex; [|discriminate]. injection H as <-.
  destruct (string_dec (fmt a) (fmt v)) as [Ea|Ea].
  - assert (a = v) by (apply Hd; [apply in_or_app; right; now left|exact Ea]). subst. exists x. split; [apply dget_dset_eq|exact Ex].
  - rewrite dget_dset_ne by (intros X; apply Ea; now symmetry). apply (IH d d1 E); [|intros v' Hv'; apply Hd; apply in_or_app; now left].
    apply in_app_or in Hv. destruct Hv as [Hv|[Hv|[]]]; [exact Hv|congruence].
Qed.
Lemma keys_dset_app {V} k (x : V) d : ~ In k (keys d) -> keys (dset k x d) = keys d ++ [k].
Proof.
  induction d as [|[k' v] d IH]; intros H; [reflexivity|]. cbn in *. destruct (String.eqb k k') eqn:E; [apply String.eqb_eq in E; subst; exfalso; apply H; now left|].
  cbn. f_equal. apply IH. intros X. apply H. now right.
Qed.
Lemma table_keys fmt eps y0 Y vs : NoDup (map fmt vs) -> forall d', table fmt eps y0 Y vs [] = Ok d' -> keys d' = map fmt vs.
Proof.
  induction vs as [|a vs IH] using rev_ind; intros ND d' H; [injection H as <-; reflexivity|]. unfold table in H. rewrite foldM_snoc in H.
  match type of H with (bind ?m _ = _) => destruct m as [d1|] eqn:E; [|discriminate] end. cbn [bind] in H. destruct (imp_value eps y0 (Y a)) as [x|]; [|discriminate]. injection H as <-.
  rewrite map_app in *. cbn [map] in *. apply NoDup_remove in ND. rewrite app_nil_r in ND. destruct ND as (ND & Hni). pose proof (IH ND d1 E) as K.
  rewrite keys_dset_app; [now rewrite K|]. now rewrite K.
Qed.
