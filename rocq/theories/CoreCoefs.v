(** The loop that fills the arrays of impact coefficients (core.py:503-528), and the impact factors. *)
From Verif Require Import Py PyFacts Base Expressions ExprSpec Norms Sample SampleFacts Channels ChannelFacts Params ParamsFacts Core CoreFacts CoreSpec RSort Vander.
Local Open Scope string_scope.
Local Open Scope list_scope.

Lemma set_slice_flat B P V s p k f arr s' b p' v : (b < B)%nat -> (p' < P)%nat -> (v < V)%nat ->
  set_slice B P V s p k f arr (flat B P V s' b p' v) =
  if ((s' =? s) && (p' =? p) && (v <? k))%nat then f b v else arr (flat B P V s' b p' v).
Proof.
  intros Hb Hp Hv. unfold set_slice, flat.
  assert (E1 : ((((s' * B + b) * P + p') * V + v) mod V = v)%nat).
  { rewrite Nat.add_comm, Nat.mod_add by lia. apply Nat.mod_small; exact Hv. }
  assert (E2 : ((((s' * B + b) * P + p') * V + v) / V = (s' * B + b) * P + p')%nat).
  { rewrite Nat.div_add_l by lia. rewrite (Nat.div_small v V Hv). lia. }
  rewrite E1, E2.
  assert (E3 : (((s' * B + b) * P + p') mod P = p')%nat) by (rewrite Nat.add_comm, Nat.mod_add by lia; apply Nat.mod_small; exact Hp).
  assert (E4 : (((s' * B + b) * P + p') / P = s' * B + b)%nat) by (rewrite Nat.div_add_l by lia; rewrite (Nat.div_small p' P Hp); lia).
  rewrite E3, E4.
  assert (E5 : ((s' * B + b) mod B = b)%nat) by (rewrite Nat.add_comm, Nat.mod_add by lia; apply Nat.mod_small; exact Hb).
  assert (E6 : ((s' * B + b) / B = s')%nat) by (rewrite Nat.div_add_l by lia; rewrite (Nat.div_small b B Hb); lia).
  rewrite E5, E6. reflexivity.
Qed.

(** blocks of a concatenation *)
Lemma nth_concat_block {A} (chs : dict Channel) (bl : list (list A)) (d : A) i k c x b :
  Forall2 (fun kc (r : list A) => length r = nbins (snd kc)) chs bl -> nth_error chs i = Some (k, c) -> nth_error bl i = Some x ->
  (b < nbins c)%nat -> nth (total_bins (firstn i chs) + b) (concat bl) d = nth b x d.
Proof.
  intros HF. revert i. induction HF as [|[k' c'] r l bl Hr HF IH]; intros [|i] Hi Hx Hb; cbn in Hi, Hx; try discriminate.
  - inversion Hi; inversion Hx; subst. cbn [firstn total_bins fold_right concat]. cbn in Hr. rewrite app_nth1 by lia. reflexivity.
  - cbn [firstn]. cbn [concat]. change (total_bins ((k', c') :: firstn i l)) with (nbins c' + total_bins (firstn i l))%nat.
    cbn in Hr. rewrite app_nth2 by lia. rewrite Hr. replace (nbins c' + total_bins (firstn i l) + b - nbins c')%nat with (total_bins (firstn i l) + b)%nat by lia.
    apply IH; auto.
Qed.

Lemma off_at chs i k c : NoDup (keys chs) -> nth_error chs i = Some (k, c) -> dget k (offsets_of chs 0) = Some (total_bins (firstn i chs)).
Proof.
  intros HN Hi. destruct (nth_error_split _ _ Hi) as (a & r & -> & <-). rewrite firstn_app, Nat.sub_diag, firstn_O, firstn_all, app_nil_r.
  apply off_split. unfold keys in *. rewrite map_app in HN. cbn in HN. apply NoDup_remove_2 in HN. intros H. apply HN. apply in_or_app. now left.
Qed.

Lemma sym_row_spec E chs par s row : sym_row E chs par s = Ok row -> exists bl, row = concat bl /\
  Forall2 (fun kc r => match sample_at (snd kc) s with
                       | Some sm => sym_impact (e_fmt E) sm par = Ok (Some r)
                       | None => r = repeat 0 (nbins (snd kc)) end) chs bl.
Proof.
  unfold sym_row. intros H. apply bind_Ok in H as (bl & Hm & H). inversion H; subst. exists bl. split; [reflexivity|].
  apply mapM_Forall2 in Hm. eapply Forall2_impl_in; [|exact Hm]. intros a r _ Ha. cbn in Ha. destruct (sample_at (snd a) s).
  - apply bind_Ok in Ha as ([x|] & Hx & Ha); inversion Ha; subst; exact Hx.
  - congruence.
Qed.

(** one step of the loop *)
Lemma coef_step_inv E m chs B P st p par s st' : coef_step E m chs B P st ((p, par), s) = Ok st' ->
  exists sym, sym_row E chs par s = Ok sym /\ length sym = B /\
   cs_sym st' = (fun s' b' p' => if ((s' =? s) && (p' =? p))%nat then nth b' sym 0 else cs_sym st s' b' p') /\
   (m_asym m = false -> cs_nvar st' = cs_nvar st /\ cs_pos st' = cs_pos st /\ cs_neg st' = cs_neg st) /\
   (m_asym m = true -> exists cl kp fp kn fn nf, mapM (channel_coeffs E (negb (m_linear m)) par s) chs = Ok cl /\
      concat_coeffs B (map fst cl) = Ok (kp, fp) /\ concat_coeffs B (map snd cl) = Ok (kn, fn) /\
      (kn = kp -> nf = fn) /\
      cs_nvar st' = fold_left (fun n c => if ((n <? length (fst c)) || (n <? length (snd c)))%nat
                                      then Nat.max (length (fst c)) (length (snd c)) else n) cl (cs_nvar st) /\
      cs_pos st' = set_slice B P (cs_nvar st') s p kp fp (cs_pos st) /\
      cs_neg st' = set_slice B P (cs_nvar st') s p kp nf (cs_neg st)).
Proof.
  unfold coef_step. intros H. apply bind_Ok in H as (sym & Hs & H). exists sym. split; [exact Hs|].
  destruct (length sym =? B)%nat eqn:EB; cbn [negb] in H; [|discriminate]. apply Nat.eqb_eq in EB. split; [exact EB|].
  destruct (m_asym m).
  - apply bind_Ok in H as (cl & Hcl & H). apply bind_Ok in H as ([kp fp] & Hp & H). apply bind_Ok in H as ([kn fn] & Hn & H).
    apply bind_Ok in H as (nf & Hf & H). inversion H; subst st'; clear H. cbn [cs_sym cs_nvar cs_pos cs_neg fst snd].
    split; [reflexivity|]. split; [discriminate|]. intros _. exists cl, kp, fp, kn, fn, nf. repeat split; auto.
    intros ->. cbn [fst snd] in Hf. rewrite Nat.eqb_refl in Hf. congruence.
  - inversion H; subst. cbn. repeat split; auto. discriminate.
Qed.

Lemma nvar_fold_max (cl : list (list (list R) * list (list R))) n :
  let r := fold_left (fun n c => if ((n <? length (fst c)) || (n <? length (snd c)))%nat
                                      then Nat.max (length (fst c)) (length (snd c)) else n) cl n in
  (n <= r)%nat /\ (forall c, In c cl -> length (fst c) <= r /\ length (snd c) <= r)%nat /\
  (forall V, (n <= V)%nat -> (forall c, In c cl -> length (fst c) <= V /\ length (snd c) <= V)%nat -> (r <= V)%nat).
Proof.
  revert n; induction cl as [|c cl IH]; intros n; cbn [fold_left].
  - split; [lia|]. split; [intros c []|auto].
  - match goal with |- context [fold_left _ cl ?x] => set (n1 := x) end. destruct (IH n1) as (A & B & C).
    assert (H1 : (n <= n1 /\ length (fst c) <= n1 /\ length (snd c) <= n1)%nat).
    { unfold n1. destruct (n <? length (fst c))%nat eqn:E1, (n <? length (snd c))%nat eqn:E2; cbn [orb];
      rewrite ?Nat.ltb_lt, ?Nat.ltb_ge in *; lia. }
    split; [lia|]. split.
    + intros c' [<-|Hin]; [lia|]. apply B; exact Hin.
    + intros V Hn Hc. apply C; [|intros; apply Hc; now right]. specialize (Hc c (or_introl eq_refl)). unfold n1. destruct (_ || _); lia.
Qed.

Lemma coef_step_nvar E m chs B P st x st' : coef_step E m chs B P st x = Ok st' -> (cs_nvar st <= cs_nvar st')%nat.
Proof.
  destruct x as [[p par] s]. intros H. apply coef_step_inv in H as (sym & _ & _ & _ & H1 & H2). destruct (m_asym m).
  - destruct (H2 eq_refl) as (cl & kp & fp & kn & fn & nf & _ & _ & _ & _ & -> & _). apply nvar_fold_max.
  - destruct (H1 eq_refl) as (-> & _). lia.
Qed.
Lemma coef_loop_nvar E m chs B P L : forall st st', foldM (coef_step E m chs B P) L st = Ok st' -> (cs_nvar st <= cs_nvar st')%nat.
Proof.
  induction L as [|x L IH]; cbn [foldM]; intros st st' H; [inversion H; lia|].
  apply bind_Ok in H as (st1 & H1 & H). apply coef_step_nvar in H1. apply IH in H. lia.
Qed.

(** entries after a step *)
Lemma coef_step_sym E m chs B P st p par s st' s' b p' : coef_step E m chs B P st ((p, par), s) = Ok st' ->
  cs_sym st' s' b p' = if ((s' =? s) && (p' =? p))%nat then
    nth b (match sym_row E chs par s with Ok r => r | _ => [] end) 0 else cs_sym st s' b p'.
Proof.
  intros H. apply coef_step_inv in H as (sym & Hs & _ & -> & _). cbn. rewrite Hs. reflexivity.
Qed.

(** the symmetric coefficients at the end of the loop *)
Definition key_of (x : (nat * string) * nat) : nat * nat := (fst (fst x), snd x).
Lemma coef_loop_sym_other E m chs B P L s b p : forall st st', foldM (coef_step E m chs B P) L st = Ok st' ->
  ~ In (p, s) (map key_of L) -> cs_sym st' s b p = cs_sym st s b p.
Proof.
  induction L as [|[[q par] s'] L IH]; cbn [foldM map In]; intros st st' H Hn; [inversion H; reflexivity|].
  apply bind_Ok in H as (st1 & H1 & H). rewrite (IH _ _ H) by tauto. rewrite (coef_step_sym _ _ _ _ _ _ _ _ _ _ _ _ _ H1).
  destruct ((s =? s')%nat && (p =? q)%nat) eqn:Eq; [|reflexivity]. apply andb_true_iff in Eq as [E1 E2].
  apply Nat.eqb_eq in E1, E2. subst. exfalso. apply Hn. left. reflexivity.
Qed.
Lemma coef_loop_sym E m chs B P L s b p par : forall st st', foldM (coef_step E m chs B P) L st = Ok st' ->
  NoDup (map key_of L) -> In ((p, par), s) L -> exists row, sym_row E chs par s = Ok row /\ length row = B /\ cs_sym st' s b p = nth b row 0.
Proof.
  induction L as [|x L IH]; cbn [foldM map In]; intros st st' H HN Hin; [destruct Hin|].
  apply bind_Ok in H as (st1 & H1 & H). inversion HN as [|y z N1 N2]; subst. destruct Hin as [->|Hin].
  - rewrite (coef_loop_sym_other _ _ _ _ _ _ _ _ _ _ _ H) by exact N1. pose proof (coef_step_sym _ _ _ _ _ _ _ _ _ _ s b p H1) as E1.
    apply coef_step_inv in H1 as (row & Hs & HL & _). exists row. rewrite Hs, !Nat.eqb_refl in E1. auto.
  - apply (IH _ _ H N2 Hin).
Qed.

(** the asymmetric coefficients, when the number of orders does not change any more *)
Lemma coef_loop_other E m chs B P V L s b p v : (b < B)%nat -> (p < P)%nat -> (v < V)%nat -> forall st st',
  foldM (coef_step E m chs B P) L st = Ok st' -> cs_nvar st = V -> cs_nvar st' = V ->
  ~ In (p, s) (map key_of L) ->
  cs_pos st' (flat B P V s b p v) = cs_pos st (flat B P V s b p v) /\ cs_neg st' (flat B P V s b p v) = cs_neg st (flat B P V s b p v).
Proof.
  intros Hb Hp Hv. induction L as [|[[q par] s'] L IH]; cbn [foldM map In]; intros st st' H HV HV' Hn; [inversion H; auto|].
  apply bind_Ok in H as (st1 & H1 & H). pose proof (coef_loop_nvar _ _ _ _ _ _ _ _ H) as M1. pose proof (coef_step_nvar _ _ _ _ _ _ _ _ H1) as M2.
  assert (HV1 : cs_nvar st1 = V) by lia. destruct (IH _ _ H HV1 HV') as (-> & ->); [tauto|].
  apply coef_step_inv in H1 as (sym & _ & _ & _ & A1 & A2). destruct (m_asym m).
  - destruct (A2 eq_refl) as (cl & kp & fp & kn & fn & nf & _ & _ & _ & _ & _ & -> & ->). rewrite HV1, !set_slice_flat by assumption.
    destruct ((s =? s')%nat && (p =? q)%nat && (v <? kp)%nat) eqn:Eq; [|auto]. apply andb_true_iff in Eq as [Eq _]. apply andb_true_iff in Eq as [E1 E2].
    apply Nat.eqb_eq in E1, E2. subst. exfalso. apply Hn. left. reflexivity.
  - destruct (A1 eq_refl) as (_ & -> & ->). auto.
Qed.
Lemma coef_loop_at E m chs B P V L s b p v par : (b < B)%nat -> (p < P)%nat -> (v < V)%nat -> m_asym m = true -> forall st st',
  foldM (coef_step E m chs B P) L st = Ok st' -> cs_nvar st' = V ->
  NoDup (map key_of L) -> In ((p, par), s) L ->
  (forall i, cs_pos st i = 0) -> (forall i, cs_neg st i = 0) ->
  (cs_nvar st = V \/ forall x L' st1, L = x :: L' -> coef_step E m chs B P st x = Ok st1 -> cs_nvar st1 = V) ->
  exists cl kp fp kn fn nf, mapM (channel_coeffs E (negb (m_linear m)) par s) chs = Ok cl /\
      concat_coeffs B (map fst cl) = Ok (kp, fp) /\ concat_coeffs B (map snd cl) = Ok (kn, fn) /\ (kn = kp -> nf = fn) /\
      (kp <= V)%nat /\ (kn <= V)%nat /\
      cs_pos st' (flat B P V s b p v) = (if (v <? kp)%nat then fp b v else 0) /\
      cs_neg st' (flat B P V s b p v) = (if (v <? kp)%nat then nf b v else 0).
Proof.
  intros Hb Hp Hv HA.
  (* generalized: only the entries at (s, p) have to vanish, once the number of orders is V *)
  assert (G : forall L st st', foldM (coef_step E m chs B P) L st = Ok st' -> cs_nvar st' = V -> cs_nvar st = V \/
     ((forall x L' st1, L = x :: L' -> coef_step E m chs B P st x = Ok st1 -> cs_nvar st1 = V) /\ (forall i, cs_pos st i = 0) /\ (forall i, cs_neg st i = 0)) ->
     NoDup (map key_of L) -> In ((p, par), s) L ->
     cs_pos st (flat B P V s b p v) = 0 -> cs_neg st (flat B P V s b p v) = 0 ->
     exists cl kp fp kn fn nf, mapM (channel_coeffs E (negb (m_linear m)) par s) chs = Ok cl /\
      concat_coeffs B (map fst cl) = Ok (kp, fp) /\ concat_coeffs B (map snd cl) = Ok (kn, fn) /\ (kn = kp -> nf = fn) /\
      (kp <= V)%nat /\ (kn <= V)%nat /\
      cs_pos st' (flat B P V s b p v) = (if (v <? kp)%nat then fp b v else 0) /\
      cs_neg st' (flat B P V s b p v) = (if (v <? kp)%nat then nf b v else 0)).
  { clear L. induction L as [|x L IH]; cbn [foldM map In]; intros st st' H HV' HVst HN Hin Z1 Z2; [destruct Hin|].
    apply bind_Ok in H as (st1 & H1 & H). pose proof (coef_loop_nvar _ _ _ _ _ _ _ _ H) as M1. pose proof (coef_step_nvar _ _ _ _ _ _ _ _ H1) as M2.
    assert (HV1 : cs_nvar st1 = V).
    { destruct HVst as [HVst|(HVst & _)]; [lia|]. eapply HVst; [reflexivity|exact H1]. }
    inversion HN as [|y z N1 N2]; subst y z. destruct Hin as [->|Hin].
    - destruct (coef_loop_other E m chs B P V L s b p v Hb Hp Hv _ _ H HV1 HV' N1) as (-> & ->).
      apply coef_step_inv in H1 as (sym & _ & _ & _ & _ & A2). destruct (A2 HA) as (cl & kp & fp & kn & fn & nf & A & Bq & C & D & F & G1 & G2).
      exists cl, kp, fp, kn, fn, nf. rewrite G1, G2, HV1, !set_slice_flat by assumption. rewrite !Nat.eqb_refl. cbn [andb]. rewrite Z1, Z2.
      repeat split; auto.
      + rewrite F in HV1. pose proof (nvar_fold_max cl (cs_nvar st)) as Hmx. cbn zeta in Hmx. rewrite HV1 in Hmx. destruct Hmx as (_ & Hmx & _). destruct cl as [|c0 cl]; [discriminate|].
        cbn [map] in Bq. unfold concat_coeffs in Bq. destruct (_ && _) in Bq; [|discriminate]. inversion Bq; subst. destruct (Hmx c0 (or_introl eq_refl)); lia.
      + rewrite F in HV1. pose proof (nvar_fold_max cl (cs_nvar st)) as Hmx. cbn zeta in Hmx. rewrite HV1 in Hmx. destruct Hmx as (_ & Hmx & _). destruct cl as [|c0 cl]; [discriminate|].
        cbn [map] in C. unfold concat_coeffs in C. destruct (_ && _) in C; [|discriminate]. inversion C; subst. destruct (Hmx c0 (or_introl eq_refl)); lia.
    - assert (Hne : key_of x <> (p, s)).
      { intros Hk. apply N1. rewrite Hk. change (p, s) with (key_of ((p, par), s)). now apply in_map. }
      destruct x as [[q parq] sq].
      assert (Z : cs_pos st1 (flat B P V s b p v) = 0 /\ cs_neg st1 (flat B P V s b p v) = 0).
      { apply coef_step_inv in H1 as (sym & _ & _ & _ & _ & A2). destruct (A2 HA) as (cl & kp & fp & kn & fn & nf & A & Bq & C & D & F & G1 & G2).
        rewrite G1, G2, HV1, !set_slice_flat by assumption.
        destruct ((s =? sq)%nat && (p =? q)%nat && (v <? kp)%nat) eqn:Eq; [|auto]. apply andb_true_iff in Eq as [Eq _]. apply andb_true_iff in Eq as [E1 E2].
        apply Nat.eqb_eq in E1, E2. subst. exfalso. apply Hne. reflexivity. }
      apply (IH _ _ H HV'); try tauto. }
  intros st st' H HV' HN Hin Z1 Z2 HV. apply (G L st st' H HV'); auto. destruct HV as [HV|HV]; [now left|right; auto].
Qed.

(** the pairs visited by the loop *)
Lemma in_list_prod_enum (names : list string) S p par s :
  In ((p, par), s) (list_prod (enumerate names) (seq 0 S)) <-> nth_error names p = Some par /\ (s < S)%nat.
Proof.
  rewrite in_prod_iff, in_seq. unfold enumerate.
  assert (E : forall n, In (p, par) (combine (seq n (length names)) names) <-> (n <= p)%nat /\ nth_error names (p - n) = Some par).
  { induction names as [|x l IH]; intros n; cbn [length seq combine In].
    - split; [intros []|]. intros (_ & H). destruct (p - n)%nat; discriminate.
    - rewrite IH. split.
      + intros [H|(H & H2)]; [inversion H; subst; rewrite Nat.sub_diag; auto|]. split; [lia|].
        replace (p - n)%nat with (Datatypes.S (p - Datatypes.S n))%nat by lia. exact H2.
      + intros (H & H2). destruct (Nat.eq_dec n p) as [->|Hne]; [rewrite Nat.sub_diag in H2; cbn in H2; left; congruence|].
        right. split; [lia|]. replace (p - n)%nat with (Datatypes.S (p - Datatypes.S n))%nat in H2 by lia. exact H2. }
  rewrite E, Nat.sub_0_r. intuition lia.
Qed.
Lemma NoDup_list_prod {A B} (l : list A) (k : list B) : NoDup l -> NoDup k -> NoDup (list_prod l k).
Proof.
  intros Hl Hk. induction Hl as [|x l Hx Hl IH]; cbn [list_prod]; [constructor|].
  assert (N : NoDup (map (fun y : B => (x, y)) k)).
  { clear - Hk. induction Hk as [|y k Hy Hk IH]; cbn; constructor; auto. intros H. apply in_map_iff in H as (z & E & Hz). congruence. }
  assert (D : forall z, In z (map (fun y : B => (x, y)) k) -> ~ In z (list_prod l k)).
  { intros [a b] H1 H2. apply in_map_iff in H1 as (y & E & _). inversion E; subst. apply in_prod_iff in H2 as [H2 _]. contradiction. }
  revert N D. generalize (map (fun y : B => (x, y)) k). intros u. induction u as [|z u IHu]; cbn; intros N D; [exact IH|].
  inversion N; subst. constructor; [|apply IHu; auto]. rewrite in_app_iff. intros [H|H]; [contradiction|]. apply (D z); auto.
Qed.
Lemma NoDup_keys_enum (names : list string) S : NoDup (map key_of (list_prod (enumerate names) (seq 0 S))).
Proof.
  assert (E : map key_of (list_prod (enumerate names) (seq 0 S)) = list_prod (seq 0 (length names)) (seq 0 S)).
  { unfold enumerate. generalize 0%nat at 1 3 as n. generalize (seq 0 S). intros k. induction names as [|x l IH]; intros n; cbn [length seq combine list_prod]; [reflexivity|].
    rewrite map_app, IH, map_map. reflexivity. }
  rewrite E. apply NoDup_list_prod; apply seq_NoDup.
Qed.

(** shapes of the coefficient tables *)
Lemma side_shape inv il single vars imps c nb : side_coefficients inv il single vars imps = Ok c ->
  (single = true -> length vars = 1%nat) -> length imps = length vars -> (forall im, In im imps -> length im = nb) ->
  length c = length vars /\ forall row, In row c -> length row = nb.
Proof.
  unfold side_coefficients. intros H Hs HL HI. destruct single.
  - specialize (Hs eq_refl). destruct vars as [|v [|]]; try discriminate. destruct imps as [|im [|]]; try discriminate.
    inversion H; subst. split; [reflexivity|]. intros row [<-|[]]. rewrite map_length. apply HI. now left.
  - apply bind_Ok in H as (pb & Hp & H). inversion H; subst; clear H. rewrite map_length, seq_length. split; [reflexivity|].
    intros row Hr. apply in_map_iff in Hr as (n & <- & Hn). rewrite map_length, (mapM_Ok_length _ _ _ Hp), seq_length.
    apply in_seq in Hn. destruct imps as [|im imps]; [cbn in HL; lia|]. apply HI. now left.
Qed.

Lemma fits_impact E c sm par v im : fits c sm -> impact (e_fmt E) sm par v = Ok (Some im) -> length im = nbins c.
Proof.
  intros ((y & Hy & Ly) & Hl) H. unfold impact, nyields in H. rewrite Hy in H.
  destruct (dget par (s_impacts sm)) as [j|] eqn:Ed; [destruct j as [|bb|z|x|st|l|d]|]; try discriminate; cbn [bind] in H.
  - inversion H; subst. now rewrite repeat_length.
  - apply bind_Ok in H as (a & Ha & H). inversion H; subst. rewrite (mapM_Ok_length _ _ _ Ha). apply (Hl par). exact Ed.
  - apply bind_Ok in H as (a & Ha & H). inversion H; subst. now rewrite repeat_length.
  - inversion H; subst. now rewrite repeat_length.
Qed.

Lemma coefficients_shape E c sm par il pc nc : fits c sm -> balanced E sm par ->
  impact_coefficients (e_float E) (e_fmt E) (e_inv E) sm par il = Ok (pc, nc) ->
  length pc = norders E sm par /\ length nc = norders E sm par /\
  (forall row, In row pc -> length row = nbins c) /\ (forall row, In row nc -> length row = nbins c).
Proof.
  intros HF HB H. unfold impact_coefficients in H. apply bind_Ok in H as (av & Hav & H). unfold norders. rewrite Hav. specialize (HB _ Hav).
  apply bind_Ok in H as (pi & Hpi & H). apply bind_Ok in H as (ni & Hni & H). apply bind_Ok in H as (pc' & Hp & H).
  apply bind_Ok in H as (nc' & Hn & H). inversion H; subst pc' nc'; clear H.
  assert (LS : forall l, length (rsort l) = length l) by (intros l; apply Permutation.Permutation_length, rsort_perm).
  assert (HI : forall l r, mapM (fun v => let! r := impact (e_fmt E) sm par v in match r with Some l => Ok l | None => Err TypeError end) l = Ok r ->
               forall im, In im r -> length im = nbins c).
  { intros l r Hm im Hin. apply mapM_Forall2 in Hm. clear - Hm Hin HF. induction Hm as [|a b l r Ha Hr IH]; [destruct Hin|].
    destruct Hin as [<-|Hin]; [|auto]. apply bind_Ok in Ha as ([x|] & Hx & Ha); inversion Ha; subst. eapply fits_impact; eauto. }
  destruct (side_shape _ _ _ _ _ _ (nbins c) Hp) as (L1 & R1).
  { intros Hs. now apply Nat.eqb_eq in Hs. } { apply (mapM_Ok_length _ _ _ Hpi). } { apply (HI _ _ Hpi). }
  destruct (side_shape _ _ _ _ _ _ (nbins c) Hn) as (L2 & R2).
  { intros Hs. apply Nat.eqb_eq in Hs. rewrite LS in *. lia. } { apply (mapM_Ok_length _ _ _ Hni). } { apply (HI _ _ Hni). }
  rewrite LS in *. repeat split; auto; lia.
Qed.

(** reading a concatenated table *)
Lemma concat_coeffs_at B (chs : dict Channel) (cl : list (list (list R))) k f i ch c row v b :
  concat_coeffs B cl = Ok (k, f) -> nth_error chs i = Some (ch, c) -> nth_error cl i = Some row ->
  Forall2 (fun kc tb => forall r, In r tb -> length r = nbins (snd kc)) chs cl ->
  length row = k /\ ((v < k)%nat -> (b < nbins c)%nat -> f (total_bins (firstn i chs) + b)%nat v = nth b (nth v row []) 0).
Proof.
  intros H Hi Hr HF. unfold concat_coeffs in H. destruct cl as [|c0 cl']; [destruct i; discriminate|].
  destruct (_ && _) eqn:Ec in H; [|discriminate]. apply andb_true_iff in Ec as [Ec _]. inversion H; subst; clear H.
  remember (c0 :: cl') as cl eqn:Ecl. assert (Hlen : forall x, In x cl -> length x = length c0).
  { intros x Hx. rewrite forallb_forall in Ec. specialize (Ec x Hx). now apply Nat.eqb_eq in Ec. }
  split; [apply Hlen; eapply nth_error_In; exact Hr|]. intros Hv Hb.
  change (nth v c0 [] ++ concat (map (fun c1 => nth v c1 []) cl')) with (concat (map (fun c1 => nth v c1 []) (c0 :: cl'))). rewrite <- Ecl.
  apply (nth_concat_block chs _ 0 i ch c); auto.
  - clear - HF Hlen Hv. induction HF as [|a t l r Ha Hr IH]; cbn; constructor.
    + apply Ha, nth_In. rewrite (Hlen t) by now left. exact Hv.
    + apply IH. intros x Hx. apply Hlen. now right.
  - rewrite nth_error_map, Hr. reflexivity.
Qed.

Lemma sample_at_In c s sm : sample_at c s = Some sm -> exists ks, In (ks, sm) (ch_samples c).
Proof.
  unfold sample_at, values. intros H. apply nth_error_In, in_map_iff in H as ([ks x] & <- & Hin). eauto.
Qed.
Lemma sample_at_lt c s sm : sample_at c s = Some sm -> (s < length (ch_samples c))%nat.
Proof. unfold sample_at, values. intros H. rewrite <- (map_length snd). apply nth_error_Some. congruence. Qed.
Lemma max_samples_le (chs : dict Channel) k c : In (k, c) chs -> (length (ch_samples c) <= max_samples chs)%nat.
Proof. unfold max_samples. induction chs as [|x l IH]; intros H; [destruct H|]. destruct H as [->|H]; cbn [fold_right snd]; [lia|]. specialize (IH H). lia. Qed.
Lemma total_bins_firstn (chs : dict Channel) i k c : nth_error chs i = Some (k, c) -> (total_bins (firstn i chs) + nbins c <= total_bins chs)%nat.
Proof.
  revert i; induction chs as [|x l IH]; intros [|i] H; cbn in H; try discriminate.
  - inversion H; subst. cbn. unfold total_bins. lia.
  - apply IH in H. cbn. unfold total_bins in *. lia.
Qed.

Definition all_balanced (E : Env) (chs : dict Channel) (names : list string) : Prop :=
  forall k c ks sm par, In (k, c) chs -> In (ks, sm) (ch_samples c) -> In par names -> balanced E sm par.

Section Shapes.
Context (E : Env) (chs : dict Channel) (names : list string) (il : bool).
Hypothesis HFit : all_fit chs.
Hypothesis HBal : all_balanced E chs names.

(** shape of the table of one channel *)
Lemma channel_coeffs_shape k c par s tb : In (k, c) chs -> In par names -> channel_coeffs E il par s (k, c) = Ok tb ->
  length (fst tb) = length (snd tb) /\
  length (fst tb) = match sample_at c s with Some sm => norders E sm par | None => 1%nat end /\
  (forall r, In r (fst tb) -> length r = nbins c) /\ (forall r, In r (snd tb) -> length r = nbins c).
Proof.
  intros Hin Hpar H. unfold channel_coeffs in H. cbn [snd] in H. destruct (sample_at c s) as [sm|] eqn:Es.
  - destruct (sample_at_In _ _ _ Es) as (ks & Hs). destruct tb as [pc nc].
    destruct (coefficients_shape E c sm par il pc nc) as (A & B & C & D); [eapply HFit; eauto|eapply HBal; eauto|exact H|].
    cbn. repeat split; auto; congruence.
  - inversion H; subst. cbn. repeat split; auto; intros r [<-|[]]; apply repeat_length.
Qed.

Lemma channel_coeffs_shapes par s cl : In par names -> mapM (channel_coeffs E il par s) chs = Ok cl ->
  Forall2 (fun kc tb => forall r, In r tb -> length r = nbins (snd kc)) chs (map fst cl) /\
  Forall2 (fun kc tb => forall r, In r tb -> length r = nbins (snd kc)) chs (map snd cl).
Proof.
  intros Hpar H. apply mapM_Forall2 in H.
  assert (G : Forall2 (fun kc tb => (forall r, In r (fst tb) -> length r = nbins (snd kc)) /\ (forall r, In r (snd tb) -> length r = nbins (snd kc))) chs cl).
  { eapply Forall2_impl_in; [|exact H]. intros [k c] tb Hin Ht. destruct (channel_coeffs_shape k c par s tb Hin Hpar Ht) as (_ & _ & A & B). auto. }
  clear H. assert (G2 : forall (l : dict Channel) r, Forall2 (fun kc (tb : list (list R) * list (list R)) => (forall r, In r (fst tb) -> length r = nbins (snd kc)) /\ (forall r, In r (snd tb) -> length r = nbins (snd kc))) l r ->
    Forall2 (fun kc (tb : list (list R)) => forall r, In r tb -> length r = nbins (snd kc)) l (map fst r) /\
    Forall2 (fun kc (tb : list (list R)) => forall r, In r tb -> length r = nbins (snd kc)) l (map snd r)).
  { clear. intros l r G. induction G as [|a b l r Ha Hr IH]; cbn [map]; [split; constructor|]. split; constructor; tauto. }
  exact (G2 _ _ G).
Qed.
End Shapes.

Lemma coef_loop_bound E m chs B P W L : forall st st', foldM (coef_step E m chs B P) L st = Ok st' ->
  (forall p par s cl c, In ((p, par), s) L -> mapM (channel_coeffs E (negb (m_linear m)) par s) chs = Ok cl -> In c cl ->
     (length (fst c) <= W /\ length (snd c) <= W)%nat) ->
  (cs_nvar st <= W)%nat -> (cs_nvar st' <= W)%nat.
Proof.
  induction L as [|[[p par] s] L IH]; cbn [foldM]; intros st st' H HL HW; [inversion H; subst; exact HW|].
  apply bind_Ok in H as (st1 & H1 & H). apply (IH _ _ H); [intros p0 par0 s0 cl c X1 X2 X3; exact (HL p0 par0 s0 cl c (or_intror X1) X2 X3)|].
  apply coef_step_inv in H1 as (sym & _ & _ & _ & A1 & A2). destruct (m_asym m).
  - destruct (A2 eq_refl) as (cl & kp & fp & kn & fn & nf & Hc & _ & _ & _ & -> & _). apply nvar_fold_max; [exact HW|].
    intros c Hc'. apply (HL p par s cl c); auto. now left.
  - destruct (A1 eq_refl) as (-> & _). exact HW.
Qed.

Lemma rsum_trunc k V f x : (k <= V)%nat -> rsum V (fun v => (if (v <? k)%nat then f v else 0) * x ^ (v + 1)) = rsum k (fun v => f v * x ^ (v + 1)).
Proof.
  intros H. replace V with (k + (V - k))%nat by lia. rewrite rsum_split.
  rewrite (rsum_eq0 (V - k)), Rplus_0_r.
  - apply rsum_ext. intros i Hi. apply Nat.ltb_lt in Hi. now rewrite Hi.
  - intros i _. assert ((k + i <? k)%nat = false) as -> by (apply Nat.ltb_ge; lia). ring.
Qed.
Lemma rsum_pow0 V f : rsum V (fun v => f v * 0 ^ (v + 1)) = 0.
Proof. apply rsum_eq0. intros i _. rewrite pow_i by lia. ring. Qed.

(** the coefficients of one sample in the arrays *)
Lemma coefs_at E m I i k c s sm p par b : built E m I -> m_asym m = true ->
  all_fit (i_channels I) -> all_balanced E (i_channels I) (np_names (i_pm I)) ->
  first_np_has_most_variations E (i_channels I) (np_names (i_pm I)) ->
  nth_error (i_channels I) i = Some (k, c) -> sample_at c s = Some sm -> (b < nbins c)%nat -> nth_error (np_names (i_pm I)) p = Some par ->
  exists pc nc, impact_coefficients (e_float E) (e_fmt E) (e_inv E) sm par (negb (m_linear m)) = Ok (pc, nc) /\
    length pc = length nc /\ (length pc <= i_nvar I)%nat /\
    forall v, (v < i_nvar I)%nat ->
      coef I (i_pos I) s (total_bins (firstn i (i_channels I)) + b) p v = (if (v <? length pc)%nat then nth b (nth v pc []) 0 else 0) /\
      coef I (i_neg I) s (total_bins (firstn i (i_channels I)) + b) p v = (if (v <? length nc)%nat then nth b (nth v nc []) 0 else 0).
Proof.
  intros Bt HA HFit HBal Hmax Hi Hs Hb Hp. pose proof (bt_coef _ _ _ Bt) as HL.
  set (chs := i_channels I) in *. set (names := np_names (i_pm I)) in *. set (P := length (pm_nps (i_pm I))) in *.
  assert (HP : (p < P)%nat) by (unfold P; rewrite <- np_names_length; apply nth_error_Some; fold names; congruence).
  assert (Hin : In (k, c) chs) by (eapply nth_error_In; exact Hi).
  assert (Hpar : In par names) by (eapply nth_error_In; exact Hp).
  assert (HS : (s < i_nsamples I)%nat).
  { rewrite (bt_ns _ _ _ Bt). apply sample_at_lt in Hs. pose proof (max_samples_le chs k c Hin). fold chs. lia. }
  assert (HB : (total_bins (firstn i chs) + b < i_nbins I)%nat).
  { rewrite (bt_nb _ _ _ Bt). pose proof (total_bins_firstn _ _ _ _ Hi). fold chs. lia. }
  assert (HinL : In ((p, par), s) (list_prod (enumerate names) (seq 0 (i_nsamples I)))) by (apply in_list_prod_enum; auto).
  set (L := list_prod (enumerate names) (seq 0 (i_nsamples I))) in *.
  assert (Hlen : forall q parq sq cl tb, In ((q, parq), sq) L -> mapM (channel_coeffs E (negb (m_linear m)) parq sq) chs = Ok cl -> In tb cl ->
     exists k2 c2, In (k2, c2) chs /\ channel_coeffs E (negb (m_linear m)) parq sq (k2, c2) = Ok tb /\ In parq names).
  { intros q parq sq cl tb HqL Hcl Htb. apply in_list_prod_enum in HqL as [Hq _]. apply mapM_Forall2 in Hcl.
    assert (G : exists kc, In kc chs /\ channel_coeffs E (negb (m_linear m)) parq sq kc = Ok tb).
    { clear - Hcl Htb. induction Hcl as [|a t l r Ha Hr IH]; [destruct Htb|]. destruct Htb as [->|Htb]; [exists a; split; [now left|exact Ha]|].
      destruct (IH Htb) as (kc & Hk & Hk2). exists kc. split; [now right|exact Hk2]. }
    destruct G as ([k2 c2] & G1 & G2). exists k2, c2. repeat split; auto. eapply nth_error_In; exact Hq. }
  assert (Hfirst : forall x L' st1, L = x :: L' -> coef_step E m chs (i_nbins I) P (mkCS 1 (fun _ => 0) (fun _ => 0) (fun _ _ _ => 0)) x = Ok st1 -> cs_nvar st1 = i_nvar I).
  { intros x L' st1 EL Hst. rewrite EL in HL. cbn [foldM] in HL. rewrite Hst in HL. cbn [bind] in HL.
    pose proof (coef_loop_nvar _ _ _ _ _ _ _ _ HL) as M. cbn [cs_nvar] in M.
    assert ((i_nvar I <= cs_nvar st1)%nat); [|lia].
    change (i_nvar I) with (cs_nvar (mkCS (i_nvar I) (i_pos I) (i_neg I) (i_sym I))). eapply coef_loop_bound; [exact HL| |lia].
    pose proof (coef_step_nvar _ _ _ _ _ _ _ _ Hst) as M1. cbn [cs_nvar] in M1.
    intros q parq sq cl tb HqL Hcl Htb.
    destruct (Hlen q parq sq cl tb) as (k2 & c2 & Hk2 & Ht2 & Hparq); [rewrite EL; now right|exact Hcl|exact Htb|].
    destruct (channel_coeffs_shape E chs names (negb (m_linear m)) HFit HBal k2 c2 parq sq tb Hk2 Hparq Ht2) as (A1 & A2 & _).
    rewrite <- A1, A2. enough (match sample_at c2 sq with Some sm => norders E sm parq | None => 1%nat end <= cs_nvar st1)%nat by (split; assumption).
    destruct (sample_at c2 sq) as [sm2|] eqn:Es2; [|lia]. destruct (sample_at_In _ _ _ Es2) as (ks2 & Hs2).
    destruct (Hmax k2 c2 ks2 sm2 parq Hk2 Hs2 Hparq) as [Hle|(k0 & c0 & sm0 & par0 & Hk0 & Hs0 & Hp0 & Hle)]; [lia|].
    etransitivity; [exact Hle|].
    assert (Ex : x = ((0%nat, par0), 0%nat)).
    { unfold L, enumerate in EL. destruct names as [|n0 names']; [discriminate|]. cbn in Hp0. inversion Hp0; subst n0.
      destruct (i_nsamples I) as [|S']; [lia|]. cbn in EL. inversion EL. reflexivity. }
    subst x. apply coef_step_inv in Hst as (sym & _ & _ & _ & _ & A). destruct (A HA) as (cl0 & kp & fp & kn & fn & nf & Hc0 & _ & _ & _ & HV & _).
    pose proof Hc0 as Hc0'. apply mapM_Forall2 in Hc0'. destruct (Forall2_in_l _ _ _ _ Hc0' Hk0) as (tb0 & Htb0 & Hch0).
    assert (Hpar0 : In par0 names) by (eapply nth_error_In; exact Hp0).
    destruct (channel_coeffs_shape E chs names (negb (m_linear m)) HFit HBal k0 c0 par0 0 tb0 Hk0 Hpar0 Hch0) as (_ & B2 & _). rewrite Hs0 in B2.
    rewrite <- B2, HV. apply nvar_fold_max. exact Htb0. }
  assert (Hcoef : forall v, (v < i_nvar I)%nat -> exists pc nc, impact_coefficients (e_float E) (e_fmt E) (e_inv E) sm par (negb (m_linear m)) = Ok (pc, nc) /\
     length pc = length nc /\ (length pc <= i_nvar I)%nat /\
      coef I (i_pos I) s (total_bins (firstn i chs) + b) p v = (if (v <? length pc)%nat then nth b (nth v pc []) 0 else 0) /\
      coef I (i_neg I) s (total_bins (firstn i chs) + b) p v = (if (v <? length nc)%nat then nth b (nth v nc []) 0 else 0)).
  { intros v Hv.
    destruct (coef_loop_at E m chs (i_nbins I) P (i_nvar I) L s (total_bins (firstn i chs) + b) p v par HB HP Hv HA _ _ HL)
      as (cl & kp & fp & kn & fn & nf & Hcl & Hcp & Hcn & Hnf & Hkp & Hkn & Epos & Eneg); auto.
    { apply NoDup_keys_enum. }
    pose proof (channel_coeffs_shapes E chs names (negb (m_linear m)) HFit HBal par s cl Hpar Hcl) as (F1 & F2).
    assert (Htb : exists tb, nth_error cl i = Some tb /\ channel_coeffs E (negb (m_linear m)) par s (k, c) = Ok tb).
    { apply mapM_Forall2 in Hcl. clear - Hcl Hi. revert i Hi. induction Hcl as [|a t l r Ha Hr IH]; intros [|i] Hi; cbn in *; try discriminate; eauto.
      inversion Hi; subst. eauto. }
    destruct Htb as ([pc nc] & Hti & Htb). pose proof Htb as Htb'. unfold channel_coeffs in Htb'. cbn [snd] in Htb'. rewrite Hs in Htb'.
    exists pc, nc. split; [exact Htb'|].
    destruct (channel_coeffs_shape E chs names (negb (m_linear m)) HFit HBal k c par s (pc, nc) Hin Hpar Htb) as (Q1 & _). cbn in Q1.
    destruct (concat_coeffs_at _ chs _ _ _ i k c pc v b Hcp Hi) as (K1 & R1); [rewrite nth_error_map, Hti; reflexivity|exact F1|].
    destruct (concat_coeffs_at _ chs _ _ _ i k c nc v b Hcn Hi) as (K2 & R2); [rewrite nth_error_map, Hti; reflexivity|exact F2|].
    assert (nf = fn) as -> by (apply Hnf; congruence).
    unfold coef. fold P. cbn [cs_pos cs_neg] in Epos, Eneg. rewrite Epos, Eneg. rewrite <- Q1, K1. repeat split; auto.
    - destruct (v <? kp)%nat eqn:El; [|reflexivity]. apply Nat.ltb_lt in El. apply R1; auto.
    - destruct (v <? kp)%nat eqn:El; [|reflexivity]. apply Nat.ltb_lt in El. apply R2; auto. lia. }
  assert (HV1 : (0 < i_nvar I)%nat) by (pose proof (coef_loop_nvar _ _ _ _ _ _ _ _ HL) as M; cbn in M; lia).
  destruct (Hcoef 0%nat HV1) as (pc & nc & H1 & H2 & H3 & _). exists pc, nc. repeat split; auto;
  destruct (Hcoef v H) as (pc' & nc' & H1' & _ & _ & A & B); rewrite H1 in H1'; inversion H1'; subst; assumption.
Qed.

(** the impact factor in asymmetric mode *)
Lemma k_exp_asym E m I ns K i k c s sm b : built E m I -> m_asym m = true ->
  all_fit (i_channels I) -> all_balanced E (i_channels I) (np_names (i_pm I)) ->
  first_np_has_most_variations E (i_channels I) (np_names (i_pm I)) ->
  nth_error (i_channels I) i = Some (k, c) -> sample_at c s = Some sm -> (b < nbins c)%nat ->
  k_exp m I ns = Ok K ->
  K s (total_bins (firstn i (i_channels I)) + b)%nat =
  factor (m_linear m) (rsum (length (np_names (i_pm I)))
     (fun p => np_effect E (negb (m_linear m)) sm (nth p (np_names (i_pm I)) "") b (nth p ns 0))).
Proof.
  intros Bt HA HFit HBal Hmax Hi Hs Hb HK. unfold k_exp in HK. rewrite HA in HK.
  set (B0 := (total_bins (firstn i (i_channels I)) + b)%nat).
  assert (Hd : rsum (length (pm_nps (i_pm I))) (fun p => rsum (i_nvar I) (fun v => coef I (i_pos I) s B0 p v * Rmax (nth p ns 0) 0 ^ (v + 1)))
      + rsum (length (pm_nps (i_pm I))) (fun p => rsum (i_nvar I) (fun v => coef I (i_neg I) s B0 p v * Rmin (nth p ns 0) 0 ^ (v + 1)))
      = rsum (length (np_names (i_pm I))) (fun p => np_effect E (negb (m_linear m)) sm (nth p (np_names (i_pm I)) "") b (nth p ns 0))).
  { rewrite np_names_length, <- rsum_plus. apply rsum_ext. intros p Hp.
    assert (Hn : nth_error (np_names (i_pm I)) p = Some (nth p (np_names (i_pm I)) "")) by (apply nth_error_nth'; rewrite np_names_length; exact Hp).
    destruct (coefs_at E m I i k c s sm p _ b Bt HA HFit HBal Hmax Hi Hs Hb Hn) as (pc & nc & H1 & H2 & H3 & H4).
    unfold np_effect. rewrite H1. fold B0 in H4. unfold poly. destruct (Rltb 0 (nth p ns 0)) eqn:El.
    - apply Rltb_true in El. rewrite Rmax_left, Rmin_right by lra. rewrite rsum_pow0, Rplus_0_r.
      rewrite <- (rsum_trunc _ _ _ _ H3). apply rsum_ext. intros v Hv. now rewrite (proj1 (H4 v Hv)).
    - apply Rltb_false in El. rewrite Rmax_right, Rmin_left by lra. rewrite rsum_pow0, Rplus_0_l.
      assert (H3' : (length nc <= i_nvar I)%nat) by lia. rewrite <- (rsum_trunc _ _ _ _ H3'). apply rsum_ext. intros v Hv. now rewrite (proj2 (H4 v Hv)). }
  unfold factor. destruct (m_linear m); inversion HK; subst K; cbn beta; fold B0; rewrite Hd; reflexivity.
Qed.
