(** Facts about [replace] (expressions.py, the replace methods) *)
From Verif Require Import Py PyFacts Base Expressions ExprSpec ExprFacts ExprGrad.
Local Open Scope string_scope.
Local Open Scope list_scope.

(** an assignment of values to names that satisfies every definition of the heap *)
Definition sat (F : env) (st : dict expr) : Prop := forall k e, dget k st = Some e -> F k = expr_den e F.

(** how an expression object can be changed by replace *)
Definition shr (e e' : expr) : Prop :=
  e' = e \/ exists n nom co nom' co', e = ELinComb n nom co /\ e' = ELinComb n nom' co' /\ incl (keys co') (keys co).

Lemma shr_refl e : shr e e. Proof. left; reflexivity. Qed.
Lemma shr_trans a b c : shr a b -> shr b c -> shr a c.
Proof.
  intros [->|(n & x & co & x' & co' & -> & -> & H1)] H2; [exact H2|].
  destruct H2 as [->|(n2 & y & c2 & y' & c2' & E & -> & H3)]; [right; repeat eexists; eauto|].
  inversion E; subst. right; repeat eexists. intros a Ha; apply H1, H3, Ha.
Qed.
Lemma shr_name a b : shr a b -> expr_name b = expr_name a.
Proof. intros [->|(n & x & co & x' & co' & -> & -> & H1)]; reflexivity. Qed.
Lemma shr_deps a b : shr a b -> incl (deps b) (deps a).
Proof. intros [->|(n & x & co & x' & co' & -> & -> & H1)]; [apply incl_refl|exact H1]. Qed.

Definition shrinks (st st' : dict expr) : Prop :=
  forall k, match dget k st, dget k st' with Some e, Some e' => shr e e' | None, None => True | _, _ => False end.

Lemma shrinks_refl st : shrinks st st.
Proof. intros k; destruct (dget k st); auto; apply shr_refl. Qed.
Lemma shrinks_trans a b c : shrinks a b -> shrinks b c -> shrinks a c.
Proof.
  intros H1 H2 k; specialize (H1 k); specialize (H2 k).
  destruct (dget k a), (dget k b), (dget k c); auto; try contradiction. eapply shr_trans; eauto.
Qed.
Lemma shrinks_None a b k : shrinks a b -> dget k a = None -> dget k b = None.
Proof. intros H E; specialize (H k); rewrite E in H; destruct (dget k b); [contradiction|reflexivity]. Qed.
Lemma shrinks_Some a b k e : shrinks a b -> dget k a = Some e -> exists e', dget k b = Some e' /\ shr e e'.
Proof. intros H E; specialize (H k); rewrite E in H; destruct (dget k b) as [e'|]; [exists e'; auto|contradiction]. Qed.

Section Rep.
Variables (name : string) (v : R) (params : list string).

(** no path of definitions leads from k to the replaced name *)
Inductive clean (st : dict expr) : string -> Prop :=
| clean_par k : dget k st = None -> k <> name -> clean st k
| clean_expr k e : dget k st = Some e -> (forall d, In d (deps e) -> clean st d) -> clean st k.

Lemma clean_shrinks a b k : shrinks a b -> clean a k -> clean b k.
Proof.
  intros H C; induction C as [k E N|k e E _ IH].
  - apply clean_par; [eapply shrinks_None; eauto|exact N].
  - destruct (shrinks_Some _ _ _ _ H E) as (e' & E' & S). apply (clean_expr b k e' E').
    intros d Hd. apply IH. apply (shr_deps _ _ S); exact Hd.
Qed.

Definition no_single (st : dict expr) : Prop := forall k n, dget k st <> Some (ESingle n).
Lemma no_single_shrinks a b : shrinks a b -> no_single a -> no_single b.
Proof.
  intros H N k n E. specialize (H k). rewrite E in H. destruct (dget k a) as [e|] eqn:Ea; [|contradiction].
  destruct H as [H|(n2 & x & co & x' & co' & _ & H & _)]; [subst; apply (N k n Ea)|discriminate].
Qed.

(** the definitions are not circular *)
Variable rank : string -> nat.
Definition ranked (st : dict expr) : Prop := forall k e d, dget k st = Some e -> In d (deps e) -> (rank d < rank k)%nat.
Lemma ranked_shrinks a b : shrinks a b -> ranked a -> ranked b.
Proof.
  intros H N k e d E Hd. specialize (H k). rewrite E in H. destruct (dget k a) as [e0|] eqn:Ea; [|contradiction].
  apply (N k e0 d Ea). apply (shr_deps _ _ H); exact Hd.
Qed.

Definition wf (st : dict expr) : Prop := dget name st = None /\ no_single st /\ ranked st.
Lemma wf_shrinks a b : shrinks a b -> wf a -> wf b.
Proof. intros H (H1 & H2 & H3); split; [|split]; [eapply shrinks_None|eapply no_single_shrinks|eapply ranked_shrinks]; eauto. Qed.

Lemma clean_dset_above s key e k : ranked s -> clean s k -> (rank k < rank key)%nat -> clean (dset key e s) k.
Proof.
  intros R C. induction C as [k E N|k e0 E _ IH]; intros Hr;
    assert (k <> key) by (intros ->; lia).
  - apply clean_par; [rewrite dget_dset_neq by assumption; exact E|exact N].
  - apply (clean_expr _ k e0); [rewrite dget_dset_neq by assumption; exact E|].
    intros d Hd. apply IH; [exact Hd|]. specialize (R k e0 d E Hd). lia.
Qed.

Definition spec (sub : dict expr -> string -> res (dict expr * option R)) : Prop :=
  forall st key st' r, sub st key = Ok (st', r) ->
    shrinks st st' /\
    (forall F, F name = v -> sat F st -> sat F st' /\ forall x, r = Some x -> F key = x) /\
    (wf st -> r = None -> clean st' key).

Definition lc (F : env) (co : dict R) : R := lsum (map (fun kc => snd kc * F (fst kc)) co).

Lemma lincomb_spec sub : spec sub -> forall cs s acc kept s' acc' kept',
  replace_lincomb sub cs s acc kept = Ok (s', acc', kept') ->
  shrinks s s' /\ incl (keys kept') (keys kept ++ keys cs) /\
  (forall F, F name = v -> sat F s -> sat F s' /\ acc + lc F cs + lc F kept = acc' + lc F kept') /\
  (wf s -> (forall k, In k (keys kept) -> clean s k) -> forall k, In k (keys kept') -> clean s' k).
Proof.
  intros HS. induction cs as [|[k c] cs IH]; intros s acc kept s' acc' kept' H; cbn [replace_lincomb] in H.
  - inversion H; subst. split; [apply shrinks_refl|]. split; [cbn; rewrite app_nil_r; apply incl_refl|].
    split; [|auto]. intros F _ Hs; split; [exact Hs|]. unfold lc at 1; cbn; ring.
  - destruct (sub s k) as [[s1 [x|]]|e] eqn:E; [| |discriminate].
    + destruct (HS _ _ _ _ E) as (S1 & F1 & C1). destruct (IH _ _ _ _ _ _ H) as (S2 & I2 & F2 & C2).
      split; [eapply shrinks_trans; eauto|]. split.
      { intros a Ha. apply I2 in Ha. apply in_app_or in Ha. apply in_or_app. destruct Ha; [left; auto|right; right; auto]. }
      split.
      * intros F Fn Fs. destruct (F1 F Fn Fs) as [Fs1 Fx]. destruct (F2 F Fn Fs1) as [Fs2 Eq]. split; [exact Fs2|].
        rewrite <- Eq. unfold lc at 1. cbn [map lsum fst snd]. fold (lc F cs). rewrite (Fx x eq_refl). ring.
      * intros W K. apply C2; [eapply wf_shrinks; eauto|]. intros k0 Hk0. eapply clean_shrinks; [exact S1|apply K; exact Hk0].
    + destruct (HS _ _ _ _ E) as (S1 & F1 & C1). destruct (IH _ _ _ _ _ _ H) as (S2 & I2 & F2 & C2).
      split; [eapply shrinks_trans; eauto|]. split.
      { intros a Ha. apply I2 in Ha. unfold keys in *. rewrite map_app in Ha. cbn [map fst] in *.
        rewrite <- app_assoc in Ha. exact Ha. }
      split.
      * intros F Fn Fs. destruct (F1 F Fn Fs) as [Fs1 Fx]. destruct (F2 F Fn Fs1) as [Fs2 Eq]. split; [exact Fs2|].
        rewrite <- Eq. unfold lc. cbn [map lsum fst snd]. rewrite map_app, lsum_app. cbn [map lsum fst snd]. ring.
      * intros W K. apply C2; [eapply wf_shrinks; eauto|]. intros k0 Hk0. unfold keys in Hk0. rewrite map_app in Hk0.
        apply in_app_or in Hk0. destruct Hk0 as [Hk0|[<-|[]]]; [eapply clean_shrinks; [exact S1|apply K; exact Hk0]|apply C1; auto].
Qed.

Lemma product_spec den sub : spec sub -> forall ks s s' b,
  replace_product den sub ks s = Ok (s', b) ->
  shrinks s s' /\ (forall F, F name = v -> sat F s -> sat F s') /\
  (wf s -> b = false -> forall k, In k ks -> clean s' k).
Proof.
  intros HS. induction ks as [|k ks IH]; intros s s' b H; cbn [replace_product] in H.
  - inversion H; subst. split; [apply shrinks_refl|]. split; [auto|]. intros _ _ k [].
  - destruct (sub s k) as [[s1 [x|]]|e] eqn:E; [| |discriminate].
    + destruct (den && Reqb x 0)%bool; [discriminate|].
      destruct (replace_product den sub ks s1) as [[s2 b2]|] eqn:E2; [|discriminate]. inversion H; subst.
      destruct (HS _ _ _ _ E) as (S1 & F1 & C1). destruct (IH _ _ _ E2) as (S2 & F2 & C2).
      split; [eapply shrinks_trans; eauto|]. split; [|discriminate].
      intros F Fn Fs. apply F2; auto. apply F1; auto.
    + destruct (HS _ _ _ _ E) as (S1 & F1 & C1). destruct (IH _ _ _ H) as (S2 & F2 & C2).
      split; [eapply shrinks_trans; eauto|]. split.
      * intros F Fn Fs. apply F2; auto. apply F1; auto.
      * intros W -> k0 [<-|Hk0]; [eapply clean_shrinks; [exact S2|apply C1; auto]|apply C2; auto; eapply wf_shrinks; eauto].
Qed.

Lemma replace_spec fuel : spec (fun st key => replace fuel name (Some v) params st key).
Proof.
  induction fuel as [|fuel IH]; intros st key st' r H; cbn [replace] in H; [discriminate|].
  destruct (dget key st) as [e|] eqn:E.
  - destruct e as [n x|n|n nom co|n pf nu de|n k|n fm].
    + inversion H; subst. split; [apply shrinks_refl|]. split; [intros; split; [auto|discriminate]|].
      intros _ _. apply (clean_expr st' key _ E). intros d [].
    + destruct (String.eqb name n) eqn:En; inversion H; subst.
      * apply String.eqb_eq in En; subst. split; [apply shrinks_refl|]. split.
        { intros F Fn Fs; split; [auto|]. intros x [= <-]. rewrite (Fs _ _ E). cbn [expr_den]. exact Fn. }
        discriminate.
      * split; [apply shrinks_refl|]. split; [intros; split; [auto|discriminate]|].
        intros (_ & W & _) _. exfalso; apply (W key n E).
    + destruct (replace_lincomb _ co st nom []) as [[[s nom'] kept]|] eqn:EL; [|discriminate].
      destruct (lincomb_spec _ IH _ _ _ _ _ _ _ EL) as (S1 & I1 & F1 & C1). cbn [keys map app] in I1.
      assert (S2 : shrinks st (dset key (ELinComb n nom' kept) s)).
      { intros k. destruct (String.string_dec k key) as [->|N].
        - rewrite dget_dset_eq, E. right; repeat eexists; exact I1.
        - rewrite dget_dset_neq by exact N. apply S1. }
      assert (F2 : forall F, F name = v -> sat F st -> sat F (dset key (ELinComb n nom' kept) s) /\ F key = nom' + lc F kept).
      { intros F Fn Fs. destruct (F1 F Fn Fs) as [Fs1 Eq].
        assert (Ek : F key = nom' + lc F kept).
        { rewrite <- Eq. rewrite (Fs _ _ E). cbn [expr_den]. unfold lc. cbn [map lsum]. ring. }
        split; [|exact Ek]. intros k e Hk. destruct (String.string_dec k key) as [->|N].
        - rewrite dget_dset_eq in Hk. inversion Hk; subst e. exact Ek.
        - rewrite dget_dset_neq in Hk by exact N. apply Fs1; exact Hk. }
      assert (HH : st' = dset key (ELinComb n nom' kept) s /\ (kept = [] /\ r = Some nom' \/ kept <> [] /\ r = None)).
      { destruct kept; inversion H; subst; split; auto; right; split; auto; discriminate. }
      clear H. destruct HH as [-> HH]. split; [exact S2|]. split.
      * intros F Fn Fs. destruct (F2 F Fn Fs) as [A B]. split; [exact A|]. intros x Hx.
        destruct HH as [[-> ->]|[_ ->]]; [|discriminate]. inversion Hx; subst. rewrite B. unfold lc; cbn; ring.
      * intros W ->. apply (clean_expr _ key (ELinComb n nom' kept)); [apply dget_dset_eq|]. cbn [deps].
        intros d Hd. apply clean_dset_above.
        { eapply ranked_shrinks; [exact S1|apply W]. }
        { apply C1; auto. intros k []. }
        { destruct W as (_ & _ & W). apply (W key _ d E). cbn [deps]. apply I1; exact Hd. }
    + destruct (replace_product false _ nu st) as [[s [|]]|] eqn:E1; try discriminate.
      destruct (replace_product true _ de s) as [[s2 [|]]|] eqn:E2; try discriminate.
      destruct (product_spec _ _ IH _ _ _ _ E1) as (S1 & F1 & C1).
      destruct (product_spec _ _ IH _ _ _ _ E2) as (S2 & F2 & C2).
      assert (S3 := shrinks_trans _ _ _ S1 S2).
      destruct (length nu + length de =? 0)%nat eqn:El; inversion H; subst.
      * apply Nat.eqb_eq in El. destruct nu; [|cbn in El; lia]. destruct de; [|cbn in El; lia].
        split; [exact S3|]. split; [|discriminate]. intros F Fn Fs. split; [auto|]. intros x [= <-].
        rewrite (Fs _ _ E). cbn [expr_den map lprod]. field.
      * split; [exact S3|]. split; [intros F Fn Fs; split; [auto|discriminate]|].
        intros W _. destruct (shrinks_Some _ _ _ _ S3 E) as (e' & E' & Sh). apply (clean_expr _ key e' E').
        intros d Hd. apply (shr_deps _ _ Sh) in Hd. cbn [deps] in Hd. apply in_app_or in Hd. destruct Hd as [Hd|Hd].
        { eapply clean_shrinks; [exact S2|apply C1; auto]. }
        { apply C2; auto. eapply wf_shrinks; eauto. }
    + destruct (replace fuel name (Some v) params st k) as [[s [x|]]|] eqn:E1; inversion H; subst;
        destruct (IH _ _ _ _ E1) as (S1 & F1 & C1); (split; [exact S1|]; split).
      * intros F Fn Fs. destruct (F1 F Fn Fs) as [A B]. split; [exact A|]. intros y [= <-].
        rewrite (Fs _ _ E). cbn [expr_den]. rewrite (B x eq_refl). reflexivity.
      * discriminate.
      * intros F Fn Fs. split; [apply F1; auto|discriminate].
      * intros W _. destruct (shrinks_Some _ _ _ _ S1 E) as (e' & E' & Sh). apply (clean_expr _ key e' E').
        intros d Hd. apply (shr_deps _ _ Sh) in Hd. destruct Hd as [<-|[]]. apply C1; auto.
    + discriminate.
  - destruct (existsb (String.eqb key) params); [|discriminate].
    destruct (String.eqb name key) eqn:En; inversion H; subst; (split; [apply shrinks_refl|]; split).
    + intros F Fn Fs; split; [auto|]. intros x [= <-]. apply String.eqb_eq in En; subst. exact Fn.
    + discriminate.
    + intros; split; [auto|discriminate].
    + intros W _. apply clean_par; [exact E|]. apply String.eqb_neq in En. congruence.
Qed.

(** the value of a clean expression does not depend on the replaced name *)
Lemma clean_value st k F G : clean st k -> sat F st -> sat G st ->
  (forall p, dget p st = None -> p <> name -> F p = G p) -> F k = G k.
Proof.
  intros C HF HG Hp. induction C as [k E N|k e E _ IH]; [apply Hp; auto|].
  rewrite (HF _ _ E), (HG _ _ E). apply expr_den_ext. exact IH.
Qed.

End Rep.

(** The heap of a list of expressions *)
Definition heap (exprs : list expr) : dict expr := map (fun e => (expr_name e, e)) exprs.
(** The list of expressions after replacement *)
Definition after (st : dict expr) (exprs : list expr) : list expr :=
  map (fun e => match dget (expr_name e) st with Some e' => e' | None => e end) exprs.

Lemma heap_get exprs e : NoDup (map expr_name exprs) -> In e exprs -> dget (expr_name e) (heap exprs) = Some e.
Proof.
  intros Hn Hin. apply In_dget; [unfold keys, heap; rewrite map_map; exact Hn|].
  unfold heap. apply in_map_iff. exists e; auto.
Qed.
Lemma heap_inv exprs k e : dget k (heap exprs) = Some e -> In e exprs /\ expr_name e = k.
Proof.
  intros H. apply dget_In in H. unfold heap in H. apply in_map_iff in H. destruct H as (e0 & [= <- <-] & H). auto.
Qed.

Lemma value_shr e e' d F w : agrees d F -> expr_value e d = Ok w -> shr e e' -> F (expr_name e) = expr_den e F ->
  F (expr_name e) = expr_den e' F -> expr_value e' d = Ok w.
Proof.
  intros Ha Hv Hs H1 H2. destruct Hs as [->|(n & nom & co & nom' & co' & -> & -> & Hi)]; [exact Hv|].
  destruct (expr_value_ok _ _ _ Hv) as (Hd & _ & Hval). destruct (Hval F Ha) as [Hw _].
  destruct (expr_value_total (ELinComb n nom' co') d F) as (w' & Hw');
    [intros a Ha'; apply Hd; apply Hi; exact Ha'|exact I|exact Ha|exact I|].
  destruct (expr_value_ok _ _ _ Hw') as (_ & _ & Hval'). destruct (Hval' F Ha) as [Hw2 _].
  rewrite Hw'. f_equal. congruence.
Qed.

Lemma real_vals_shr exprs : forall exprs' d vals F, agrees d F ->
  Forall2 (fun e e' => shr e e' /\ F (expr_name e) = expr_den e F /\ F (expr_name e) = expr_den e' F) exprs exprs' ->
  real_vals exprs d = Ok vals -> real_vals exprs' d = Ok vals.
Proof.
  induction exprs as [|e r IH]; intros exprs' d vals F Ha H2 H; inversion H2 as [|a b la lb (Hs & H3 & H4) H5]; subst; [exact H|].
  cbn [real_vals] in *. apply bind_Ok in H. destruct H as (w & Hw & H).
  rewrite (value_shr e b d F w Ha Hw Hs H3 H4). cbn [bind]. rewrite (shr_name _ _ Hs).
  apply (IH _ _ _ F); auto. intros k x Hk. destruct (String.string_dec k (expr_name e)) as [->|N].
  - rewrite dget_dset_eq in Hk. inversion Hk; subst.
    destruct (expr_value_ok _ _ _ Hw) as (_ & _ & Hval). destruct (Hval F Ha) as [E _]. congruence.
  - rewrite dget_dset_neq in Hk by exact N. apply Ha; exact Hk.
Qed.

Lemma ordered_ranked avail exprs : ordered avail exprs -> NoDup (map expr_name exprs) ->
  exists rank, ranked rank (heap exprs).
Proof.
  (* rank = position + 1 in the list, 0 for parameters *)
  set (pos := fix pos (l : list expr) (k : string) : nat :=
        match l with [] => O | e :: r => if existsb (String.eqb k) (map expr_name l) then
           (if String.eqb k (expr_name e) then S (length r - length r) else S (pos r k)) else O end).
  intros Ho Hn.
  assert (Hpos : forall l av, ordered av l -> (forall k, In k (map expr_name l) -> ~ In k av) -> NoDup (map expr_name l) ->
      forall e d, In e l -> In d (deps e) -> (pos l d < pos l (expr_name e))%nat).
  { clear. induction l as [|a l IH]; intros av Ho Hav Hn e d He Hd; [destruct He|].
    cbn [ordered] in Ho. destruct Ho as (H1 & H2 & _ & H3). inversion Hn as [|x y Hn1 Hn2]; subst.
    assert (Hin : existsb (String.eqb (expr_name e)) (map expr_name (a :: l)) = true).
    { apply existsb_exists. exists (expr_name e). split; [apply in_map; exact He|apply String.eqb_refl]. }
    destruct He as [->|He].
    - cbn [pos]. rewrite Hin, String.eqb_refl.
      destruct (existsb (String.eqb d) (map expr_name (e :: l))) eqn:Ed; [|lia].
      apply existsb_exists in Ed. destruct Ed as (z & Hz & Hz2). apply String.eqb_eq in Hz2; subst z.
      exfalso. apply (Hav d Hz). apply H1; exact Hd.
    - cbn [pos]. rewrite Hin.
      destruct (String.eqb (expr_name e) (expr_name a)) eqn:Ee.
      { apply String.eqb_eq in Ee. exfalso; apply Hn1. rewrite <- Ee. apply in_map; exact He. }
      destruct (existsb (String.eqb d) (map expr_name (a :: l))) eqn:Ed; [|lia].
      assert (IHa : (pos l d < pos l (expr_name e))%nat).
      { apply (IH (av ++ [expr_name a])); auto. intros k Hk C. apply in_app_or in C. destruct C as [C|[<-|[]]]; [|contradiction].
        apply (Hav k); [right; exact Hk|exact C]. }
      destruct (String.eqb d (expr_name a)); lia. }
  exists (pos exprs). intros k e d E Hd. apply heap_inv in E. destruct E as [Hin <-].
  assert (exists av, ordered av exprs /\ forall k, In k (map expr_name exprs) -> ~ In k av) as (av & Ho' & Hav).
  { exists avail; split; [exact Ho|]. clear -Ho. revert avail Ho. induction exprs as [|a l IH]; intros av Ho k [].
    - subst. apply Ho.
    - intros C. apply (IH _ (proj2 (proj2 (proj2 Ho))) k H). apply in_or_app; left; exact C. }
  eapply Hpos; eauto.
Qed.

Lemma after_names st exprs : shrinks (heap exprs) st -> NoDup (map expr_name exprs) ->
  map expr_name (after st exprs) = map expr_name exprs.
Proof.
  intros S Hn. unfold after. rewrite map_map. apply map_ext_in. intros e He.
  destruct (shrinks_Some _ _ _ _ S (heap_get _ _ Hn He)) as (e' & -> & Sh). apply shr_name; exact Sh.
Qed.

Lemma replace_values fuel name v params exprs base vals key st' r :
  NoDup (keys base ++ map expr_name exprs) ->
  real_vals exprs base = Ok vals -> dget name base = Some v ->
  replace fuel name (Some v) params (heap exprs) key = Ok (st', r) ->
  (forall k, In k params -> In k (keys base)) ->
  real_vals (after st' exprs) base = Ok vals /\ (forall x, r = Some x -> dget key vals = Some x).
Proof.
  intros Hn Hv Hb Hr Hp. destruct (real_vals_ok _ _ _ Hv Hn) as (Ho & Ha & _ & Hk).
  assert (Hn2 := NoDup_app_r _ _ Hn).
  set (F := env_den exprs (env_of base)).
  assert (Fs : sat F (heap exprs)).
  { intros k e E. apply heap_inv in E. destruct E as [Hin <-]. apply (env_den_fix _ _ _ _ Ho Hin). }
  assert (Fb : agrees base F).
  { intros k x E. unfold F. rewrite (env_den_avail _ _ _ _ Ho); [unfold env_of; rewrite E; reflexivity|].
    apply dmem_spec. unfold dmem; rewrite E; reflexivity. }
  destruct (replace_spec name v params (fun _ => O) fuel _ _ _ _ Hr) as (S & HF & _).
  destruct (HF F (Fb _ _ Hb) Fs) as [Fs' Fk]. split.
  - apply (real_vals_shr exprs _ _ _ F); auto. unfold after.
    assert (HH : forall l, (forall e, In e l -> In e exprs) -> Forall2 (fun e e' => shr e e' /\ F (expr_name e) = expr_den e F /\ F (expr_name e) = expr_den e' F)
         l (map (fun e => match dget (expr_name e) st' with Some e' => e' | None => e end) l)).
    { induction l as [|e l IH]; intros Hl; cbn [map]; constructor; [|apply IH; intros; apply Hl; right; assumption].
      assert (He : In e exprs) by (apply Hl; left; reflexivity).
      destruct (shrinks_Some _ _ _ _ S (heap_get _ _ Hn2 He)) as (e' & E' & Sh). rewrite E'.
      split; [exact Sh|]. split; [apply Fs; apply heap_get; auto|]. apply Fs'; exact E'. }
    apply HH; auto.
  - intros x Hx. assert (Fk2 := Fk x Hx).
    assert (Hin : In key (keys vals)).
    { rewrite Hk. apply in_or_app. destruct fuel; cbn [replace] in Hr; [discriminate|].
      destruct (dget key (heap exprs)) as [e|] eqn:E.
      - right. apply heap_inv in E. destruct E as [E <-]. apply in_map; exact E.
      - left. destruct (existsb (String.eqb key) params) eqn:Ep; [|discriminate].
        apply existsb_exists in Ep. destruct Ep as (z & Hz & Hz2). apply String.eqb_eq in Hz2; subst. apply Hp; exact Hz. }
    destruct (keys_dgetE _ _ Hin) as (y & Hy). unfold dgetE in Hy. destruct (dget key vals) as [y'|] eqn:E; [|discriminate].
    f_equal. rewrite <- Fk2. symmetry. apply (Ha _ (agrees_env_of base)). exact E.
Qed.

(** after the replacement the value no longer depends on the replaced parameter *)
Lemma replace_independent fuel name v params exprs base vals key st' w vals2 :
  NoDup (keys base ++ map expr_name exprs) ->
  real_vals exprs base = Ok vals -> dget name base = Some v ->
  replace fuel name (Some v) params (heap exprs) key = Ok (st', None) ->
  real_vals (after st' exprs) (dset name w base) = Ok vals2 ->
  In key (keys vals) ->
  dget key vals2 = dget key vals.
Proof.
  intros Hn Hv Hb Hr Hv2 Hkey. destruct (real_vals_ok _ _ _ Hv Hn) as (Ho & Ha & _ & Hk).
  assert (Hn2 := NoDup_app_r _ _ Hn).
  assert (Hnb : In name (keys base)) by (apply dmem_spec; unfold dmem; rewrite Hb; reflexivity).
  destruct (ordered_ranked _ _ Ho Hn2) as (rank & Hrank).
  destruct (replace_spec name v params rank fuel _ _ _ _ Hr) as (S & HF & HC).
  assert (W : wf name rank (heap exprs)).
  { split; [|split; [|exact Hrank]].
    - apply dget_None. unfold keys, heap. rewrite map_map. intros C. apply (NoDup_app_disj _ _ name Hn Hnb). exact C.
    - intros k n E. apply heap_inv in E. destruct E as [E _]. apply (proj1 (ordered_not_self _ _ _ Ho E)). left; reflexivity. }
  assert (C := HC W eq_refl).
  set (F := env_den exprs (env_of base)).
  set (exprs' := after st' exprs).
  assert (Hnames : map expr_name exprs' = map expr_name exprs) by (apply after_names; auto).
  assert (Hkb : keys (dset name w base) = keys base) by (apply keys_dset; exact Hnb).
  assert (Hn' : NoDup (keys (dset name w base) ++ map expr_name exprs')) by (rewrite Hkb, Hnames; exact Hn).
  destruct (real_vals_ok _ _ _ Hv2 Hn') as (Ho' & Ha' & _ & Hk').
  set (G := env_den exprs' (env_of (dset name w base))).
  assert (Fs : sat F (heap exprs)).
  { intros k e E. apply heap_inv in E. destruct E as [Hin <-]. apply (env_den_fix _ _ _ _ Ho Hin). }
  assert (Fb : agrees base F).
  { intros k x E. unfold F. rewrite (env_den_avail _ _ _ _ Ho); [unfold env_of; rewrite E; reflexivity|].
    apply dmem_spec. unfold dmem; rewrite E; reflexivity. }
  destruct (HF F (Fb _ _ Hb) Fs) as [Fs' _].
  assert (Gs : sat G st').
  { intros k e E. assert (Sk := S k). rewrite E in Sk. destruct (dget k (heap exprs)) as [e0|] eqn:E0; [|contradiction].
    apply heap_inv in E0. destruct E0 as [Hin <-]. unfold G.
    rewrite <- (shr_name _ _ Sk). apply (env_den_fix _ _ _ _ Ho').
    unfold exprs', after. apply in_map_iff. exists e0. rewrite E. auto. }
  assert (Eq : F key = G key).
  { (* parameters outside base are 0 in both *)
    apply (clean_value name st' key F G C Fs' Gs). intros p Ep Np.
    assert (Hp1 : ~ In p (map expr_name exprs)).
    { intros Cc. apply in_map_iff in Cc. destruct Cc as (e & <- & He).
      destruct (shrinks_Some _ _ _ _ S (heap_get _ _ Hn2 He)) as (e' & E' & _). congruence. }
    assert (EF : forall l rho, ~ In p (map expr_name l) -> env_den l rho p = rho p).
    { induction l as [|a l IH]; intros rho Hl; cbn [env_den]; [reflexivity|].
      rewrite IH by (intros X; apply Hl; right; exact X). apply upd_neq. intros ->; apply Hl; left; reflexivity. }
    unfold F, G. rewrite !EF by (rewrite ?Hnames; exact Hp1). unfold env_of. rewrite dget_dset_neq by exact Np. reflexivity. }
  assert (Hkey2 : In key (keys vals2)) by (rewrite Hk'; fold exprs'; rewrite Hkb, Hnames, <- Hk; exact Hkey).
  destruct (keys_dgetE _ _ Hkey) as (y & Hy). destruct (keys_dgetE _ _ Hkey2) as (z & Hz).
  unfold dgetE in Hy, Hz. destruct (dget key vals) as [y'|] eqn:E1; [|discriminate]. destruct (dget key vals2) as [z'|] eqn:E2; [|discriminate].
  f_equal. rewrite <- (Ha _ (agrees_env_of base) _ _ E1), <- (Ha' _ (agrees_env_of _) _ _ E2). symmetry; exact Eq.
Qed.
