(** The gradient and Hessian computed by the code are the partial derivatives of the denotation *)
From Coquelicot Require Import Coquelicot.
From Verif Require Import Py PyFacts Base Expressions ExprSpec Deriv ExprFacts.
Local Open Scope string_scope.
Local Open Scope list_scope.

Lemma agrees_env_of d : agrees d (env_of d).
Proof. intros k v H; unfold env_of; rewrite H; reflexivity. Qed.

Lemma upd_same rho k : forall x, upd rho k (rho k) x = rho x.
Proof. intros x; unfold upd. destruct (String.eqb x k) eqn:E; [apply String.eqb_eq in E; subst|]; reflexivity. Qed.

Lemma ordered_not_self avail exprs e : ordered avail exprs -> In e exprs -> ~ In (expr_name e) (deps e) /\ not_formula e.
Proof.
  revert avail; induction exprs as [|e0 r IH]; cbn [ordered]; intros avail H Hin; [destruct Hin|].
  destruct H as (Hd & Hn & Hf & Ho). destruct Hin as [->|Hin]; [|apply (IH _ Ho Hin)].
  split; [intros C; apply Hn; apply Hd; exact C|exact Hf].
Qed.

Definition nums_ok1 (e : expr) (rho : env) : Prop :=
  match e with EProdRatio _ _ nu _ => forall k, In k nu -> rho k <> 0 | _ => True end.

(** second derivative of the meaning of one expression *)
Definition expr_dhess (e : expr) (rho gi gj h : env) : R :=
  match e with
  | ENumber _ _ => 0
  | ESingle n => h n
  | ELinComb _ _ co => lsum (map (fun kc => snd kc * h (fst kc)) co)
  | EProdRatio _ _ nu de =>
    expr_den e rho *
     (hsum (map rho nu) (map gi nu) (map gj nu) (map h nu) - hsum (map rho de) (map gi de) (map gj de) (map h de)
      + (nsum (map rho nu) (map gi nu) - nsum (map rho de) (map gi de))
        * (nsum (map rho nu) (map gj nu) - nsum (map rho de) (map gj de)))
  | EExp _ k => exp (rho k) * (h k + gi k * gj k)
  | EFormula _ _ => 0
  end.

Lemma der_nsum (v w : string -> R -> R) (gi h : env) x0 l :
  (forall k, In k l -> der (v k) x0 (gi k) /\ der (w k) x0 (h k) /\ v k x0 <> 0) ->
  der (fun x => nsum (map (fun k => v k x) l) (map (fun k => w k x) l)) x0
      (hsum (map (fun k => v k x0) l) (map gi l) (map (fun k => w k x0) l) (map h l)).
Proof.
  induction l as [|k l IH]; intros H; cbn [map nsum hsum]; [apply der_const|].
  destruct (H k (or_introl eq_refl)) as (H1 & H2 & H3).
  apply der_plus; [|apply IH; intros; apply H; right; assumption].
  eapply der_val; [apply (der_div (w k) (v k)); eassumption|]. field. exact H3.
Qed.

Lemma expr_dgrad_log e rho g : not_formula e -> dens_ok1 e rho -> nums_ok1 e rho ->
  match e with EProdRatio _ _ nu de =>
    expr_dgrad e rho g = expr_den e rho * (nsum (map rho nu) (map g nu) - nsum (map rho de) (map g de))
  | _ => True end.
Proof.
  destruct e as [n v|n|n nom co|n pf nu de|n k|n fm]; cbn [dens_ok1 nums_ok1 expr_dgrad expr_den]; auto. intros _ Hd Hn.
  rewrite dprod_nsum.
  - field. apply lprod_nz. intros x Hx; apply in_map_iff in Hx; destruct Hx as (k & <- & Hk); apply Hd; exact Hk.
  - intros x Hx; apply in_map_iff in Hx; destruct Hx as (k & <- & Hk); apply Hn; exact Hk.
  - rewrite !map_length; reflexivity.
Qed.

Lemma expr_dgrad_derive e (v w : string -> R -> R) (gi h : env) x0 :
  not_formula e ->
  (forall k, In k (deps e) -> der (w k) x0 (h k)) ->
  (match e with ELinComb _ _ _ | ESingle _ => True | _ => forall k, In k (deps e) -> der (v k) x0 (gi k) end) ->
  dens_ok1 e (fun k => v k x0) -> nums_ok1 e (fun k => v k x0) ->
  der (fun x => expr_dgrad e (fun k => v k x) (fun k => w k x)) x0
      (expr_dhess e (fun k => v k x0) gi (fun k => w k x0) h).
Proof.
  intros Hnf H Hv Hd Hn.
  destruct e as [n x|n|n nom co|n pf nu de|n k|n fm]; cbn [not_formula] in Hnf.
  - cbn [expr_dgrad expr_dhess]. apply der_const.
  - cbn [expr_dgrad expr_dhess]. apply H; left; reflexivity.
  - cbn [expr_dgrad expr_dhess]. apply (der_lsum co (fun kc x => snd kc * w (fst kc) x)).
    intros [k c] Hk; cbn [fst snd]. apply der_scal. apply H. cbn [deps]. unfold keys. change k with (fst (k, c)). apply in_map; exact Hk.
  - cbn [deps] in *.
    assert (Hloc : locally x0 (fun x => dens_ok1 (EProdRatio n pf nu de) (fun k => v k x) /\ nums_ok1 (EProdRatio n pf nu de) (fun k => v k x))).
    { cbn [dens_ok1 nums_ok1] in *. apply filter_and; apply locally_forall_in; intros k Hk.
      - apply (der_locally_nz _ _ (gi k)); [apply Hv; apply in_or_app; right; exact Hk|apply Hd; exact Hk].
      - apply (der_locally_nz _ _ (gi k)); [apply Hv; apply in_or_app; left; exact Hk|apply Hn; exact Hk]. }
    apply (der_ext_loc (fun x => expr_den (EProdRatio n pf nu de) (fun k => v k x) *
             (nsum (map (fun k => v k x) nu) (map (fun k => w k x) nu) - nsum (map (fun k => v k x) de) (map (fun k => w k x) de)))).
    { refine (filter_imp _ _ _ Hloc). intros x [Hx1 Hx2]. symmetry.
      apply (expr_dgrad_log (EProdRatio n pf nu de) (fun k => v k x) (fun k => w k x) I Hx1 Hx2). }
    assert (D1 := expr_den_derive (EProdRatio n pf nu de) v gi x0 Hv Hd).
    rewrite (expr_dgrad_log (EProdRatio n pf nu de) (fun k => v k x0) gi I Hd Hn) in D1.
    assert (D2 : der (fun x => nsum (map (fun k => v k x) nu) (map (fun k => w k x) nu)) x0
        (hsum (map (fun k => v k x0) nu) (map gi nu) (map (fun k => w k x0) nu) (map h nu))).
    { apply der_nsum. intros k Hk. split; [apply Hv; apply in_or_app; left; exact Hk|split; [apply H; apply in_or_app; left; exact Hk|apply Hn; exact Hk]]. }
    assert (D3 : der (fun x => nsum (map (fun k => v k x) de) (map (fun k => w k x) de)) x0
        (hsum (map (fun k => v k x0) de) (map gi de) (map (fun k => w k x0) de) (map h de))).
    { apply der_nsum. intros k Hk. split; [apply Hv; apply in_or_app; right; exact Hk|split; [apply H; apply in_or_app; right; exact Hk|apply Hd; exact Hk]]. }
    eapply der_val; [apply der_mult; [exact D1|apply der_minus; [exact D2|exact D3]]|].
    cbn beta. cbn [expr_dhess]. ring.
  - cbn [expr_dgrad expr_dhess deps] in *.
    assert (D1 : der (fun x => exp (v k x)) x0 (exp (v k x0) * gi k)) by (apply der_exp; apply Hv; left; reflexivity).
    assert (D2 : der (w k) x0 (h k)) by (apply H; left; reflexivity).
    eapply der_val; [apply der_mult; [exact D1|exact D2]|]. cbn beta. ring.
  - destruct Hnf.
Qed.

Lemma ordered_split avail pre e post : ordered avail (pre ++ e :: post) -> incl (deps e) (avail ++ map expr_name pre).
Proof.
  revert avail; induction pre as [|e0 pre IH]; cbn [app ordered map]; intros avail (Hd & Hn & Hf & Ho).
  - rewrite app_nil_r; exact Hd.
  - specialize (IH _ Ho). rewrite <- app_assoc in IH. exact IH.
Qed.

Lemma keys_dgetE {V} k (d : dict V) : In k (keys d) -> exists v, dgetE k d = Ok v.
Proof.
  intros H. apply dmem_spec in H. unfold dmem in H. unfold dgetE. destruct (dget k d); [eauto|discriminate].
Qed.

Lemma mapM_total {A B} (f : A -> res B) l : (forall a, In a l -> exists b, f a = Ok b) -> exists r, mapM f l = Ok r.
Proof.
  induction l as [|a l IH]; cbn [mapM]; intros H; [eauto|].
  destruct (H a (or_introl eq_refl)) as (b & ->). destruct IH as (r & ->); [intros; apply H; right; assumption|].
  cbn [bind]; eauto.
Qed.

Lemma lincomb_total co d v0 : incl (keys co) (keys d) -> exists v, lincomb_loop co d v0 = Ok v.
Proof.
  revert v0; induction co as [|[k c] co IH]; cbn [lincomb_loop keys map fst]; intros v0 H; [eauto|].
  destruct (keys_dgetE k d (H k (or_introl eq_refl))) as (v & Hv). unfold dgetE in Hv. destruct (dget k d); [|discriminate].
  apply IH. intros a Ha; apply H; right; exact Ha.
Qed.

Lemma expr_value_total e d rho : incl (deps e) (keys d) -> not_formula e -> agrees d rho -> dens_ok1 e rho ->
  exists v, expr_value e d = Ok v.
Proof.
  destruct e as [n v|n|n nom co|n pf nu de|n k|n fm]; cbn [deps not_formula dens_ok1 expr_value]; intros Hi Hnf Ha Hd; eauto.
  - apply keys_dgetE. apply Hi; left; reflexivity.
  - apply lincomb_total; exact Hi.
  - unfold product_value.
    destruct (mapM_total (fun k => dgetE k d) nu) as (nv & Hnv).
    { intros a Ha'. apply keys_dgetE. apply Hi; apply in_or_app; left; exact Ha'. }
    destruct (mapM_total (fun k => dgetE k d) de) as (dv & Hdv).
    { intros a Ha'. apply keys_dgetE. apply Hi; apply in_or_app; right; exact Ha'. }
    rewrite Hnv, Hdv; cbn [bind]. rewrite (proj2 (Reqb_false _ _)); [eauto|].
    rewrite (proj2 (mapM_dget_ok _ _ _ Hdv) rho Ha). apply lprod_nz. intros x Hx. apply in_map_iff in Hx.
    destruct Hx as (k & <- & Hk). apply Hd; exact Hk.
  - destruct (keys_dgetE k d (Hi k (or_introl eq_refl))) as (v & ->). cbn [bind]; eauto.
  - destruct Hnf.
Qed.

Section Grad.
Variables (exprs : list expr) (base vals : dict R).
Hypothesis Hok : real_vals exprs base = Ok vals.
Hypothesis Hnd : NoDup (keys base ++ map expr_name exprs).
Variable pars : list string.

Let rls := reals (keys base) exprs.
Let rho0 := env_of base.
Let F (rho : env) (n : string) : R := env_den exprs rho n.

Let Hord : ordered (keys base) exprs.
Proof. exact (proj1 (real_vals_ok _ _ _ Hok Hnd)). Qed.
Let Hagr : agrees vals (env_den exprs rho0).
Proof. exact (proj1 (proj2 (real_vals_ok _ _ _ Hok Hnd)) rho0 (agrees_env_of base)). Qed.
Let Hden : forall e, In e exprs -> dens_ok1 e (env_den exprs rho0).
Proof. exact (proj1 (proj2 (proj2 (real_vals_ok _ _ _ Hok Hnd))) rho0 (agrees_env_of base)). Qed.

Definition known (e : expr) : Prop := In e exprs \/ exists k, In k (keys base) /\ e = ESingle k.

Lemma known_reals k r : dget k rls = Some r -> known r /\ expr_name r = k.
Proof.
  intros H. destruct (reals_inv _ _ _ _ H) as [[H1 H2]|[H1 ->]].
  - split; [left; exact H1|exact H2].
  - split; [right; exists k; split; auto|reflexivity].
Qed.

Lemma F_at_base p n : F (upd rho0 p (rho0 p)) n = F rho0 n.
Proof. unfold F. apply env_den_ext. apply upd_same. Qed.

Lemma vals_map ks vs : mapM (fun k => dgetE k vals) ks = Ok vs -> vs = map (F rho0) ks.
Proof. intros H. apply (proj2 (mapM_dget_ok _ _ _ H)). exact Hagr. Qed.

Lemma sub_der fuel p i : 
  (forall e gv, known e -> gradient fuel pars rls vals e = Ok gv ->
     der (fun x => F (upd rho0 p x) (expr_name e)) (rho0 p) (gv i)) ->
  forall k gv, (let! r := dgetE k rls in gradient fuel pars rls vals r) = Ok gv ->
     der (fun x => F (upd rho0 p x) k) (rho0 p) (gv i).
Proof.
  intros IH k gv H. apply bind_Ok in H. destruct H as (r & Hr & H).
  unfold dgetE in Hr. destruct (dget k rls) as [r'|] eqn:E; [|discriminate]. inversion Hr; subst r'.
  destruct (known_reals _ _ E) as [Hk Hn]. rewrite <- Hn. apply IH; assumption.
Qed.

Lemma grad_known fuel p i e gv : nth_error pars i = Some p -> known e ->
  gradient fuel pars rls vals e = Ok gv ->
  der (fun x => F (upd rho0 p x) (expr_name e)) (rho0 p) (gv i).
Proof.
  intros Hp. revert e gv. induction fuel as [|fuel IH]; intros e gv Hk H; [discriminate|].
  assert (Hsub := sub_der fuel p i IH). clear IH.
  destruct Hk as [Hin|(k & Hkb & ->)].
  - apply (der_ext (fun x => expr_den e (F (upd rho0 p x)))).
    { intros x. symmetry. apply (env_den_fix _ _ _ _ Hord Hin). }
    assert (Hd : dens_ok1 e (fun k => F (upd rho0 p (rho0 p)) k)).
    { specialize (Hden e Hin). destruct e; cbn [dens_ok1] in *; auto. intros k Hk. rewrite F_at_base. apply Hden; exact Hk. }
    set (g := fun k => Derive (fun x => F (upd rho0 p x) k) (rho0 p)).
    assert (Hg : forall k gk, (let! r := dgetE k rls in gradient fuel pars rls vals r) = Ok gk -> 
               der (fun x => F (upd rho0 p x) k) (rho0 p) (g k) /\ gk i = g k).
    { intros k gk Hgk. assert (D := Hsub k gk Hgk).
      assert (E : g k = gk i) by (unfold g; apply der_Derive; exact D).
      rewrite E. split; [exact D|reflexivity]. }
    assert (Hgl : forall ks gs, mapM (fun k => let! r := dgetE k rls in gradient fuel pars rls vals r) ks = Ok gs ->
               (forall k, In k ks -> der (fun x => F (upd rho0 p x) k) (rho0 p) (g k)) /\
               map (fun gg => gg i) gs = map g ks /\ length gs = length ks).
    { intros ks gs Hm. pose proof (mapM_Ok_length _ _ _ Hm) as Hl. apply mapM_Forall2 in Hm. split; [|split; [|exact Hl]].
      - intros k Hk. destruct (Forall2_in_l _ _ _ _ Hm Hk) as (gk & _ & Hgk). apply (Hg k gk Hgk).
      - clear Hl. induction Hm as [|k gk ks gs H1 H2 IH]; cbn [map]; [reflexivity|]. rewrite IH. f_equal. apply (Hg k gk H1). }
    destruct e as [n v|n|n nom co|n pf nu de|n k|n fm]; cbn [gradient] in H.
    + inversion H; subst. cbn [expr_den]. apply der_const.
    + exfalso. apply (proj1 (ordered_not_self _ _ _ Hord Hin)). left; reflexivity.
    + apply bind_Ok in H. destruct H as (gs & Hm & H). inversion H; subst; clear H.
      apply mapM_Forall2 in Hm.
      eapply der_val.
      * apply (expr_den_derive _ (fun k x => F (upd rho0 p x) k) g); [|exact Hd].
        cbn [deps]. intros k Hkin. unfold keys in Hkin. apply in_map_iff in Hkin. destruct Hkin as ([k' c] & <- & Hkc).
        destruct (Forall2_in_l _ _ _ _ Hm Hkc) as ([c' gk] & _ & Hgk). cbn [fst snd] in *.
        apply bind_Ok in Hgk. destruct Hgk as (gk' & Hgk' & _). apply (Hg k' gk' Hgk').
      * cbn [expr_dgrad]. f_equal. apply Forall2_map_eq.
        refine (Forall2_impl_in _ _ _ _ _ Hm). intros [k c] [c' gk] _ Hgk. cbn [fst snd] in *.
        apply bind_Ok in Hgk. destruct Hgk as (gk' & Hgk' & HE). inversion HE; subst. rewrite (proj2 (Hg k gk Hgk')). reflexivity.
    + apply bind_Ok in H. destruct H as (nv & Hnv & H).
      apply bind_Ok in H. destruct H as (ng & Hng & H).
      apply bind_Ok in H. destruct H as (dv & Hdv & H).
      apply bind_Ok in H. destruct H as (dg & Hdg & H).
      apply bind_Ok in H. destruct H as (gd & Hgd & H).
      apply bind_Ok in H. destruct H as (d & Hpd & H).
      apply bind_Ok in H. destruct H as (v & Hv & H). inversion H; subst; clear H.
      destruct (Hgl _ _ Hng) as (HD1 & HM1 & HL1). destruct (Hgl _ _ Hdg) as (HD2 & HM2 & HL2).
      pose proof (vals_map _ _ Hnv) as En. pose proof (vals_map _ _ Hdv) as Ed.
      eapply der_val.
      * apply (expr_den_derive _ (fun k x => F (upd rho0 p x) k) g); [|exact Hd].
        cbn [deps]. intros k Hkin. apply in_app_or in Hkin. destruct Hkin as [Hkin|Hkin]; [apply HD1|apply HD2]; exact Hkin.
      * cbn [expr_dgrad].
        destruct (norm_gradient_nsum _ _ _ Hgd) as [_ ->]; [rewrite HL2, Ed, map_length; reflexivity|].
        rewrite prod_gradient_dprod by (rewrite HL1, En, map_length; reflexivity).
        rewrite HM1, HM2.
        destruct (expr_value_ok _ _ _ Hv) as (_ & _ & Hval). rewrite (proj1 (Hval _ Hagr)).
        unfold product_value in Hpd. rewrite Hdv in Hpd. cbn [bind] in Hpd. inversion Hpd; subst d.
        rewrite En, Ed. unfold F at 1 2 3 4.
        rewrite (map_ext (fun k => env_den exprs (upd rho0 p (rho0 p)) k) (fun k => F rho0 k) (F_at_base p)).
        rewrite (map_ext (fun k => env_den exprs (upd rho0 p (rho0 p)) k) (fun k => F rho0 k) (F_at_base p)).
        f_equal. f_equal. cbn [expr_den].
        rewrite (map_ext (fun k => env_den exprs (upd rho0 p (rho0 p)) k) (fun k => F rho0 k) (F_at_base p)).
        rewrite (map_ext (fun k => env_den exprs (upd rho0 p (rho0 p)) k) (fun k => F rho0 k) (F_at_base p)).
        reflexivity.
    + apply bind_Ok in H. destruct H as (v & Hv & H). apply bind_Ok in H. destruct H as (gk & Hgk & H).
      inversion H; subst; clear H. destruct (Hg _ _ Hgk) as [HD HE].
      eapply der_val.
      * apply (expr_den_derive _ (fun k x => F (upd rho0 p x) k) g); [|exact Hd].
        cbn [deps]. intros k' [<-|[]]. exact HD.
      * cbn [expr_dgrad]. rewrite HE. rewrite F_at_base.
        destruct (expr_value_ok _ _ _ Hv) as (_ & _ & Hval). rewrite (proj1 (Hval _ Hagr)). reflexivity.
    + discriminate.
  - cbn [gradient] in H. inversion H; subst; clear H. cbn [expr_name]. rewrite Hp.
    apply (der_ext (fun x => upd rho0 p x k)).
    { intros x. symmetry. unfold F. apply (env_den_avail _ _ _ _ Hord Hkb). }
    unfold upd. destruct (String.eqb k p) eqn:E.
    + rewrite String.eqb_sym, E. apply der_id.
    + rewrite String.eqb_sym, E. apply der_const.
Qed.


Lemma hess_known fuel pi pj i j e hv : nth_error pars i = Some pi -> nth_error pars j = Some pj -> known e ->
  hessian fuel pars rls vals e = Ok hv ->
  let c := fun x => upd rho0 pi x pj in
  let f2 := fun x y => F (upd (upd rho0 pi x) pj y) (expr_name e) in
  locally (rho0 pi) (fun x => ex_derive (f2 x) (c x)) /\
  der (fun x => Derive (f2 x) (c x)) (rho0 pi) (hv i j).
Proof.
  intros Hpi Hpj. revert e hv. induction fuel as [|fuel IH]; intros e hv Hk H; [discriminate|].
  set (c := fun x => upd rho0 pi x pj).
  assert (Hsubh : forall k hk, (let! r := dgetE k rls in hessian fuel pars rls vals r) = Ok hk ->
     locally (rho0 pi) (fun x => ex_derive (fun y => F (upd (upd rho0 pi x) pj y) k) (c x)) /\
     der (fun x => Derive (fun y => F (upd (upd rho0 pi x) pj y) k) (c x)) (rho0 pi) (hk i j)).
  { intros k hk Hh. apply bind_Ok in Hh. destruct Hh as (r & Hr & Hh).
    unfold dgetE in Hr. destruct (dget k rls) as [r'|] eqn:E; [|discriminate]. inversion Hr; subst r'.
    destruct (known_reals _ _ E) as [Hkn Hn]. rewrite <- Hn. apply IH; assumption. }
  assert (Hsubg : forall q m, nth_error pars m = Some q -> forall k gk, (let! r := dgetE k rls in gradient fuel pars rls vals r) = Ok gk ->
     der (fun x => F (upd rho0 q x) k) (rho0 q) (gk m)).
  { intros q m Hq. apply (sub_der fuel q m). intros e' gv' Hk' Hg'. apply (grad_known fuel q m e' gv' Hq Hk' Hg'). }
  clear IH. cbn zeta. fold c.
  destruct Hk as [Hin|(k & Hkb & ->)].
  - set (v := fun k x => F (upd rho0 pi x) k).
    set (w := fun k x => Derive (fun y => F (upd (upd rho0 pi x) pj y) k) (c x)).
    set (gi := fun k => Derive (fun x => F (upd rho0 pi x) k) (rho0 pi)).
    set (h := fun k => Derive (w k) (rho0 pi)).
    assert (Ev : forall k, v k (rho0 pi) = F rho0 k) by (intros k; unfold v; apply F_at_base).
    assert (Evx : forall k x, F (upd (upd rho0 pi x) pj (c x)) k = v k x).
    { intros k x. unfold v, F, c. apply env_den_ext. apply upd_same. }
    assert (Ew : forall k, w k (rho0 pi) = Derive (fun y => F (upd rho0 pj y) k) (rho0 pj)).
    { intros k. unfold w, c. rewrite upd_same. apply Derive_ext. intros y. unfold F. apply env_den_ext.
      intros z. unfold upd. destruct (String.eqb z pj); [reflexivity|]. destruct (String.eqb z pi) eqn:Ez; [|reflexivity].
      apply String.eqb_eq in Ez; subst; reflexivity. }
    assert (Hh : forall k hk, (let! r := dgetE k rls in hessian fuel pars rls vals r) = Ok hk ->
        der (w k) (rho0 pi) (h k) /\ hk i j = h k /\ locally (rho0 pi) (fun x => ex_derive (fun y => F (upd (upd rho0 pi x) pj y) k) (c x))).
    { intros k hk Hhk. destruct (Hsubh k hk Hhk) as [L D].
      assert (E : h k = hk i j) by (unfold h, w; apply der_Derive; exact D). rewrite E. split; [exact D|split; [reflexivity|exact L]]. }
    assert (Hhl : forall ks hs, mapM (fun k => let! r := dgetE k rls in hessian fuel pars rls vals r) ks = Ok hs ->
        (forall k, In k ks -> der (w k) (rho0 pi) (h k) /\ locally (rho0 pi) (fun x => ex_derive (fun y => F (upd (upd rho0 pi x) pj y) k) (c x))) /\
        map (fun hh => hh i j) hs = map h ks /\ length hs = length ks).
    { intros ks hs Hm. pose proof (mapM_Ok_length _ _ _ Hm) as Hl. apply mapM_Forall2 in Hm. split; [|split; [|exact Hl]].
      - intros k Hk. destruct (Forall2_in_l _ _ _ _ Hm Hk) as (hk & _ & Hhk). destruct (Hh k hk Hhk) as (A & _ & B). split; assumption.
      - clear Hl. induction Hm as [|k hk ks hs H1 H2 IHm]; cbn [map]; [reflexivity|]. rewrite IHm. f_equal. apply (Hh k hk H1). }
    assert (Hg : forall k gk, (let! r := dgetE k rls in gradient fuel pars rls vals r) = Ok gk ->
        der (v k) (rho0 pi) (gi k) /\ gk i = gi k /\ gk j = w k (rho0 pi)).
    { intros k gk Hgk. assert (D1 := Hsubg pi i Hpi k gk Hgk). assert (D2 := Hsubg pj j Hpj k gk Hgk).
      assert (E : gi k = gk i) by (unfold gi; apply der_Derive; exact D1). rewrite E, Ew, (der_Derive _ _ _ D2). split; [exact D1|split; reflexivity]. }
    assert (Hgl : forall ks gs, mapM (fun k => let! r := dgetE k rls in gradient fuel pars rls vals r) ks = Ok gs ->
        (forall k, In k ks -> der (v k) (rho0 pi) (gi k)) /\ map (fun gg => gg i) gs = map gi ks /\
        map (fun gg => gg j) gs = map (fun k => w k (rho0 pi)) ks /\ length gs = length ks).
    { intros ks gs Hm. pose proof (mapM_Ok_length _ _ _ Hm) as Hl. apply mapM_Forall2 in Hm. split; [|split; [|split; [|exact Hl]]].
      - intros k Hk. destruct (Forall2_in_l _ _ _ _ Hm Hk) as (gk & _ & Hgk). apply (Hg k gk Hgk).
      - clear Hl. induction Hm as [|k gk ks gs H1 H2 IHm]; cbn [map]; [reflexivity|]. rewrite IHm. f_equal. apply (Hg k gk H1).
      - clear Hl. induction Hm as [|k gk ks gs H1 H2 IHm]; cbn [map]; [reflexivity|]. rewrite IHm. f_equal. apply (Hg k gk H1). }
    (* generic conclusion from the derivatives of the inputs *)
    assert (Hgen : (forall k, In k (deps e) -> der (w k) (rho0 pi) (h k) /\ locally (rho0 pi) (fun x => ex_derive (fun y => F (upd (upd rho0 pi x) pj y) k) (c x))) ->
       (match e with ELinComb _ _ _ | ESingle _ => True | _ => forall k, In k (deps e) -> der (v k) (rho0 pi) (gi k) end) ->
       nums_ok1 e (fun k => v k (rho0 pi)) ->
       hv i j = expr_dhess e (fun k => v k (rho0 pi)) gi (fun k => w k (rho0 pi)) h ->
       locally (rho0 pi) (fun x => ex_derive (fun y => F (upd (upd rho0 pi x) pj y) (expr_name e)) (c x)) /\
       der (fun x => Derive (fun y => F (upd (upd rho0 pi x) pj y) (expr_name e)) (c x)) (rho0 pi) (hv i j)).
    { intros Hw Hv Hnum Hhv.
      assert (Hnf := proj2 (ordered_not_self _ _ _ Hord Hin)).
      assert (Hd0 : dens_ok1 e (fun k => v k (rho0 pi))).
      { specialize (Hden e Hin). destruct e; cbn [dens_ok1] in *; auto. intros k Hk. rewrite Ev. apply Hden; exact Hk. }
      assert (Hdl : locally (rho0 pi) (fun x => dens_ok1 e (fun k => v k x))).
      { destruct e as [| | |n pf nu de| |]; cbn [dens_ok1 deps] in *; try (apply filter_forall; intros; exact I).
        apply locally_forall_in. intros k Hk. apply (der_locally_nz _ _ (gi k)); [apply Hv; apply in_or_app; right; exact Hk|apply Hd0; exact Hk]. }
      assert (Hel : locally (rho0 pi) (fun x => forall k, In k (deps e) -> ex_derive (fun y => F (upd (upd rho0 pi x) pj y) k) (c x))).
      { apply locally_forall_in. intros k Hk. apply (Hw k Hk). }
      assert (Hpt : locally (rho0 pi) (fun x => der (fun y => F (upd (upd rho0 pi x) pj y) (expr_name e)) (c x) (expr_dgrad e (fun k => v k x) (fun k => w k x)))).
      { refine (filter_imp _ _ _ (filter_and _ _ Hdl Hel)). intros x [Hx1 Hx2].
        apply (der_ext (fun y => expr_den e (F (upd (upd rho0 pi x) pj y)))).
        { intros y. symmetry. apply (env_den_fix _ _ _ _ Hord Hin). }
        eapply der_val.
        - apply (expr_den_derive e (fun k y => F (upd (upd rho0 pi x) pj y) k) (fun k => w k x) (c x)).
          + intros k Hk. apply ex_der. apply Hx2; exact Hk.
          + destruct e; cbn [dens_ok1] in *; auto. intros k Hk. rewrite Evx. apply Hx1; exact Hk.
        - destruct e; cbn [expr_dgrad]; rewrite ?Evx; try reflexivity.
          cbn [expr_den]. rewrite !(map_ext (fun k => F (upd (upd rho0 pi x) pj (c x)) k) (fun k => v k x) (fun k => Evx k x)). reflexivity. }
      split.
      - refine (filter_imp _ _ _ Hpt). intros x Hx. apply (der_ex _ _ _ Hx).
      - apply (der_ext_loc (fun x => expr_dgrad e (fun k => v k x) (fun k => w k x))).
        { refine (filter_imp _ _ _ Hpt). intros x Hx. symmetry. apply der_Derive; exact Hx. }
        rewrite Hhv. apply expr_dgrad_derive; auto. intros k Hk; apply (Hw k Hk). }
    destruct e as [n v0|n|n nom co|n pf nu de|n k|n fm]; cbn [hessian] in H.
    + apply Hgen; cbn; auto; try (intros ? []). inversion H; subst; reflexivity.
    + exfalso. apply (proj1 (ordered_not_self _ _ _ Hord Hin)). left; reflexivity.
    + apply bind_Ok in H. destruct H as (hs & Hm & H). inversion H; subst; clear H. apply mapM_Forall2 in Hm.
      apply Hgen; cbn [deps nums_ok1]; auto.
      * intros k Hkin. unfold keys in Hkin. apply in_map_iff in Hkin. destruct Hkin as ([k' c'] & <- & Hkc).
        destruct (Forall2_in_l _ _ _ _ Hm Hkc) as ([c2 hk] & _ & Hhk). cbn [fst snd] in *.
        apply bind_Ok in Hhk. destruct Hhk as (hk' & Hhk' & _). destruct (Hh k' hk' Hhk') as (A & _ & B); split; assumption.
      * cbn [expr_dhess]. f_equal. symmetry. apply Forall2_map_eq.
        refine (Forall2_impl_in _ _ _ _ _ Hm). intros [k c'] [c2 hk] _ Hhk. cbn [fst snd] in *.
        apply bind_Ok in Hhk. destruct Hhk as (hk' & Hhk' & HE). inversion HE; subst. rewrite (proj1 (proj2 (Hh k hk Hhk'))). reflexivity.
    + apply bind_Ok in H. destruct H as (nv & Hnv & H).
      apply bind_Ok in H. destruct H as (ng & Hng & H).
      apply bind_Ok in H. destruct H as (nh & Hnh & H).
      apply bind_Ok in H. destruct H as (dv & Hdv & H).
      apply bind_Ok in H. destruct H as (dg & Hdg & H).
      apply bind_Ok in H. destruct H as (dh & Hdh & H).
      apply bind_Ok in H. destruct H as (hn & Hhn & H).
      apply bind_Ok in H. destruct H as (hd & Hhd & H).
      apply bind_Ok in H. destruct H as (gn & Hgn & H).
      apply bind_Ok in H. destruct H as (gd & Hgd & H).
      apply bind_Ok in H. destruct H as (vv & Hvv & H). inversion H; subst; clear H.
      destruct (Hgl _ _ Hng) as (HD1 & HM1 & HM1' & HL1). destruct (Hgl _ _ Hdg) as (HD2 & HM2 & HM2' & HL2).
      destruct (Hhl _ _ Hnh) as (HH1 & HN1 & HK1). destruct (Hhl _ _ Hdh) as (HH2 & HN2 & HK2).
      pose proof (vals_map _ _ Hnv) as En. pose proof (vals_map _ _ Hdv) as Ed.
      assert (Ln : length nv = length nu) by (rewrite En, map_length; reflexivity).
      assert (Ld : length dv = length de) by (rewrite Ed, map_length; reflexivity).
      destruct (norm_gradient_nsum _ _ _ Hgn) as [Hnz Egn]; [congruence|].
      destruct (norm_gradient_nsum _ _ _ Hgd) as [_ Egd]; [congruence|].
      destruct (norm_hessian_hsum _ _ _ _ Hhn) as [_ Ehn]; [congruence|congruence|].
      destruct (norm_hessian_hsum _ _ _ _ Hhd) as [_ Ehd]; [congruence|congruence|].
      apply Hgen; cbn [deps nums_ok1].
      * intros k Hk. apply in_app_or in Hk. destruct Hk as [Hk|Hk]; [apply HH1|apply HH2]; exact Hk.
      * intros k Hk. apply in_app_or in Hk. destruct Hk as [Hk|Hk]; [apply HD1|apply HD2]; exact Hk.
      * intros k Hk. rewrite Ev. apply Hnz. rewrite En. apply in_map; exact Hk.
      * cbn [expr_dhess]. rewrite Ehn, Ehd, !Egn, !Egd, HM1, HM1', HM2, HM2', HN1, HN2.
        destruct (expr_value_ok _ _ _ Hvv) as (_ & _ & Hval). rewrite (proj1 (Hval _ Hagr)). rewrite En, Ed.
        rewrite !(map_ext (fun k => v k (rho0 pi)) (F rho0) Ev). cbn [expr_den].
        rewrite !(map_ext (fun k => v k (rho0 pi)) (F rho0) Ev). reflexivity.
    + apply bind_Ok in H. destruct H as (vv & Hvv & H).
      apply bind_Ok in H. destruct H as (gk & Hgk & H).
      apply bind_Ok in H. destruct H as (hk & Hhk & H). inversion H; subst; clear H.
      destruct (Hg _ _ Hgk) as (G1 & G2 & G3). destruct (Hh _ _ Hhk) as (K1 & K2 & K3).
      apply Hgen; cbn [deps nums_ok1]; auto.
      * intros k' [<-|[]]; split; assumption.
      * intros k' [<-|[]]; exact G1.
      * cbn [expr_dhess]. rewrite K2, G2, G3, Ev.
        destruct (expr_value_ok _ _ _ Hvv) as (_ & _ & Hval). rewrite (proj1 (Hval _ Hagr)). reflexivity.
    + discriminate.
  - cbn [hessian] in H. inversion H; subst; clear H. cbn [expr_name].
    assert (E : forall x y, F (upd (upd rho0 pi x) pj y) k = if String.eqb k pj then y else upd rho0 pi x k).
    { intros x y. unfold F. rewrite (env_den_avail _ _ _ _ Hord Hkb). reflexivity. }
    assert (D : forall x, der (fun y => F (upd (upd rho0 pi x) pj y) k) (c x) (if String.eqb k pj then 1 else 0)).
    { intros x. apply (der_ext (fun y => if String.eqb k pj then y else upd rho0 pi x k)); [intros y; symmetry; apply E|].
      destruct (String.eqb k pj); [apply der_id|apply der_const]. }
    split.
    + apply filter_forall. intros x. apply (der_ex _ _ _ (D x)).
    + apply (der_ext (fun _ => if String.eqb k pj then 1 else 0)); [intros x; symmetry; apply der_Derive; apply D|]. apply der_const.
Qed.

(** The computations succeed, for a recursion depth of the number of expressions + 1 *)
Lemma sub_in_pre pre e post k : exprs = pre ++ e :: post -> In k (deps e) ->
  (In k (keys base) /\ dget k rls = Some (ESingle k)) \/
  (exists pre' e' post', pre = pre' ++ e' :: post' /\ expr_name e' = k /\ dget k rls = Some e').
Proof.
  intros He Hk. assert (Ho := Hord). rewrite He in Ho. apply ordered_split in Ho. specialize (Ho k Hk).
  assert (Hnd2 : NoDup (map expr_name exprs)) by (exact (NoDup_app_r _ _ Hnd)).
  apply in_app_or in Ho. destruct Ho as [Hb|Hp].
  - left; split; [exact Hb|]. apply reals_param; [|exact Hb].
    intros C. clear -Hnd C Hb. induction (keys base) as [|a l IH]; [destruct Hb|].
    cbn [app] in Hnd. inversion Hnd as [|x y Hn1 Hn2]; subst. destruct Hb as [->|Hb]; [|apply IH; auto].
    apply Hn1. apply in_or_app; right; exact C.
  - right. apply in_map_iff in Hp. destruct Hp as (e' & Hn & Hin). apply in_split in Hin. destruct Hin as (pre' & post' & ->).
    exists pre', e', post'. repeat split; auto. rewrite <- Hn. apply reals_expr; [exact Hnd2|].
    rewrite He. apply in_or_app; left. apply in_or_app; right; left; reflexivity.
Qed.

Lemma dep_in_vals e k : In e exprs -> In k (deps e) -> exists v, dgetE k vals = Ok v.
Proof.
  intros Hin Hk. apply keys_dgetE. rewrite (proj2 (proj2 (proj2 (real_vals_ok _ _ _ Hok Hnd)))).
  apply in_split in Hin. destruct Hin as (pre & post & He). assert (Ho := Hord). rewrite He in Ho. apply ordered_split in Ho.
  specialize (Ho k Hk). apply in_app_or in Ho. apply in_or_app. destruct Ho as [Ho|Ho]; [left; exact Ho|right].
  rewrite He, map_app. apply in_or_app; left; exact Ho.
Qed.

Lemma value_total e : In e exprs -> exists v, expr_value e vals = Ok v.
Proof.
  intros Hin. apply (expr_value_total e vals (env_den exprs rho0)); auto.
  - intros k Hk. destruct (dep_in_vals e k Hin Hk) as (v & Hv). unfold dgetE in Hv. apply dmem_spec. unfold dmem. destruct (dget k vals); [reflexivity|discriminate].
  - exact (proj2 (ordered_not_self _ _ _ Hord Hin)).
Qed.

Lemma norm_gradient_total e ks vs gs : In e exprs -> (forall k, In k ks -> F rho0 k <> 0) ->
  mapM (fun k => dgetE k vals) ks = Ok vs -> exists gv, norm_gradient vs gs = Ok gv.
Proof.
  intros Hin Hnz Hm. unfold norm_gradient. rewrite existsb_zero_false_intro; [eauto|].
  intros x Hx. rewrite (vals_map _ _ Hm) in Hx. apply in_map_iff in Hx. destruct Hx as (k & <- & Hk). apply Hnz; exact Hk.
Qed.

Lemma norm_hessian_total ks vs gs hs : (forall k, In k ks -> F rho0 k <> 0) ->
  mapM (fun k => dgetE k vals) ks = Ok vs -> exists hv, norm_hessian vs gs hs = Ok hv.
Proof.
  intros Hnz Hm. unfold norm_hessian. rewrite existsb_zero_false_intro; [eauto|].
  intros x Hx. rewrite (vals_map _ _ Hm) in Hx. apply in_map_iff in Hx. destruct Hx as (k & <- & Hk). apply Hnz; exact Hk.
Qed.

Lemma grad_total_pos : forall n pre e post fuel, exprs = pre ++ e :: post -> length pre = n -> (n + 2 <= fuel)%nat ->
  exists gv, gradient fuel pars rls vals e = Ok gv.
Proof.
  induction n as [n IH] using (well_founded_induction lt_wf). intros pre e post fuel He Hl Hf.
  destruct fuel as [|fuel]; [lia|].
  assert (Hin : In e exprs) by (rewrite He; apply in_or_app; right; left; reflexivity).
  assert (Hsub : forall k, In k (deps e) -> exists gv, (let! r := dgetE k rls in gradient fuel pars rls vals r) = Ok gv).
  { intros k Hk. destruct (sub_in_pre pre e post k He Hk) as [[_ Hg]|(pre' & e' & post' & Hp & Hn & Hg)];
      unfold dgetE; rewrite Hg; cbn [bind].
    - destruct fuel; [lia|]. cbn [gradient]. eauto.
    - apply (IH (length pre')) with (pre := pre') (post := post' ++ e :: post); auto.
      + rewrite <- Hl, Hp, app_length; cbn [length]; lia.
      + rewrite He, Hp, <- app_assoc; reflexivity.
      + rewrite <- Hl, Hp, app_length in Hf; cbn [length] in Hf; lia. }
  assert (Hdn := Hden e Hin). destruct (value_total e Hin) as (vv & Hvv).
  destruct e as [n0 v0|n0|n0 nom co|n0 pf nu de|n0 k|n0 fm]; cbn [gradient]; eauto.
  - destruct (mapM_total (fun kc : string * R => let! g := (let! r := dgetE (fst kc) rls in gradient fuel pars rls vals r) in Ok (snd kc, g)) co) as (gs & ->).
    { intros [k c] Hk. cbn [fst snd]. destruct (Hsub k) as (g & Hg).
      - cbn [deps]. unfold keys. change k with (fst (k, c)). apply in_map; exact Hk.
      - rewrite Hg. cbn [bind]; eauto. }
    cbn [bind]; eauto.
  - cbn [deps dens_ok1] in *.
    destruct (mapM_total (fun k => dgetE k vals) nu) as (nv & Hnv).
    { intros k Hk. apply (dep_in_vals _ k Hin). cbn [deps]. apply in_or_app; left; exact Hk. }
    destruct (mapM_total (fun k => dgetE k vals) de) as (dv & Hdv).
    { intros k Hk. apply (dep_in_vals _ k Hin). cbn [deps]. apply in_or_app; right; exact Hk. }
    destruct (mapM_total (fun k => let! r := dgetE k rls in gradient fuel pars rls vals r) nu) as (ng & Hng).
    { intros k Hk. apply Hsub. apply in_or_app; left; exact Hk. }
    destruct (mapM_total (fun k => let! r := dgetE k rls in gradient fuel pars rls vals r) de) as (dg & Hdg).
    { intros k Hk. apply Hsub. apply in_or_app; right; exact Hk. }
    destruct (norm_gradient_total _ de dv dg Hin Hdn Hdv) as (gd & Hgd).
    unfold product_value. rewrite Hnv; cbn [bind]. rewrite Hng; cbn [bind]. rewrite Hdv; cbn [bind]. rewrite Hdg; cbn [bind].
    rewrite Hgd; cbn [bind]. rewrite Hvv; cbn [bind]; eauto.
  - rewrite Hvv; cbn [bind]. destruct (Hsub k) as (g & ->); [left; reflexivity|]. cbn [bind]; eauto.
  - destruct (proj2 (ordered_not_self _ _ _ Hord Hin)).
Qed.

Lemma grad_total e fuel : In e exprs -> (length exprs + 1 <= fuel)%nat -> exists gv, gradient fuel pars rls vals e = Ok gv.
Proof.
  intros Hin Hf. apply in_split in Hin. destruct Hin as (pre & post & He).
  apply (grad_total_pos (length pre) pre e post fuel He eq_refl).
  rewrite He, app_length in Hf; cbn [length] in Hf; lia.
Qed.

Lemma hess_total_pos : (forall e, In e exprs -> nums_ok1 e (env_den exprs rho0)) ->
  forall n pre e post fuel, exprs = pre ++ e :: post -> length pre = n -> (n + 2 <= fuel)%nat ->
  exists hv, hessian fuel pars rls vals e = Ok hv.
Proof.
  intros Hnum. induction n as [n IH] using (well_founded_induction lt_wf). intros pre e post fuel He Hl Hf.
  destruct fuel as [|fuel]; [lia|].
  assert (Hin : In e exprs) by (rewrite He; apply in_or_app; right; left; reflexivity).
  assert (Hsubg : forall k, In k (deps e) -> exists gv, (let! r := dgetE k rls in gradient fuel pars rls vals r) = Ok gv).
  { intros k Hk. destruct (sub_in_pre pre e post k He Hk) as [[_ Hg]|(pre' & e' & post' & Hp & Hn & Hg)];
      unfold dgetE; rewrite Hg; cbn [bind].
    - destruct fuel; [lia|]. cbn [gradient]. eauto.
    - apply (grad_total_pos (length pre') pre' e' (post' ++ e :: post)); auto.
      + rewrite He, Hp, <- app_assoc; reflexivity.
      + rewrite <- Hl, Hp, app_length in Hf; cbn [length] in Hf; lia. }
  assert (Hsubh : forall k, In k (deps e) -> exists hv, (let! r := dgetE k rls in hessian fuel pars rls vals r) = Ok hv).
  { intros k Hk. destruct (sub_in_pre pre e post k He Hk) as [[_ Hg]|(pre' & e' & post' & Hp & Hn & Hg)];
      unfold dgetE; rewrite Hg; cbn [bind].
    - destruct fuel; [lia|]. cbn [hessian]. eauto.
    - apply (IH (length pre')) with (pre := pre') (post := post' ++ e :: post); auto.
      + rewrite <- Hl, Hp, app_length; cbn [length]; lia.
      + rewrite He, Hp, <- app_assoc; reflexivity.
      + rewrite <- Hl, Hp, app_length in Hf; cbn [length] in Hf; lia. }
  assert (Hdn := Hden e Hin). assert (Hnm := Hnum e Hin). destruct (value_total e Hin) as (vv & Hvv).
  destruct e as [n0 v0|n0|n0 nom co|n0 pf nu de|n0 k|n0 fm]; cbn [hessian]; eauto.
  - destruct (mapM_total (fun kc : string * R => let! h := (let! r := dgetE (fst kc) rls in hessian fuel pars rls vals r) in Ok (snd kc, h)) co) as (gs & ->).
    { intros [k c] Hk. cbn [fst snd]. destruct (Hsubh k) as (g & Hg).
      - cbn [deps]. unfold keys. change k with (fst (k, c)). apply in_map; exact Hk.
      - rewrite Hg. cbn [bind]; eauto. }
    cbn [bind]; eauto.
  - cbn [deps dens_ok1 nums_ok1] in *.
    destruct (mapM_total (fun k => dgetE k vals) nu) as (nv & Hnv).
    { intros k Hk. apply (dep_in_vals _ k Hin). cbn [deps]. apply in_or_app; left; exact Hk. }
    destruct (mapM_total (fun k => dgetE k vals) de) as (dv & Hdv).
    { intros k Hk. apply (dep_in_vals _ k Hin). cbn [deps]. apply in_or_app; right; exact Hk. }
    destruct (mapM_total (fun k => let! r := dgetE k rls in gradient fuel pars rls vals r) nu) as (ng & Hng).
    { intros k Hk. apply Hsubg. apply in_or_app; left; exact Hk. }
    destruct (mapM_total (fun k => let! r := dgetE k rls in gradient fuel pars rls vals r) de) as (dg & Hdg).
    { intros k Hk. apply Hsubg. apply in_or_app; right; exact Hk. }
    destruct (mapM_total (fun k => let! r := dgetE k rls in hessian fuel pars rls vals r) nu) as (nh & Hnh).
    { intros k Hk. apply Hsubh. apply in_or_app; left; exact Hk. }
    destruct (mapM_total (fun k => let! r := dgetE k rls in hessian fuel pars rls vals r) de) as (dh & Hdh).
    { intros k Hk. apply Hsubh. apply in_or_app; right; exact Hk. }
    destruct (norm_gradient_total _ de dv dg Hin Hdn Hdv) as (gd & Hgd).
    destruct (norm_gradient_total _ nu nv ng Hin Hnm Hnv) as (gn & Hgn).
    destruct (norm_hessian_total de dv dg dh Hdn Hdv) as (hd & Hhd).
    destruct (norm_hessian_total nu nv ng nh Hnm Hnv) as (hn & Hhn).
    rewrite Hnv; cbn [bind]. rewrite Hng; cbn [bind]. rewrite Hnh; cbn [bind].
    rewrite Hdv; cbn [bind]. rewrite Hdg; cbn [bind]. rewrite Hdh; cbn [bind].
    rewrite Hhn; cbn [bind]. rewrite Hhd; cbn [bind]. rewrite Hgn; cbn [bind]. rewrite Hgd; cbn [bind]. rewrite Hvv; cbn [bind]; eauto.
  - rewrite Hvv; cbn [bind]. destruct (Hsubg k) as (g & ->); [left; reflexivity|]. cbn [bind].
    destruct (Hsubh k) as (h & ->); [left; reflexivity|]. cbn [bind]; eauto.
  - destruct (proj2 (ordered_not_self _ _ _ Hord Hin)).
Qed.

Lemma hess_total e fuel : (forall e, In e exprs -> nums_ok1 e (env_den exprs rho0)) ->
  In e exprs -> (length exprs + 1 <= fuel)%nat -> exists hv, hessian fuel pars rls vals e = Ok hv.
Proof.
  intros Hnum Hin Hf. apply in_split in Hin. destruct Hin as (pre & post & He).
  apply (hess_total_pos Hnum (length pre) pre e post fuel He eq_refl).
  rewrite He, app_length in Hf; cbn [length] in Hf; lia.
Qed.

Lemma value_agrees n v : dget n vals = Some v -> v = env_den exprs (env_of base) n.
Proof. intros H. symmetry. apply Hagr; exact H. Qed.

End Grad.
