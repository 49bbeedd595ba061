(** Expressions: evaluation, gradients and Hessians *)
From Coquelicot Require Import Coquelicot.
From Verif Require Import Py PyFacts Base Expressions ExprSpec Deriv.
Local Open Scope string_scope.
Local Open Scope list_scope.

Definition deps (e : expr) : list string :=
  match e with
  | ENumber _ _ => []
  | ESingle n => [n]
  | ELinComb _ _ co => keys co
  | EProdRatio _ _ nu de => nu ++ de
  | EExp _ k => [k]
  | EFormula _ _ => []
  end.
Definition not_formula (e : expr) : Prop := match e with EFormula _ _ => False | _ => True end.

Fixpoint ordered (avail : list string) (exprs : list expr) : Prop :=
  match exprs with
  | [] => True
  | e :: r => incl (deps e) avail /\ ~ In (expr_name e) avail /\ not_formula e /\ ordered (avail ++ [expr_name e]) r
  end.

Lemma upd_eq rho k v : upd rho k v k = v.
Proof. unfold upd; rewrite String.eqb_refl; reflexivity. Qed.
Lemma upd_neq rho k v x : x <> k -> upd rho k v x = rho x.
Proof. intros H; unfold upd. apply String.eqb_neq in H; rewrite H; reflexivity. Qed.

Lemma expr_den_ext e r1 r2 : (forall k, In k (deps e) -> r1 k = r2 k) -> expr_den e r1 = expr_den e r2.
Proof.
  destruct e as [n v|n|n nom co|n pf nu de|n k|n f]; cbn [expr_den deps]; intros H; auto.
  - apply H; left; reflexivity.
  - f_equal. f_equal. apply map_ext_in. intros [k c] Hin; cbn [fst snd]. rewrite (H k); auto.
    unfold keys. change k with (fst (k, c)). apply in_map; exact Hin.
  - rewrite (map_ext_in r1 r2 nu), (map_ext_in r1 r2 de); auto; intros a Ha; apply H; apply in_or_app; auto.
  - rewrite H; auto; left; reflexivity.
Qed.

Lemma env_den_ext exprs r1 r2 : (forall k, r1 k = r2 k) -> forall k, env_den exprs r1 k = env_den exprs r2 k.
Proof.
  revert r1 r2; induction exprs as [|e r IH]; cbn [env_den]; intros r1 r2 H; [exact H|].
  apply IH. intros k. unfold upd. destruct (String.eqb k (expr_name e)); [|apply H].
  apply expr_den_ext; intros; apply H.
Qed.

Lemma env_den_avail exprs avail rho k : ordered avail exprs -> In k avail -> env_den exprs rho k = rho k.
Proof.
  revert avail rho; induction exprs as [|e r IH]; cbn [env_den ordered]; intros avail rho H Hk; [reflexivity|].
  destruct H as (Hd & Hn & _ & Ho).
  rewrite (IH _ _ Ho) by (apply in_or_app; left; exact Hk).
  apply upd_neq. intros ->; contradiction.
Qed.

Lemma env_den_fix exprs avail rho e : ordered avail exprs -> In e exprs ->
  env_den exprs rho (expr_name e) = expr_den e (env_den exprs rho).
Proof.
  revert avail rho; induction exprs as [|e0 r IH]; cbn [env_den ordered]; intros avail rho H Hin; [destruct Hin|].
  destruct H as (Hd & Hn & _ & Ho).
  destruct Hin as [->|Hin]; [|apply (IH _ _ Ho Hin)].
  rewrite (env_den_avail _ _ _ _ Ho) by (apply in_or_app; right; left; reflexivity).
  rewrite upd_eq. apply expr_den_ext. intros k Hk.
  rewrite (env_den_avail _ _ _ k Ho) by (apply in_or_app; left; apply Hd; exact Hk).
  rewrite upd_neq; [reflexivity|]. intros ->. apply Hn. apply Hd; exact Hk.
Qed.

(** evaluation agrees with the denotation *)
Definition agrees (d : dict R) (rho : env) := forall k v, dget k d = Some v -> rho k = v.

Lemma lincomb_loop_ok co d v0 v : lincomb_loop co d v0 = Ok v ->
  incl (keys co) (keys d) /\ forall rho, agrees d rho -> v = v0 + lsum (map (fun kc => snd kc * rho (fst kc)) co).
Proof.
  revert v0; induction co as [|[k c] co IH]; cbn [lincomb_loop]; intros v0 H.
  - inversion H; subst. split; [intros ? []|intros; cbn; ring].
  - destruct (dget k d) as [x|] eqn:E; [|discriminate].
    destruct (IH _ H) as [Hi Hv]. split.
    + intros a [<-|Ha]; [|apply Hi; exact Ha]. apply dget_In in E.
      cbn [fst]. unfold keys. change k with (fst (k, x)). apply in_map; exact E.
    + intros rho Hr. rewrite (Hv rho Hr). cbn [map lsum fst snd]. rewrite (Hr k x E). ring.
Qed.

Lemma mapM_dget_ok ks (d : dict R) vs : mapM (fun k => dgetE k d) ks = Ok vs ->
  incl ks (keys d) /\ forall rho, agrees d rho -> vs = map rho ks.
Proof.
  revert vs; induction ks as [|k ks IH]; cbn [mapM]; intros vs H.
  - inversion H; subst; split; [intros ? []|reflexivity].
  - inv_bind H. inversion H; subst. unfold dgetE in Hv. destruct (dget k d) as [x|] eqn:E; [|discriminate].
    inversion Hv; subst. destruct (IH _ Hv0) as [Hi Hm]. split.
    + intros a [<-|Ha]; [|apply Hi; exact Ha]. apply dget_In in E.
      unfold keys. change k with (fst (k, v)). apply in_map; exact E.
    + intros rho Hr. cbn [map]. rewrite <- (Hm rho Hr), (Hr k v E). reflexivity.
Qed.

Definition dens_ok1 (e : expr) (rho : env) : Prop :=
  match e with EProdRatio _ _ _ de => forall k, In k de -> rho k <> 0 | _ => True end.

Lemma lprod_nz l : lprod l <> 0 <-> forall x, In x l -> x <> 0.
Proof.
  induction l as [|a l IH]; cbn [lprod In].
  - split; [intros _ x []|intros _; lra].
  - split.
    + intros H x [<-|Hx]; [intros ->; apply H; ring|]. apply IH; [|exact Hx]. intros E; apply H; rewrite E; ring.
    + intros H. apply Rmult_integral_contrapositive_currified; [apply H; left; reflexivity|].
      apply IH. intros x Hx; apply H; right; exact Hx.
Qed.

Lemma expr_value_ok e d v : expr_value e d = Ok v ->
  incl (deps e) (keys d) /\ not_formula e /\
  forall rho, agrees d rho -> v = expr_den e rho /\ dens_ok1 e rho.
Proof.
  destruct e as [n x|n|n nom co|n pf nu de|n k|n f]; cbn [expr_value deps not_formula expr_den dens_ok1]; intros H.
  - inversion H; subst; repeat split; auto. intros ? [].
  - unfold dgetE in H. destruct (dget n d) as [x|] eqn:E; [|discriminate]. inversion H; subst.
    repeat split; auto.
    + intros a [<-|[]]. apply dget_In in E. unfold keys. change n with (fst (n, v)). apply in_map; exact E.
    + rewrite (H0 n v E); reflexivity.
  - destruct (lincomb_loop_ok _ _ _ _ H) as [Hi Hv]. repeat split; auto.
  - unfold product_value in H.
    destruct (mapM (fun k => dgetE k d) nu) as [nv|] eqn:E1; cbn [bind] in H; [|discriminate].
    destruct (mapM (fun k => dgetE k d) de) as [dv|] eqn:E2; cbn [bind] in H; [|discriminate].
    destruct (Reqb (lprod dv) 0) eqn:E; [discriminate|]. apply Reqb_false in E. inversion H; subst.
    destruct (mapM_dget_ok _ _ _ E1) as [Hi1 Hm1]. destruct (mapM_dget_ok _ _ _ E2) as [Hi2 Hm2].
    split; [intros a Ha; apply in_app_or in Ha; destruct Ha; auto|]. split; [exact I|].
    intros rho Hr. rewrite (Hm1 rho Hr), (Hm2 rho Hr). split; [reflexivity|].
    intros k Hk. rewrite (Hm2 rho Hr) in E. rewrite lprod_nz in E. apply E. apply in_map; exact Hk.
  - inv_bind H. unfold dgetE in Hv. destruct (dget k d) as [x|] eqn:E; [|discriminate]. inversion Hv; subst.
    inversion H; subst. repeat split; auto.
    + intros a [<-|[]]. apply dget_In in E. unfold keys. change k with (fst (k, v0)). apply in_map; exact E.
    + rewrite (H0 k v0 E); reflexivity.
  - discriminate.
Qed.

Lemma real_vals_ok exprs d d' : real_vals exprs d = Ok d' -> NoDup (keys d ++ map expr_name exprs) ->
  ordered (keys d) exprs /\
  (forall rho, agrees d rho -> agrees d' (env_den exprs rho)) /\
  (forall rho, agrees d rho -> forall e, In e exprs -> dens_ok1 e (env_den exprs rho)) /\
  keys d' = keys d ++ map expr_name exprs.
Proof.
  revert d; induction exprs as [|e r IH]; cbn [real_vals ordered env_den map]; intros d H Hd.
  - inversion H; subst. repeat split; auto; [intros; contradiction|rewrite app_nil_r; reflexivity].
  - inv_bind H. destruct (expr_value_ok _ _ _ Hv) as (Hi & Hnf & Hval).
    assert (Hnin : ~ In (expr_name e) (keys d)).
    { apply NoDup_remove_2 in Hd. intros C; apply Hd; apply in_or_app; left; exact C. }
    assert (Hk : keys (dset (expr_name e) v d) = keys d ++ [expr_name e]).
    { rewrite dset_app_new by exact Hnin. unfold keys. rewrite map_app. reflexivity. }
    assert (Hd2 : NoDup (keys (dset (expr_name e) v d) ++ map expr_name r)).
    { rewrite Hk, <- app_assoc. exact Hd. }
    destruct (IH _ H Hd2) as (Ho & Ha & Hden & Hkeys). rewrite Hk in Ho.
    assert (Hag : forall rho, agrees d rho -> agrees (dset (expr_name e) v d) (upd rho (expr_name e) (expr_den e rho))).
    { intros rho Hr k x Hg. destruct (String.string_dec k (expr_name e)) as [->|Hn].
      - rewrite dget_dset_eq in Hg. rewrite upd_eq. inversion Hg; subst. symmetry; apply Hval; exact Hr.
      - rewrite dget_dset_neq in Hg by exact Hn. rewrite upd_neq by exact Hn. apply Hr; exact Hg. }
    split; [repeat split; auto|]. split; [|split].
    + intros rho Hr. apply Ha. apply Hag; exact Hr.
    + intros rho Hr e' [<-|Hin].
      * destruct (Hval rho Hr) as [_ Hdn].
        destruct e; cbn [dens_ok1] in *; auto. intros k Hk2.
        rewrite (env_den_avail _ _ _ k Ho) by (apply in_or_app; left; apply Hi; cbn [deps]; apply in_or_app; right; exact Hk2).
        rewrite upd_neq; [apply Hdn; exact Hk2|]. intros ->. apply Hnin. apply Hi. cbn [deps]. apply in_or_app; right; exact Hk2.
      * apply Hden; auto.
    + rewrite Hkeys, Hk, <- app_assoc. reflexivity.
Qed.

(** the [reals] dictionary *)
Lemma fold_dset_expr exprs d k r :
  dget k (fold_left (fun d e => dset (expr_name e) e d) exprs d) = Some r ->
  (In r exprs /\ expr_name r = k) \/ dget k d = Some r.
Proof.
  revert d; induction exprs as [|e r0 IH]; cbn [fold_left]; intros d H; [right; exact H|].
  destruct (IH _ H) as [[Hin Hn]|Hg]; [left; split; [right; exact Hin|exact Hn]|].
  destruct (String.string_dec k (expr_name e)) as [->|Hne].
  - rewrite dget_dset_eq in Hg. inversion Hg; subst. left; split; [left; reflexivity|reflexivity].
  - rewrite dget_dset_neq in Hg by exact Hne. right; exact Hg.
Qed.

Lemma fold_dset_par params d k r :
  dget k (fold_left (fun d p => dset p (ESingle p) d) params d) = Some r ->
  (In k params /\ r = ESingle k) \/ dget k d = Some r.
Proof.
  revert d; induction params as [|p ps IH]; cbn [fold_left]; intros d H; [right; exact H|].
  destruct (IH _ H) as [[Hin Hn]|Hg]; [left; split; [right; exact Hin|exact Hn]|].
  destruct (String.string_dec k p) as [->|Hne].
  - rewrite dget_dset_eq in Hg. inversion Hg; subst. left; split; [left; reflexivity|reflexivity].
  - rewrite dget_dset_neq in Hg by exact Hne. right; exact Hg.
Qed.

Lemma reals_inv params exprs k r : dget k (reals params exprs) = Some r ->
  (In r exprs /\ expr_name r = k) \/ (In k params /\ r = ESingle k).
Proof.
  unfold reals; intros H. destruct (fold_dset_expr _ _ _ _ H) as [H1|H1]; [left; exact H1|].
  destruct (fold_dset_par _ _ _ _ H1) as [H2|H2]; [right; exact H2|discriminate].
Qed.

Lemma fold_dset_expr_other exprs d k : ~ In k (map expr_name exprs) ->
  dget k (fold_left (fun d e => dset (expr_name e) e d) exprs d) = dget k d.
Proof.
  revert d; induction exprs as [|e r IH]; cbn [fold_left map In]; intros d H; [reflexivity|].
  rewrite IH by (intros C; apply H; right; exact C). apply dget_dset_neq. intros ->; apply H; left; reflexivity.
Qed.

Lemma fold_dset_expr_in exprs d e : NoDup (map expr_name exprs) -> In e exprs ->
  dget (expr_name e) (fold_left (fun d e => dset (expr_name e) e d) exprs d) = Some e.
Proof.
  revert d; induction exprs as [|e0 r IH]; cbn [fold_left map]; intros d Hd Hin; [destruct Hin|].
  inversion Hd as [|a b Hn Hd']; subst.
  destruct Hin as [->|Hin]; [|apply IH; auto].
  rewrite fold_dset_expr_other by exact Hn. apply dget_dset_eq.
Qed.

Lemma fold_dset_par_in params d k : In k params \/ dget k d = Some (ESingle k) ->
  dget k (fold_left (fun d p => dset p (ESingle p) d) params d) = Some (ESingle k).
Proof.
  revert d; induction params as [|p ps IH]; cbn [fold_left]; intros d H; [destruct H as [[]|H]; exact H|].
  apply IH. destruct (String.string_dec k p) as [->|Hne].
  - right; apply dget_dset_eq.
  - rewrite dget_dset_neq by exact Hne. destruct H as [[H|H]|H]; [congruence|left; exact H|right; exact H].
Qed.

Lemma reals_expr params exprs e : NoDup (map expr_name exprs) -> In e exprs ->
  dget (expr_name e) (reals params exprs) = Some e.
Proof. intros; apply fold_dset_expr_in; auto. Qed.

Lemma reals_param params exprs k : ~ In k (map expr_name exprs) -> In k params ->
  dget k (reals params exprs) = Some (ESingle k).
Proof. intros H Hk. unfold reals. rewrite fold_dset_expr_other by exact H. apply fold_dset_par_in; left; exact Hk. Qed.

(** derivative of products *)
Fixpoint dprod (vs gs : list R) : R :=
  match vs, gs with
  | v :: vs', g :: gs' => g * lprod vs' + v * dprod vs' gs'
  | _, _ => 0
  end.

Lemma rsum_shift n f : rsum (S n) f = f 0%nat + rsum n (fun i => f (S i)).
Proof. induction n as [|n IH]; [cbn; ring|]. change (rsum (S (S n)) f) with (rsum (S n) f + f (S n)). rewrite IH. cbn [rsum]. ring. Qed.

Lemma prod_gradient_dprod vals grads i : length grads = length vals ->
  prod_gradient vals grads i = dprod vals (map (fun g => g i) grads).
Proof.
  unfold prod_gradient. revert grads; induction vals as [|v vs IH]; intros [|g gs] H; cbn [length] in H; try discriminate; [reflexivity|].
  cbn [length]. rewrite rsum_shift. cbn [set_nth lprod nth map dprod].
  rewrite (rsum_ext (length vs) _ (fun j => v * (lprod (set_nth j 1 vs) * nth j gs (fun _ => 0) i))) by (intros; ring).
  rewrite rsum_scal. rewrite IH by lia. ring.
Qed.

Fixpoint nsum (vs gs : list R) : R :=
  match vs, gs with
  | v :: vs', g :: gs' => g / v + nsum vs' gs'
  | _, _ => 0
  end.

Lemma existsb_zero_false vs : existsb (fun v => Reqb v 0) vs = false -> forall x, In x vs -> x <> 0.
Proof.
  intros H x Hx ->. assert (existsb (fun v => Reqb v 0) vs = true); [|congruence].
  apply existsb_exists. exists 0; split; auto. apply Reqb_true; reflexivity.
Qed.
Lemma existsb_zero_false_intro vs : (forall x, In x vs -> x <> 0) -> existsb (fun v => Reqb v 0) vs = false.
Proof.
  induction vs as [|v vs IH]; cbn [existsb In]; intros H; [reflexivity|].
  rewrite IH by (intros; apply H; right; auto). rewrite (proj2 (Reqb_false v 0)); [reflexivity|]. apply H; left; reflexivity.
Qed.

Lemma norm_gradient_nsum vals grads gv : norm_gradient vals grads = Ok gv -> length grads = length vals ->
  (forall x, In x vals -> x <> 0) /\ forall i, gv i = nsum vals (map (fun g => g i) grads).
Proof.
  unfold norm_gradient. destruct (existsb _ vals) eqn:E; [discriminate|]. intros H Hl; inversion H; subst; clear H.
  split; [apply existsb_zero_false; exact E|]. intros i. clear E.
  revert grads Hl; induction vals as [|v vs IH]; intros [|g gs] Hl; cbn [length] in Hl; try discriminate; [reflexivity|].
  cbn [length]. rewrite rsum_shift. cbn [nth map nsum]. rewrite <- IH by lia. reflexivity.
Qed.

Fixpoint hsum (vs gi gj hs : list R) : R :=
  match vs, gi, gj, hs with
  | v :: vs', a :: gi', b :: gj', h :: hs' => (h - b * a / v) / v + hsum vs' gi' gj' hs'
  | _, _, _, _ => 0
  end.

Lemma norm_hessian_hsum vals grads hs hv : norm_hessian vals grads hs = Ok hv ->
  length grads = length vals -> length hs = length vals ->
  (forall x, In x vals -> x <> 0) /\
  forall i j, hv i j = hsum vals (map (fun g => g i) grads) (map (fun g => g j) grads) (map (fun h => h i j) hs).
Proof.
  unfold norm_hessian. destruct (existsb _ vals) eqn:E; [discriminate|]. intros H Hl Hl2; inversion H; subst; clear H.
  split; [apply existsb_zero_false; exact E|]. intros i j. clear E.
  revert grads hs Hl Hl2; induction vals as [|v vs IH]; intros [|g gs] [|h hs] Hl Hl2; cbn [length] in *; try discriminate; [reflexivity|].
  rewrite rsum_shift. cbn [nth map hsum]. rewrite <- IH by lia. reflexivity.
Qed.

Lemma der_lprod (f : string -> R -> R) (g : string -> R) x0 l :
  (forall k, In k l -> der (f k) x0 (g k)) ->
  der (fun x => lprod (map (fun k => f k x) l)) x0 (dprod (map (fun k => f k x0) l) (map g l)).
Proof.
  induction l as [|k l IH]; intros H; cbn [map lprod dprod].
  - apply der_const.
  - apply der_mult; [apply H; left; reflexivity|apply IH; intros; apply H; right; assumption].
Qed.

Lemma dprod_nsum vs gs : (forall x, In x vs -> x <> 0) -> length gs = length vs -> dprod vs gs = lprod vs * nsum vs gs.
Proof.
  revert gs; induction vs as [|v vs IH]; intros [|g gs] H Hl; cbn [length] in Hl; try discriminate; cbn [dprod lprod nsum]; [ring|].
  rewrite IH by (try lia; intros; apply H; right; auto). field. apply H; left; reflexivity.
Qed.

(** derivative of the meaning of one expression, given those of its inputs *)
Definition expr_dgrad (e : expr) (rho g : env) : R :=
  match e with
  | ENumber _ _ => 0
  | ESingle n => g n
  | ELinComb _ _ co => lsum (map (fun kc => snd kc * g (fst kc)) co)
  | EProdRatio _ pf nu de =>
    pf * dprod (map rho nu) (map g nu) / lprod (map rho de) - expr_den e rho * nsum (map rho de) (map g de)
  | EExp _ k => exp (rho k) * g k
  | EFormula _ _ => 0
  end.

Lemma expr_den_derive e (f : string -> R -> R) (g : env) x0 :
  (forall k, In k (deps e) -> der (f k) x0 (g k)) ->
  dens_ok1 e (fun k => f k x0) ->
  der (fun x => expr_den e (fun k => f k x)) x0 (expr_dgrad e (fun k => f k x0) g).
Proof.
  destruct e as [n v|n|n nom co|n pf nu de|n k|n fm]; cbn [expr_den expr_dgrad deps dens_ok1]; intros H Hd.
  - apply der_const.
  - apply H; left; reflexivity.
  - eapply der_val; [apply der_plus; [apply der_const|]|apply Rplus_0_l].
    apply (der_lsum co (fun kc x => snd kc * f (fst kc) x)). intros [k c] Hk; cbn [fst snd]. apply der_scal.
    apply H. unfold keys. change k with (fst (k, c)). apply in_map; exact Hk.
  - assert (Hdn : lprod (map (fun k => f k x0) de) <> 0).
    { apply lprod_nz. intros x Hx. apply in_map_iff in Hx. destruct Hx as (k & <- & Hk). apply Hd; exact Hk. }
    assert (H1 : der (fun x => lprod (map (fun k => f k x) nu)) x0 (dprod (map (fun k => f k x0) nu) (map g nu))).
    { apply der_lprod. intros; apply H; apply in_or_app; left; assumption. }
    assert (H2 : der (fun x => lprod (map (fun k => f k x) de)) x0 (dprod (map (fun k => f k x0) de) (map g de))).
    { apply der_lprod. intros; apply H; apply in_or_app; right; assumption. }
    eapply der_val.
    apply der_div; [apply der_scal; exact H1|exact H2|exact Hdn].
    cbn. rewrite (dprod_nsum (map (fun k => f k x0) de)).
    + field. exact Hdn.
    + intros x Hx. apply in_map_iff in Hx. destruct Hx as (k & <- & Hk). apply Hd; exact Hk.
    + rewrite !map_length; reflexivity.
  - apply der_exp. apply H; left; reflexivity.
  - apply der_const.
Qed.
