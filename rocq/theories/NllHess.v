(** The Hessian of the likelihood is the matrix of its second derivatives: lemmas for C24 (core.py:824-866). *)
From Coquelicot Require Import Coquelicot.
From Verif Require Import Py PyFacts Deriv Base Expressions ExprSpec ExprFacts ExprGrad Norms Sample SampleFacts Channels Params ParamsFacts Core CoreFacts CoreSpec CoreYields NllFacts NllGrad.
Local Open Scope string_scope.
Local Open Scope list_scope.
Local Open Scope R_scope.

Section Two.
Variables (m : Model) (ps : list R) (i j : nat).
(** a change of the i-th POI to x and then of the j-th POI to y *)
Definition two (x y : R) : env := model_env m (set_nth j y (set_nth i x ps)).
Definition cj (x : R) : R := nth j (set_nth i x ps) 0.
Definition d2 (F : env -> R) (h : R) : Prop :=
  locally (nth i ps 0) (fun x => ex_derive (fun y => F (two x y)) (cj x)) /\
  der (fun x => Derive (fun y => F (two x y)) (cj x)) (nth i ps 0) h.

Lemma d2_val F h h' : d2 F h -> h = h' -> d2 F h'.
Proof. intros H <-; exact H. Qed.
Lemma d2_ext F G h : (forall rho, F rho = G rho) -> d2 F h -> d2 G h.
Proof.
  intros E [H1 H2]. split.
  - eapply filter_imp; [|exact H1]. intros x Hx. eapply ex_derive_ext; [|exact Hx]. intros; apply E.
  - eapply der_ext; [|exact H2]. intros x. cbn beta. apply Derive_ext. intros; apply E.
Qed.
Lemma d2_const c : d2 (fun _ => c) 0.
Proof.
  split; [apply filter_forall; intros x; apply ex_derive_const|].
  apply (der_ext (fun _ => 0)); [intros x; symmetry; apply Derive_const|apply der_const].
Qed.
Lemma d2_scal c F h : d2 F h -> d2 (fun rho => c * F rho) (c * h).
Proof.
  intros [H1 H2]. split.
  - eapply filter_imp; [|exact H1]. intros x Hx. apply (ex_derive_scal (fun y => F (two x y)) c). exact Hx.
  - apply (der_ext (fun x => c * Derive (fun y => F (two x y)) (cj x))); [|apply der_scal, H2].
    intros x. symmetry. apply Derive_scal.
Qed.
Lemma d2_plus F G h k : d2 F h -> d2 G k -> d2 (fun rho => F rho + G rho) (h + k).
Proof.
  intros [H1 H2] [K1 K2]. split.
  - eapply filter_imp; [|apply filter_and; [exact H1|exact K1]]. intros x [Hx Kx]. apply (ex_derive_plus (fun y => F (two x y)) (fun y => G (two x y))); assumption.
  - apply (der_ext_loc (fun x => Derive (fun y => F (two x y)) (cj x) + Derive (fun y => G (two x y)) (cj x))); [|apply der_plus; assumption].
    eapply filter_imp; [|apply filter_and; [exact H1|exact K1]]. intros x [Hx Kx]. symmetry. apply Derive_plus; assumption.
Qed.
Lemma d2_rsum n (F : nat -> env -> R) h : (forall s, (s < n)%nat -> d2 (F s) (h s)) -> d2 (fun rho => rsum n (fun s => F s rho)) (rsum n h).
Proof.
  induction n as [|n IH]; intros H; cbn [rsum]; [apply d2_const|].
  apply (d2_plus (fun rho => rsum n (fun s => F s rho)) (F n)); [apply IH; intros; apply H; lia|apply H; lia].
Qed.
End Two.

Lemma two_upd m ps i j pi pj x y : NoDup (keys (m_pois m)) -> nth_error (keys (m_pois m)) i = Some pi -> nth_error (keys (m_pois m)) j = Some pj ->
  length ps = length (m_pois m) -> forall k, par_env m (set_nth j y (set_nth i x ps)) k = upd (upd (par_env m ps) pi x) pj y k.
Proof.
  intros HN Hi Hj HL k. rewrite (par_env_upd m (set_nth i x ps) j pj y HN Hj) by (rewrite set_nth_length; exact HL).
  unfold upd at 1 2. destruct (String.eqb k pj); [reflexivity|]. apply (par_env_upd m ps i pi x HN Hi HL).
Qed.

Lemma d2_of_hess m ps i j pi pj d k h : NoDup (keys (m_pois m)) -> nth_error (keys (m_pois m)) i = Some pi -> nth_error (keys (m_pois m)) j = Some pj ->
  length ps = length (m_pois m) -> (forall z, env_of d z = par_env m ps z) ->
  (let c := fun x => upd (env_of d) pi x pj in
   let f2 := fun x y => env_den (values (m_exprs m)) (upd (upd (env_of d) pi x) pj y) k in
   locally (env_of d pi) (fun x => ex_derive (f2 x) (c x)) /\ der (fun x => Derive (f2 x) (c x)) (env_of d pi) h) ->
  d2 m ps i j (fun rho => rho k) h.
Proof.
  intros HN Hi Hj HL He. cbn zeta. intros [H1 H2].
  assert (E : forall x y, env_den (values (m_exprs m)) (upd (upd (env_of d) pi x) pj y) k = two m ps i j x y k).
  { intros x y. unfold two, model_env. apply env_den_ext. intros z. rewrite (two_upd m ps i j pi pj x y HN Hi Hj HL).
    unfold upd. destruct (String.eqb z pj); [reflexivity|]. destruct (String.eqb z pi); [reflexivity|]. apply He. }
  assert (Ec : forall x, upd (env_of d) pi x pj = cj ps i j x).
  { intros x. unfold cj. rewrite <- (par_env_at m (set_nth i x ps) j pj HN Hj). rewrite (par_env_upd m ps i pi x HN Hi HL).
    unfold upd. destruct (String.eqb pj pi); [reflexivity|apply He]. }
  assert (E0 : env_of d pi = nth i ps 0) by (rewrite He; apply (par_env_at m ps i pi HN Hi)).
  rewrite E0 in *. split.
  - eapply filter_imp; [|exact H1]. intros x Hx. cbn beta in Hx. rewrite Ec in Hx. eapply ex_derive_ext; [|exact Hx]. intros y; apply E.
  - eapply der_ext; [|exact H2]. intros x. cbn beta. rewrite Ec. apply Derive_ext. intros y; apply E.
Qed.

Lemma sample_hessian_d2 E m I ps rv sm h i j pi pj : names_ok m -> ~ In "" (all_names m) -> pmodel_of m = Ok (i_pm I) -> length ps = length (m_pois m) ->
  model_real_vals m (i_pm I) ps = Ok rv -> nth_error (keys (m_pois m)) i = Some pi -> nth_error (keys (m_pois m)) j = Some pj ->
  sample_hessian (e_fuel E) sm (keys (m_pois m)) (model_reals m) rv = Ok h ->
  Forall2 (fun f hv => d2 m ps i j f (hv i j)) (sample_funs sm) h.
Proof.
  intros HN HE Hpm HL Hrv Hi Hj H. unfold sample_hessian in H. apply bind_Ok in H as (hn & Hhn & H). unfold sample_funs.
  destruct (s_yields sm) as [y|]; [|discriminate]. destruct (s_nominal_norm sm) as [nn|]; [|discriminate]. destruct (Reqb nn 0) eqn:Enn; [discriminate|]. apply Reqb_false in Enn.
  inversion H; subst h; clear H.
  assert (D : d2 m ps i j (fun rho => norm_den (s_norm sm) rho) (hn i j)).
  { destruct (model_vals m (i_pm I) ps rv HN Hpm HL Hrv) as (d & Hd & Hnd & Hkd & He).
    assert (HNp : NoDup (keys (m_pois m))) by (apply (NoDup_app_l _ (keys (m_nps m)) (names_ok_base _ HN))).
    unfold norm_hessian_of in Hhn. destruct (s_norm sm) as [v|n]; cbn [norm_den].
    - inversion Hhn; subst hn. destruct v; apply d2_const.
    - destruct (String.eqb n "") eqn:En.
      + exfalso. apply String.eqb_eq in En. subst n. apply bind_Ok in Hhn as (e & Hr & Hgn).
        unfold dgetE in Hr. destruct (dget "" (model_reals m)) as [e'|] eqn:Er; [|discriminate].
        destruct (reals_inv _ _ _ _ Er) as [[H1 H2]|[H1 _]]; apply HE; unfold all_names; rewrite app_assoc; apply in_or_app; [right|left; exact H1].
        rewrite <- H2. now apply in_map.
      + apply bind_Ok in Hhn as (e & Hr & Hgn). unfold dgetE in Hr. destruct (dget n (model_reals m)) as [e'|] eqn:Er; [|discriminate]. inversion Hr; subst e'.
        unfold model_reals in Er, Hgn. rewrite <- Hkd in Er, Hgn.
        destruct (known_reals (values (m_exprs m)) d n e Er) as (Hkn & <-).
        apply (d2_of_hess m ps i j pi pj d _ _ HNp Hi Hj HL He).
        exact (hess_known (values (m_exprs m)) d rv Hd Hnd (keys (m_pois m)) _ pi pj i j e hn Hi Hj Hkn Hgn). }
  clear - D Enn. induction y as [|yb y IH]; cbn [map]; constructor; [|exact IH].
  apply (d2_ext m ps i j (fun rho => yb / nn * norm_den (s_norm sm) rho)); [intros rho; field; exact Enn|].
  eapply d2_val; [apply d2_scal, D|]. cbn beta. field. exact Enn.
Qed.

Lemma hessian_row_d2 E m I ps rv s hr i j pi pj : names_ok m -> ~ In "" (all_names m) -> pmodel_of m = Ok (i_pm I) -> length ps = length (m_pois m) ->
  model_real_vals m (i_pm I) ps = Ok rv -> nth_error (keys (m_pois m)) i = Some pi -> nth_error (keys (m_pois m)) j = Some pj -> hessian_row E m I rv s = Ok hr ->
  Forall2 (fun f hv => d2 m ps i j f (hv i j)) (row_funs I s) hr.
Proof.
  intros HN HE Hpm HL Hrv Hi Hj H. unfold hessian_row in H. apply bind_Ok in H as (bl & Hbl & H). inversion H; subst hr; clear H.
  unfold row_funs. apply Forall2_concat. apply mapM_Forall2 in Hbl. induction Hbl as [|kc g l r Hg Hr IH]; cbn [map]; constructor; [|exact IH].
  destruct (sample_at (snd kc) s) as [sm|]; [eapply sample_hessian_d2; eauto|]. inversion Hg. apply Forall2_repeat. apply d2_const.
Qed.

Lemma totf_d2 I K (ps : list R) (m : Model) i j (hr : nat -> list mat) :
  (forall s, (s < i_nsamples I)%nat -> Forall2 (fun f hv => d2 m ps i j f (hv i j)) (row_funs I s) (hr s)) ->
  forall b, d2 m ps i j (totf I K b) (rsum (i_nsamples I) (fun s => nth b (hr s) (fun _ _ => 0) i j * K s b)).
Proof.
  intros H b. unfold totf. apply (d2_rsum m ps i j _ (fun s rho => nth b (row_funs I s) (fun _ => 0) rho * K s b)). intros s Hs.
  apply (d2_ext m ps i j (fun rho => K s b * nth b (row_funs I s) (fun _ => 0) rho)); [intros rho; ring|].
  eapply d2_val; [apply d2_scal|rewrite Rmult_comm; reflexivity].
  apply (Forall2_nth (fun (f : env -> R) (hv : mat) => d2 m ps i j f (hv i j)) _ _ (fun _ => 0) (fun _ _ => 0) b (H s Hs)). apply d2_const.
Qed.

Lemma nll_hessian_inv E m I ps ns data H : nll_hessian E m I ps ns data = Ok H ->
  exists rv n gr hr K, model_real_vals m (i_pm I) ps = Ok rv /\ n_exp m I ps ns = Ok n /\ mapM (gradient_row E m I rv) (seq 0 (i_nsamples I)) = Ok gr /\
   mapM (hessian_row E m I rv) (seq 0 (i_nsamples I)) = Ok hr /\ cut_k_exp m I ns = Ok K /\
   forall a c, H a c = rsum (i_nbins I) (fun b =>
      let g := fun a => rsum (i_nsamples I) (fun s => nth b (nth s gr []) (fun _ => 0) a * K s b) in
      let h := rsum (i_nsamples I) (fun s => nth b (nth s hr []) (fun _ _ => 0) a c * K s b) in
      let t := rsum (i_nsamples I) (fun s => n s b) in
      h - (div0 h t - div0 (g a) t * div0 (g c) t) * nth b (d_counts data) 0).
Proof.
  unfold nll_hessian. intros H0. apply bind_Ok in H0 as (rv & Hrv & H0). apply bind_Ok in H0 as (n & Hn & H0). apply bind_Ok in H0 as (gr & Hgr & H0). apply bind_Ok in H0 as (hr & Hhr & H0).
  destruct (negb _); [discriminate|]. destruct (negb _); [discriminate|]. apply bind_Ok in H0 as (K & HK & H0). inversion H0; subst. exists rv, n, gr, hr, K. repeat split; auto.
Qed.

Lemma cj_self ps i j : cj ps i j (nth i ps 0) = nth j ps 0.
Proof. unfold cj. now rewrite set_nth_self. Qed.

(** second derivative of the sum of Poisson terms *)
Lemma nllf_d2 m I K n C ps i j (g : nat -> nat -> R) (h : nat -> R) : (forall b, (b < i_nbins_p I)%nat -> 0 < totf I K b (model_env m ps)) ->
  locally (nth i ps 0) (fun x => forall b, (b < i_nbins_p I)%nat -> 0 < totf I K b (model_env m (set_nth i x ps))) ->
  (forall b, der (fun x => totf I K b (model_env m (set_nth i x ps))) (nth i ps 0) (g b i)) ->
  (forall b, der (fun x => totf I K b (model_env m (set_nth j x ps))) (nth j ps 0) (g b j)) ->
  (forall b, d2 m ps i j (totf I K b) (h b)) ->
  der (fun x => Derive (fun y => nllf m I K n C (set_nth j y (set_nth i x ps))) (cj ps i j x)) (nth i ps 0)
    (rsum (i_nbins_p I) (fun b => h b - (h b / totf I K b (model_env m ps) - g b i / totf I K b (model_env m ps) * (g b j / totf I K b (model_env m ps))) * n b)).
Proof.
  intros Hpos Hloc Di Dj Dh.
  set (T := fun b x => totf I K b (model_env m (set_nth i x ps))).
  set (D := fun b x => Derive (fun y => totf I K b (two m ps i j x y)) (cj ps i j x)).
  apply (der_ext_loc (fun x => rsum (i_nbins_p I) (fun b => D b x - D b x / T b x * n b))).
  { assert (L : locally (nth i ps 0) (fun x => forall b, In b (seq 0 (i_nbins_p I)) -> ex_derive (fun y => totf I K b (two m ps i j x y)) (cj ps i j x))).
    { apply locally_forall_in. intros b _. apply (Dh b). }
    eapply filter_imp; [|apply filter_and; [exact Hloc|exact L]]. intros x' [Hx' Lx']. cbn beta in *.
    pose (x := (x' : R)). assert (Hx : forall b, (b < i_nbins_p I)%nat -> 0 < totf I K b (model_env m (set_nth i x ps))) by exact Hx'.
    assert (Lx : forall b, In b (seq 0 (i_nbins_p I)) -> ex_derive (fun y => totf I K b (two m ps i j x y)) (cj ps i j x)) by exact Lx'.
    change (rsum (i_nbins_p I) (fun b => D b x - D b x / T b x * n b) = Derive (fun y => nllf m I K n C (set_nth j y (set_nth i x ps))) (cj ps i j x)).
    clearbody x. clear x' Hx' Lx'. symmetry. apply der_Derive.
    assert (Lx' : forall b, (b < i_nbins_p I)%nat -> ex_derive (fun y => totf I K b (two m ps i j x y)) (cj ps i j x)) by (intros b Hb; apply Lx, in_seq; lia).
    unfold nllf. eapply der_val; [apply (der_plus (fun y => rsum (i_nbins_p I) (fun b => totf I K b (two m ps i j x y) - n b * ln (totf I K b (two m ps i j x y)))) (fun _ => C)); [|apply der_const]|apply Rplus_0_r].
    apply (der_rsum (i_nbins_p I) (fun b y => totf I K b (two m ps i j x y) - n b * ln (totf I K b (two m ps i j x y)))). intros b Hb.
    assert (Ht : totf I K b (two m ps i j x (cj ps i j x)) = T b x) by (unfold two, cj, T; rewrite set_nth_self; reflexivity).
    pose proof (Hx b Hb) as Hpb. fold (T b x) in Hpb.
    eapply der_val; [apply der_minus; [apply ex_der, Lx', Hb|apply der_scal, der_ln; [|apply ex_der, Lx', Hb]]|].
    - cbn beta. rewrite Ht. exact Hpb.
    - cbn beta. rewrite Ht. unfold D. field. lra. }
  assert (T0 : forall b, T b (nth i ps 0) = totf I K b (model_env m ps)) by (intros b; unfold T; rewrite set_nth_self; reflexivity).
  assert (D0 : forall b, D b (nth i ps 0) = g b j).
  { intros b. unfold D. rewrite cj_self. apply der_Derive. unfold two. rewrite set_nth_self. apply Dj. }
  apply (der_rsum (i_nbins_p I) (fun b x => D b x - D b x / T b x * n b)). intros b Hb. pose proof (Hpos b Hb) as Hpb.
  eapply der_val.
  - apply der_minus; [exact (proj2 (Dh b))|]. apply (der_ext (fun x => n b * (D b x / T b x))); [intros; ring|]. apply der_scal. apply der_div; [exact (proj2 (Dh b))|exact (Di b)|].
    rewrite T0. lra.
  - cbn beta. rewrite T0. fold (D b (nth i ps 0)). rewrite D0. field. lra.
Qed.

Lemma nll_hessian_der E m I ps ns data off nc H v i j pi pj : built E m I -> names_ok m -> ~ In "" (all_names m) -> length ps = length (m_pois m) ->
  i_nbins_g I = 0%nat -> (off = true -> forall ref, ref_yields m I = Ok ref -> forall b, (b < i_nbins_p I)%nat -> 0 < ref b) ->
  nll m I ps ns data off None nc = Ok (Fin v) -> nll_hessian E m I ps ns data = Ok H ->
  nth_error (keys (m_pois m)) i = Some pi -> nth_error (keys (m_pois m)) j = Some pj ->
  der (fun x => Derive (fun y => real_of (nll m I (set_nth j y (set_nth i x ps)) ns data off None nc)) (nth j (set_nth i x ps) 0)) (nth i ps 0) (H i j).
Proof.
  intros Bt HN HE HL Hg Hoff Hv HH Hi Hj. pose proof (bt_pm _ _ _ Bt) as Hpm. pose proof (built_nbins _ _ _ Bt) as Hnb.
  destruct (nll_fin_inv _ _ _ _ _ _ _ _ _ Hv) as (t & ref & Ht & Href & Hp).
  assert (Hp' : forall b, (b < i_nbins_p I)%nat -> 0 < t b) by (apply Hp; destruct off; [right; apply Hoff; auto|now left]).
  destruct (tot_point m I ps ns t HN Hpm HL Ht) as (K & rv & HP & Et).
  assert (Hpos : forall b, (b < i_nbins_p I)%nat -> 0 < totf I K b (model_env m ps)) by (intros b Hb; rewrite <- Et; auto).
  destruct (nll_nllf m I ns data off nc HN Hpm Hg) as (C & HC); [intros ->; eauto|eauto|].
  destruct (nll_hessian_inv _ _ _ _ _ _ _ HH) as (rv' & n & gr & hr & K' & Hrv' & Hn & Hgr & Hhr & HK' & HH').
  pose proof HP as [P1 P2 P3 P4 P5]. rewrite P2 in HK'. inversion HK'; subst K'; clear HK'. rewrite P3 in Hrv'. inversion Hrv'; subst rv'; clear Hrv'.
  pose proof (point_local m I ps ns K rv i pi HN Hpm HP Hi) as L1. pose proof (pos_local m I ps ns K rv i pi HN Hpm HP Hi Hpos) as L2.
  apply (der_ext_loc (fun x => Derive (fun y => nllf m I K (fun b => nth b (d_counts data) 0) C (set_nth j y (set_nth i x ps))) (cj ps i j x))).
  { eapply filter_imp; [|apply filter_and; [exact L1|exact L2]].
    intros x [(rvx & Hx) Hpx]. change (nth j (set_nth i x ps) 0) with (cj ps i j x). apply Derive_ext_loc.
    eapply filter_imp; [|apply filter_and; [exact (point_local m I (set_nth i x ps) ns K rvx j pj HN Hpm Hx Hj)|exact (pos_local m I (set_nth i x ps) ns K rvx j pj HN Hpm Hx Hj Hpx)]].
    intros y [(rvy & Hy) Hpy]. exact (eq_sym (f_equal real_of (HC _ K rvy Hy Hpy))). }
  assert (Hgrad : forall a p, nth_error (keys (m_pois m)) a = Some p -> forall b,
    der (fun x => totf I K b (model_env m (set_nth a x ps))) (nth a ps 0) (rsum (i_nsamples I) (fun s => nth b (nth s gr []) (fun _ => 0) a * K s b))).
  { intros a p Ha. apply (totf_der I K ps m a (fun s => nth s gr [])). intros s Hs. apply (gradient_row_der E m I ps rv s _ a p HN HE Hpm HL P3 Ha).
    pose proof (mapM_nth _ _ _ s 0%nat ([] : list vec) Hgr) as A. rewrite seq_length in A. specialize (A Hs). rewrite seq_nth in A by exact Hs. exact A. }
  eapply der_val.
  - apply (nllf_d2 m I K _ C ps i j (fun b a => rsum (i_nsamples I) (fun s => nth b (nth s gr []) (fun _ => 0) a * K s b))
             (fun b => rsum (i_nsamples I) (fun s => nth b (nth s hr []) (fun _ _ => 0) i j * K s b)) Hpos L2).
    + apply (Hgrad i pi Hi).
    + apply (Hgrad j pj Hj).
    + apply (totf_d2 I K ps m i j (fun s => nth s hr [])). intros s Hs. apply (hessian_row_d2 E m I ps rv s _ i j pi pj HN HE Hpm HL P3 Hi Hj).
      pose proof (mapM_nth _ _ _ s 0%nat ([] : list mat) Hhr) as A. rewrite seq_length in A. specialize (A Hs). rewrite seq_nth in A by exact Hs. exact A.
  - rewrite HH'. rewrite Hnb, Hg, Nat.add_0_r. apply rsum_ext. intros b Hb. cbn zeta.
    assert (Et2 : rsum (i_nsamples I) (fun s => n s b) = t b).
    { unfold tot_bin_exp in Ht. rewrite Hn in Ht. cbn [bind] in Ht. inversion Ht. reflexivity. }
    rewrite Et2. unfold div0. pose proof (Hp' b Hb). rewrite (proj2 (Reqb_false (t b) 0)) by lra. rewrite <- Et. reflexivity.
Qed.
