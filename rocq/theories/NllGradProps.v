(** Derivatives of the likelihood with respect to the POIs: C23 and C24 (core.py:789-866). *)
From Coquelicot Require Import Coquelicot.
From Verif Require Import Py PyFacts Deriv Base Expressions ExprSpec ExprFacts ExprGrad Norms Sample SampleFacts Channels Params ParamsFacts Core CoreFacts CoreSpec CoreYields CoreExample NllFacts NllGrad NllHess NllProps.
Local Open Scope string_scope.
Local Open Scope list_scope.
Local Open Scope R_scope.

(** The value of the likelihood as a real function of the POI values (0 where it is not a finite number). *)
Definition nll_real (m : Model) (I : Internal) (ns : list R) (data : Data) (off nc : bool) (ps : list R) : R :=
  match nll m I ps ns data off None nc with Ok (Fin x) => x | _ => 0 end.

(** C23: for Poisson channels, at every point where the likelihood is finite, the reported gradient is the vector of
    partial derivatives, whatever the options. *)
Theorem C23_gradient_is_derivative : forall E m I ps ns data off nc G v,
  set_internal_vars E m = Ok I -> names_ok m -> ~ In "" (all_names m) -> length ps = length (m_pois m) ->
  i_nbins_g I = 0%nat ->
  (off = true -> forall ref, ref_yields m I = Ok ref -> forall b, (b < i_nbins_p I)%nat -> 0 < ref b) ->
  nll m I ps ns data off None nc = Ok (Fin v) ->
  nll_gradient E m I ps ns data = Ok G ->
  forall a, (a < length (m_pois m))%nat ->
    is_derive (fun x => nll_real m I ns data off nc (set_nth a x ps)) (nth a ps 0) (G a).
Proof.
  intros E m I ps ns data off nc G v H HN HE HL Hg Hoff Hv HG a Ha. apply siv_built in H as B.
  destruct (nth_error (keys (m_pois m)) a) as [p|] eqn:Ep.
  - rewrite <- der_iff. exact (nll_gradient_der E m I ps ns data off nc G v a p B HN HE HL Hg Hoff Hv HG Ep).
  - apply nth_error_None in Ep. unfold keys in Ep. rewrite map_length in Ep. lia.
Qed.
Print Assumptions C23_gradient_is_derivative.

(** C24: the reported Hessian has in (i,j) the derivative with respect to POI i of the partial derivative with respect
    to POI j *)
Theorem C24_hessian_is_second_derivative : forall E m I ps ns data off nc H v,
  set_internal_vars E m = Ok I -> names_ok m -> ~ In "" (all_names m) -> length ps = length (m_pois m) ->
  i_nbins_g I = 0%nat ->
  (off = true -> forall ref, ref_yields m I = Ok ref -> forall b, (b < i_nbins_p I)%nat -> 0 < ref b) ->
  nll m I ps ns data off None nc = Ok (Fin v) ->
  nll_hessian E m I ps ns data = Ok H ->
  forall i j, (i < length (m_pois m))%nat -> (j < length (m_pois m))%nat ->
    is_derive (fun x => Derive (fun y => nll_real m I ns data off nc (set_nth j y (set_nth i x ps))) (nth j (set_nth i x ps) 0)) (nth i ps 0) (H i j).
Proof.
  intros E m I ps ns data off nc H v H0 HN HE HL Hg Hoff Hv HH i j Hi Hj. apply siv_built in H0 as B.
  destruct (nth_error (keys (m_pois m)) i) as [pi|] eqn:Ei; [|apply nth_error_None in Ei; unfold keys in Ei; rewrite map_length in Ei; lia].
  destruct (nth_error (keys (m_pois m)) j) as [pj|] eqn:Ej; [|apply nth_error_None in Ej; unfold keys in Ej; rewrite map_length in Ej; lia].
  rewrite <- der_iff. exact (nll_hessian_der E m I ps ns data off nc H v i j pi pj B HN HE HL Hg Hoff Hv HH Ei Ej).
Qed.
Print Assumptions C24_hessian_is_second_derivative.

(** Symmetry of the Hessian, for every model (also with Gaussian channels) and every point *)
Definition symm (h : mat) : Prop := forall i j, h i j = h j i.

Lemma norm_hessian_sym vals grads hs h : Forall symm hs -> norm_hessian vals grads hs = Ok h -> symm h.
Proof.
  intros HF. unfold norm_hessian. destruct (existsb _ _); [discriminate|]. intros H; inversion H; subst h; clear H. intros i j. apply rsum_ext. intros k _.
  assert (S : symm (nth k hs (fun _ _ => 0))).
  { destruct (nth_in_or_default k hs (fun _ _ => 0)) as [Hin| ->]; [|intros ? ?; reflexivity]. rewrite Forall_forall in HF. apply HF, Hin. }
  rewrite (S i j). f_equal. f_equal. f_equal. ring.
Qed.
Lemma mapM_Forall {A B} (f : A -> res B) (P : B -> Prop) l r : (forall a b, f a = Ok b -> P b) -> mapM f l = Ok r -> Forall P r.
Proof.
  intros Hf H. apply mapM_Forall2 in H. induction H; constructor; eauto.
Qed.
Lemma hessian_sym fuel pars rls rv : forall e h, hessian fuel pars rls rv e = Ok h -> symm h.
Proof.
  induction fuel as [|fuel IH]; intros e h H; [discriminate|].
  assert (IH' : forall k h, (let! r := dgetE k rls in hessian fuel pars rls rv r) = Ok h -> symm h).
  { intros k h' Hk. apply bind_Ok in Hk as (r & _ & Hk). eapply IH; exact Hk. }
  destruct e as [n v0|n|n nom co|n pf nu de|n k|n fm]; cbn [hessian] in H.
  - inversion H; intros i j; reflexivity.
  - inversion H; intros i j; reflexivity.
  - apply bind_Ok in H as (hs & Hhs & H). inversion H; subst h; clear H.
    assert (F : Forall (fun ch : R * mat => symm (snd ch)) hs).
    { eapply mapM_Forall; [|exact Hhs]. intros a b Hab. cbn beta in Hab. apply bind_Ok in Hab as (h & Hh & Hab). inversion Hab. cbn. eapply IH'; exact Hh. }
    intros i j. f_equal. apply map_ext_Forall. eapply Forall_impl; [|exact F]. intros c Hc. exact (f_equal (Rmult (fst c)) (Hc i j)).
  - apply bind_Ok in H as (nv & Hnv & H). apply bind_Ok in H as (ng & Hng & H). apply bind_Ok in H as (nh & Hnh & H).
    apply bind_Ok in H as (dv & Hdv & H). apply bind_Ok in H as (dg & Hdg & H). apply bind_Ok in H as (dh & Hdh & H).
    apply bind_Ok in H as (hn & Hhn & H). apply bind_Ok in H as (hd & Hhd & H). apply bind_Ok in H as (gn & Hgn & H). apply bind_Ok in H as (gd & Hgd & H).
    apply bind_Ok in H as (v & Hv & H). inversion H; subst h; clear H.
    pose proof (norm_hessian_sym _ _ _ _ (mapM_Forall _ symm _ _ IH' Hnh) Hhn) as S1. pose proof (norm_hessian_sym _ _ _ _ (mapM_Forall _ symm _ _ IH' Hdh) Hhd) as S2.
    intros i j. rewrite (S1 i j), (S2 i j). ring.
  - apply bind_Ok in H as (v & Hv & H). apply bind_Ok in H as (g & Hg & H). apply bind_Ok in H as (h' & Hh & H). inversion H; subst h; clear H.
    apply IH' in Hh. intros i j. rewrite (Hh i j). ring.
  - discriminate.
Qed.

Lemma hessian_row_sym E m I rv s hr : hessian_row E m I rv s = Ok hr -> Forall symm hr.
Proof.
  unfold hessian_row. intros H. apply bind_Ok in H as (l & Hl & H). inversion H; subst hr; clear H. apply mapM_Forall2 in Hl.
  induction Hl as [|kc h l r Hh Hr IH]; cbn [concat]; [constructor|]. apply Forall_app. split; [|exact IH].
  destruct (sample_at (snd kc) s) as [sm|].
  - unfold sample_hessian in Hh. apply bind_Ok in Hh as (hn & Hn & Hh).
    assert (S : symm hn).
    { unfold norm_hessian_of in Hn. destruct (s_norm sm); [inversion Hn; intros i j; reflexivity|]. apply bind_Ok in Hn as (e & _ & Hn). eapply hessian_sym; exact Hn. }
    destruct (s_yields sm) as [y|]; [|discriminate]. destruct (s_nominal_norm sm) as [nn|]; [|discriminate]. destruct (Reqb nn 0); [discriminate|]. inversion Hh; subst h.
    apply Forall_map, Forall_forall. intros yb _ i j. cbn. now rewrite (S i j).
  - inversion Hh; subst h. apply Forall_forall. intros x Hx. apply repeat_spec in Hx. subst x. intros i j; reflexivity.
Qed.

Theorem C24_hessian_symmetric : forall E m I ps ns data H, nll_hessian E m I ps ns data = Ok H -> forall i j, H i j = H j i.
Proof.
  intros E m I ps ns data H HH i j. destruct (nll_hessian_inv _ _ _ _ _ _ _ HH) as (rv & n & gr & hr & K & _ & _ & _ & Hhr & _ & HH').
  rewrite !HH'. apply rsum_ext. intros b _. cbn zeta.
  assert (F : Forall (Forall symm) hr) by (eapply mapM_Forall; [|exact Hhr]; intros s h Hs; eapply hessian_row_sym; exact Hs).
  assert (S : rsum (i_nsamples I) (fun s => nth b (nth s hr []) (fun _ _ => 0) i j * K s b) = rsum (i_nsamples I) (fun s => nth b (nth s hr []) (fun _ _ => 0) j i * K s b)).
  { apply rsum_ext. intros s _. f_equal.
    assert (S : symm (nth b (nth s hr []) (fun _ _ => 0))); [|apply S].
    assert (Fs : Forall symm (nth s hr [])).
    { destruct (nth_in_or_default s hr []) as [Hin| ->]; [|constructor]. rewrite Forall_forall in F. apply F, Hin. }
    destruct (nth_in_or_default b (nth s hr []) (fun _ _ => 0)) as [Hin| ->]; [|intros ? ?; reflexivity]. rewrite Forall_forall in Fs. apply Fs, Hin. }
  rewrite S. ring.
Qed.
Print Assumptions C24_hessian_symmetric.

(** The example model meets the hypotheses, at any mu and any NP values with a finite likelihood; the gradient and
    Hessian are reported. *)
Example C23_nonvacuous : exists I data v G H, set_internal_vars ex_env ex_model = Ok I /\ names_ok ex_model /\ ~ In "" (all_names ex_model) /\ i_nbins_g I = 0%nat /\
  (forall ref, ref_yields ex_model I = Ok ref -> forall b, (b < i_nbins_p I)%nat -> 0 < ref b) /\
  nll ex_model I [1] [0; 0] data true None false = Ok (Fin v) /\ nll_gradient ex_env ex_model I [1] [0; 0] data = Ok G /\
  nll_hessian ex_env ex_model I [1] [0; 0] data = Ok H.
Proof.
  destruct C22_nonvacuous as (I & data & t & H & Hd & Ht & Hp & _). destruct ex_built_full as (I' & H' & Hc & _ & Hb & Hs & Hpm & Hrp & _ & Hnp & Hng).
  rewrite H in H'. inversion H'; subst I'; clear H'.
  assert (Hrp' : forall ref, ref_yields ex_model I = Ok ref -> forall b, (b < i_nbins_p I)%nat -> 0 < ref b).
  { intros ref Hr. destruct (ex_ref I H) as (ref' & Hr' & R0 & R1 & R2). rewrite Hr in Hr'. inversion Hr'; subst ref'. rewrite Hnp.
    intros [|[|[|b]]] Hb'; try lia; [rewrite R0|rewrite R1|rewrite R2]; lra. }
  destruct (ex_ref I H) as (ref & Hr & _).
  assert (Hv : exists v, nll ex_model I [1] [0; 0] data true None false = Ok (Fin v)).
  { eexists. apply (nll_off ex_model I [1] [0; 0] data None false t ref Ht Hr Hp (Hrp' ref Hr)). rewrite Hng. intros i j Hi; lia. }
  destruct Hv as (v & Hv).
  assert (Hrv : exists rv, model_real_vals ex_model (i_pm I) [1] = Ok rv /\ keys rv = ["mu"; "acc"; "bkg"]) by (rewrite Hpm; eexists; split; [ev; reflexivity|reflexivity]).
  destruct Hrv as (rv & Hrv & Hk).
  assert (Hne : exists n, n_exp ex_model I [1] [0; 0] = Ok n) by (unfold tot_bin_exp in Ht; destruct (n_exp ex_model I [1] [0; 0]); [eauto|discriminate]).
  assert (HK : exists K, cut_k_exp ex_model I [0; 0] = Ok K) by (unfold cut_k_exp, k_exp; cbn; eauto).
  assert (Hg : exists g, mapM (gradient_row ex_env ex_model I rv) [0%nat; 1%nat] = Ok g /\ forallb (fun r => (length r =? 3)%nat) g = true).
  { unfold gradient_row. rewrite Hc. clear - Hk. eexists. split; [ev; reflexivity|reflexivity]. }
  assert (Hh : exists g, mapM (hessian_row ex_env ex_model I rv) [0%nat; 1%nat] = Ok g /\ forallb (fun r => (length r =? 3)%nat) g = true).
  { unfold hessian_row. rewrite Hc. clear - Hk. eexists. split; [ev; reflexivity|reflexivity]. }
  destruct Hne as (n & Hne). destruct HK as (K & HK). destruct Hg as (g & Hg1 & Hg2). destruct Hh as (h & Hh1 & Hh2).
  assert (HG : exists G, nll_gradient ex_env ex_model I [1] [0; 0] data = Ok G).
  { unfold nll_gradient. rewrite Hrv, Hne. cbn [bind]. rewrite Hs, Hb. cbn [seq]. rewrite Hg1. cbn [bind]. rewrite Hg2. cbn [negb]. rewrite HK. cbn [bind]. eauto. }
  assert (HH : exists G, nll_hessian ex_env ex_model I [1] [0; 0] data = Ok G).
  { unfold nll_hessian. rewrite Hrv, Hne. cbn [bind]. rewrite Hs, Hb. cbn [seq]. rewrite Hg1, Hh1. cbn [bind]. rewrite Hg2, Hh2. cbn [negb]. rewrite HK. cbn [bind]. eauto. }
  destruct HG as (G & HG). destruct HH as (Hs' & HH). exists I, data, v, G, Hs'. repeat split; auto.
  - unfold names_ok. cbn. repeat constructor; cbn; intuition discriminate.
  - cbn. intuition discriminate.
Qed.

(** Gaussian channels are treated as Poisson ones by the gradient and the Hessian: for one Gaussian bin with inverse
    variance 2, yield 1 at mu = 1 and 3 observed, the derivative is -4 and the second derivative 2, but -2 and 3 are
    reported. *)
Definition gauss_model : Model :=
  mkModel "gauss" None [("mu", mkPOI (Some "mu") (Some 0) (Some 10) (Some 1) None None)] [] []
    [("G", mkChannel "G" (KGauss ["b"] (Some (fun _ _ => 2))) [("S", mkSample "S" (ExprNorm "mu") (Some 1) (Some [1]) [])])] [] true true true false 0.

Lemma gauss_built : exists I, set_internal_vars ex_env gauss_model = Ok I /\
  i_channels I = m_channels gauss_model /\ i_nbins I = 1%nat /\ i_nsamples I = 1%nat /\ i_pm I = mkPM ["mu"] [] /\ i_ref_pois I = [1] /\ i_nbins_p I = 0%nat /\ i_nbins_g I = 1%nat /\
  i_poi_hess I 0%nat 0%nat = 2.
Proof. eexists. split; [unfold gauss_model; ev; reflexivity|]. repeat split; reflexivity. Qed.

Lemma gauss_nll I mu n : set_internal_vars ex_env gauss_model = Ok I -> nll gauss_model I [mu] [] (mkData [n] []) false None false = Ok (Fin ((mu - n) * (mu - n))).
Proof.
  intros H. destruct gauss_built as (I' & H' & Hc & Hb & Hs & Hp & Hr & Hnp & Hng & Hh). rewrite H in H'. inversion H'; subst I'; clear H'.
  assert (Ht : exists t, tot_bin_exp gauss_model I [mu] [] None = Ok t /\ t 0%nat = mu).
  { unfold tot_bin_exp, n_exp, nominal_row, cut_k_exp, k_exp. rewrite Hc, Hb, Hs, Hp. cbn [m_asym m_linear gauss_model m_channels].
    eexists. split; [ev; reflexivity|]. cbn [rsum nth]. unfold cut. cbn [m_cutoff gauss_model]. rdec. cbn [rsum length]. field. }
  assert (Hrf : exists t, ref_yields gauss_model I = Ok t).
  { unfold ref_yields, n_exp, nominal_row, cut_k_exp, k_exp. rewrite Hc, Hb, Hs, Hp, Hr. cbn [m_asym m_linear gauss_model m_channels]. eexists. ev; reflexivity. }
  destruct Ht as (t & Ht & T0). destruct Hrf as (ref & Href).
  unfold nll. rewrite Ht, Href. cbn [bind]. rewrite Hnp, Hng, Hp. cbn [esum length pm_nps eadd]. unfold qform. cbn [rsum]. rewrite Hh. rewrite Nat.add_0_r, T0.
  cbn [nth d_counts]. do 2 f_equal. field.
Qed.

Theorem C23_gaussian_channels_refuted : exists I G, set_internal_vars ex_env gauss_model = Ok I /\
  nll_gradient ex_env gauss_model I [1] [] (mkData [3] []) = Ok G /\ G 0%nat = -2 /\
  is_derive (fun x => nll_real gauss_model I [] (mkData [3] []) false false (set_nth 0 x [1])) 1 (-4).
Proof.
  destruct gauss_built as (I & H & Hc & Hb & Hs & Hp & Hr & Hnp & Hng & Hh). exists I. eexists. split; [exact H|]. split.
  { unfold nll_gradient, n_exp, gradient_row, nominal_row, cut_k_exp, k_exp. rewrite Hc, Hb, Hs, Hp. cbn [m_asym m_linear gauss_model m_channels]. ev. reflexivity. }
  split.
  - unfold cut. cbn [m_cutoff gauss_model]. rdec. unfold rsum, nth. ev. lra.
  - rewrite <- der_iff. apply (der_ext (fun x => (x - 3) * (x - 3))).
    { intros x. exact (eq_sym (f_equal real_of (gauss_nll I x 3 H))). }
    eapply der_val; [apply der_mult; (apply der_minus; [apply der_id|apply der_const])|]. cbn beta. lra.
Qed.
Print Assumptions C23_gaussian_channels_refuted.

Theorem C24_gaussian_channels_refuted : exists I H2, set_internal_vars ex_env gauss_model = Ok I /\
  nll_hessian ex_env gauss_model I [1] [] (mkData [3] []) = Ok H2 /\ H2 0%nat 0%nat = 3 /\
  is_derive (fun x => Derive (fun y => nll_real gauss_model I [] (mkData [3] []) false false (set_nth 0 y [x])) x) 1 2.
Proof.
  destruct gauss_built as (I & H & Hc & Hb & Hs & Hp & Hr & Hnp & Hng & Hh). exists I. eexists. split; [exact H|]. split.
  { unfold nll_hessian, n_exp, gradient_row, hessian_row, nominal_row, cut_k_exp, k_exp. rewrite Hc, Hb, Hs, Hp. cbn [m_asym m_linear gauss_model m_channels]. ev. reflexivity. }
  split.
  - unfold cut. cbn [m_cutoff gauss_model]. rdec. unfold rsum, nth. ev. lra.
  - rewrite <- der_iff. apply (der_ext (fun x => 2 * (x - 3))).
    { intros x. symmetry. apply der_Derive. apply (der_ext (fun y => (y - 3) * (y - 3))).
      { intros y. exact (eq_sym (f_equal real_of (gauss_nll I y 3 H))). }
      eapply der_val; [apply der_mult; (apply der_minus; [apply der_id|apply der_const])|]. cbn beta. ring. }
    eapply der_val; [apply der_scal; (apply der_minus; [apply der_id|apply der_const])|]. ring.
Qed.
Print Assumptions C24_gaussian_channels_refuted.
