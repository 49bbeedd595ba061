(** Properties of NP profiling (C29, C30): minimizers.py:43-243 and 373-397. *)
From Coquelicot Require Import Coquelicot.
From Verif Require Import Py PyFacts Deriv Base Expressions Norms Sample Channels Params ParamsFacts Core CoreFacts CoreExample NllFacts NllGrad NllProps NpMin NpMinSpec NpMinFacts.
Local Open Scope R_scope.
Local Open Scope string_scope.
Local Open Scope list_scope.

(** C29, first half: the vector and the matrix of the linear system are the gradient and the Hessian, at the hypothesis,
    of the likelihood in which the yields respond to the NPs as the impacts say: linearly, or log-linearly with the
    log-normal terms (which must not be combined with Gaussian channels: see below). *)
Theorem C29_system_is_second_order_expansion : forall m I data ps ns M q n imp,
  pq_einsum m I data ps ns = Ok (M, q) -> n_exp m I ps ns = Ok n -> linear_impacts m I ns = Ok imp ->
  (forall b, (b < i_nbins_p I)%nat -> 0 < rsum (i_nsamples I) (fun s => n s b)) -> sym_on (i_nbins_g I) (i_poi_hess I) ->
  m_lognormal m = false \/ i_nbins_g I = 0%nat ->
  second_order (length (pm_nps (i_pm I)))
    (fun th => likelihood (i_nbins_p I) (i_nbins_g I) (length (pm_nps (i_pm I))) (i_poi_hess I) (fun p => nth p (i_cons I) 0)
       (fun b => nth b (d_counts data) 0) (fun p => nth p (d_aux data) 0)
       (approx_tot (m_lognormal m) (i_nsamples I) (length (pm_nps (i_pm I))) n imp (fun p => nth p ns 0) th) th)
    (fun p => nth p ns 0) q M.
Proof.
  intros m I data ps ns M q n imp H Hn Hi Hpos Hs Hl d.
  destruct (pq_contract _ _ _ _ _ _ _ H) as (n' & imp' & Hn' & Hi' & _ & C). rewrite Hn in Hn'. injection Hn' as <-. rewrite Hi in Hi'. injection Hi' as <-. cbn zeta in C. destruct (C d) as (C1 & C2). clear C.
  eapply d2at_val; [apply (likelihood_line (i_nbins_p I) (i_nbins_g I) _ (i_poi_hess I) (fun p => nth p (i_cons I) 0) (fun b => nth b (d_counts data) 0) (fun p => nth p (d_aux data) 0)
     (fun t => approx_tot (m_lognormal m) (i_nsamples I) (length (pm_nps (i_pm I))) n imp (fun p => nth p ns 0) (fun a => nth a ns 0 + t * d a))
     (fun b => rsum (i_nsamples I) (fun s => n s b)) _ _ (fun p => nth p ns 0) d (fun b => tot_line0 _ _ _ n imp (fun p => nth p ns 0) d b)
     (fun b => tot_line _ _ _ n imp (fun p => nth p ns 0) d b) Hpos Hs)| |].
  - rewrite C1. reflexivity.
  - rewrite C2. f_equal. f_equal. f_equal.
    assert (Z : rsum (i_nbins_g I) (fun i => rsum (i_nbins_g I) (fun j => curv (m_lognormal m) (i_nsamples I) (length (pm_nps (i_pm I))) n imp d (i_nbins_p I + i)%nat * i_poi_hess I i j *
       (rsum (i_nsamples I) (fun s => n s (i_nbins_p I + j)%nat) - nth (i_nbins_p I + j) (d_counts data) 0))) = 0).
    { destruct Hl as [Hl| ->]; [|reflexivity]. rewrite Hl. unfold curv. apply rsum_eq0. intros. apply rsum_eq0. intros; ring. }
    cbn beta. rewrite Z. ring.
Qed.
Print Assumptions C29_system_is_second_order_expansion.

(** C29, second half: unless the system is treated as degenerate, the profiled NPs minimize this expansion over all NP
    values.  Together with the previous theorem: they minimize the quadratic approximation to the likelihood. *)
Theorem C29_profile_minimizes_expansion : forall E sv m I data hypo dl mp M q, set_internal_vars E m = Ok I -> solves sv ->
  length (nps hypo) = length (pm_nps (i_pm I)) -> profile sv m I data (HPars hypo) = Ok (dl, mp) -> pq_einsum m I data (pois hypo) (nps hypo) = Ok (M, q) ->
  (1 / 1000) ^ length (pm_nps (i_pm I)) <= Rabs (det (length (pm_nps (i_pm I))) M) ->
  m_lognormal m = false -> (forall b, (b < i_nbins_p I)%nat -> 0 <= nth b (d_counts data) 0) -> sym_on (i_nbins_g I) (i_poi_hess I) -> psd (i_nbins_g I) (i_poi_hess I) ->
  forall th, quadratic (length (pm_nps (i_pm I))) q M (fun p => nth p (nps hypo) 0) (fun p => nth p (nps mp) 0)
          <= quadratic (length (pm_nps (i_pm I))) q M (fun p => nth p (nps hypo) 0) th.
Proof.
  intros E sv m I data hypo dl mp M q HB Hsv Hlen H Hpq Hdet Hl Hobs Hs Hpsd th. apply siv_built in HB as B.
  destruct (profile_inv _ _ _ _ _ _ _ Hlen H) as (M' & q' & d & Hpq' & [(X & _)|(_ & Hd)] & _ & _ & _ & _ & _ & _ & Hm); rewrite Hpq in Hpq'; injection Hpq' as <- <-; [lra|].
  pose proof (pq_sym _ _ _ _ _ _ _ Hpq Hs) as Sy.
  assert (Hst : forall a, (a < length (pm_nps (i_pm I)))%nat -> rsum (length (pm_nps (i_pm I))) (fun c => M a c * d c) = q a).
  { intros a Ha. rewrite <- (Hsv _ _ _ _ Hd a Ha). apply rsum_ext. intros c Hc. rewrite (upper_sym M Sy). reflexivity. }
  pose proof (quad_min _ q M (fun p => nth p (nps hypo) 0) d Sy (pq_psd _ _ _ _ _ _ _ Hpq Hl Hobs (fun p => cons_nonneg _ _ _ p B) Hpsd) Hst th) as Q.
  eapply Rle_trans; [|exact Q]. apply Req_le. unfold quadratic. f_equal; [|f_equal].
  - apply rsum_ext. intros a Ha. destruct (Hm a Ha) as (-> & _). reflexivity.
  - apply rsum_ext. intros a Ha. apply rsum_ext. intros c Hc. destruct (Hm a Ha) as (-> & _). destruct (Hm c Hc) as (-> & _). reflexivity.
Qed.
Print Assumptions C29_profile_minimizes_expansion.

(** For models with linear symmetric NP effects and a hypothesis with zero NPs, the expansion is that of the likelihood
    of the model itself *)
Theorem C29_expansion_of_model_likelihood : forall m I data ps ns M q ref, pq_einsum m I data ps ns = Ok (M, q) -> ref_yields m I = Ok ref ->
  plain_linear m -> (forall p, nth p ns 0 = 0) -> sym_on (i_nbins_g I) (i_poi_hess I) ->
  (forall t, tot_bin_exp m I ps ns None = Ok t -> forall b, (b < i_nbins_p I)%nat -> 0 < t b) ->
  second_order (length (pm_nps (i_pm I))) (fun th => real_of (nll m I ps (map th (seq 0 (length (pm_nps (i_pm I))))) data false None false)) (fun _ => 0) q M.
Proof.
  intros m I data ps ns M q ref H Href Hpl H0 Hs Hpos d.
  destruct (pq_contract _ _ _ _ _ _ _ H) as (n & imp & Hn & Hi & _). set (P := length (pm_nps (i_pm I))).
  assert (Ei : imp = i_sym I).
  { unfold linear_impacts in Hi. destruct (m_simple_sym m); [inversion Hi; reflexivity|].
    assert (Z : forallb (fun x => Reqb x 0) ns = true).
    { apply forallb_forall. intros x Hx. apply Reqb_true. destruct (In_nth ns x 0 Hx) as (k & _ & <-). apply H0. }
    rewrite Z in Hi. inversion Hi; reflexivity. }
  subst imp.
  assert (Hp : forall b, (b < i_nbins_p I)%nat -> 0 < rsum (i_nsamples I) (fun s => n s b)).
  { apply Hpos. unfold tot_bin_exp. rewrite Hn. reflexivity. }
  pose proof (C29_system_is_second_order_expansion m I data ps ns M q n (i_sym I) H Hn Hi Hp Hs (or_introl (proj2 (proj2 (proj2 Hpl)))) d) as D. fold P in D.
  set (ap := fun b t => approx_tot false (i_nsamples I) P n (i_sym I) (fun _ => 0) (fun a => 0 + t * d a) b).
  assert (Epos : locally 0 (fun t => forall b, (b < i_nbins_p I)%nat -> 0 < ap b t)).
  { apply locally_all_lt. intros b Hb. destruct (tot_line false (i_nsamples I) P n (i_sym I) (fun _ => 0) d b) as (f' & F1 & _). apply locally_singleton in F1. cbn beta in F1.
    apply (der_locally_pos (ap b) 0 _ F1). unfold ap. rewrite tot_line0. apply Hp, Hb. }
  eapply d2at_ext_loc; [|exact D]. eapply filter_imp; [|exact Epos]. intros t Ht. cbn beta.
  assert (En : forall a, (a < P)%nat -> nth a (map (fun a => 0 + t * d a) (seq 0 P)) 0 = 0 + t * d a).
  { intros a Ha. rewrite (nth_map_lt _ _ _ 0%nat) by (rewrite seq_length; exact Ha). rewrite seq_nth by exact Ha. reflexivity. }
  assert (Eap : forall b, approx_tot false (i_nsamples I) P n (i_sym I) (fun _ => 0) (fun p => nth p (map (fun a => 0 + t * d a) (seq 0 P)) 0) b = ap b t).
  { intros b. unfold ap, approx_tot. apply rsum_ext. intros s Hss. do 2 f_equal. apply rsum_ext. intros a Ha. rewrite (En a Ha). reflexivity. }
  rewrite (nll_linear m I ps ns n data ref Hpl H0 Hn Href) by (intros b Hb; fold P; rewrite Eap; apply Ht, Hb).
  cbn [real_of]. fold P. rewrite (proj2 (proj2 (proj2 Hpl))). unfold likelihood. f_equal; [f_equal|].
  - apply rsum_ext. intros b Hb. rewrite !Eap. unfold ap, approx_tot. f_equal; [|f_equal; f_equal]; apply rsum_ext; intros s Hss; do 2 f_equal; apply rsum_ext; intros a Ha; rewrite H0; ring.
  - f_equal. apply rsum_ext. intros i Hi'. apply rsum_ext. intros j Hj. rewrite !Eap. unfold ap, approx_tot.
    f_equal; [f_equal|]; f_equal; apply rsum_ext; intros s Hss; do 2 f_equal; apply rsum_ext; intros a Ha; rewrite H0; ring.
  - f_equal. apply rsum_ext. intros a Ha. rewrite (En a Ha), H0. reflexivity.
Qed.
Print Assumptions C29_expansion_of_model_likelihood.

(** For models with only Gaussian channels and linear symmetric NP effects, profiling from zero NPs gives the exact
    minimum of the likelihood over all NP values *)
Theorem C29_exact_for_gaussian_linear : forall E sv m I data hypo dl mp M q ref, set_internal_vars E m = Ok I -> solves sv ->
  length (nps hypo) = length (pm_nps (i_pm I)) -> (forall p, nth p (nps hypo) 0 = 0) ->
  profile sv m I data (HPars hypo) = Ok (dl, mp) -> pq_einsum m I data (pois hypo) (nps hypo) = Ok (M, q) -> ref_yields m I = Ok ref ->
  (1 / 1000) ^ length (pm_nps (i_pm I)) <= Rabs (det (length (pm_nps (i_pm I))) M) ->
  plain_linear m -> i_nbins_p I = 0%nat -> sym_on (i_nbins_g I) (i_poi_hess I) -> psd (i_nbins_g I) (i_poi_hess I) ->
  exists x, nll m I (pois mp) (nps mp) data false None false = Ok (Fin x) /\
  forall ns', exists y, nll m I (pois mp) ns' data false None false = Ok (Fin y) /\ x <= y.
Proof.
  intros E sv m I data hypo dl mp M q ref HB Hsv Hlen H0 H Hpq Href Hdet Hpl Hnp Hs Hpsd.
  destruct (profile_inv _ _ _ _ _ _ _ Hlen H) as (_ & _ & _ & _ & _ & Epois & _). rewrite Epois.
  destruct (pq_contract _ _ _ _ _ _ _ Hpq) as (n & imp & Hn & Hi & _). set (P := length (pm_nps (i_pm I))) in *.
  assert (Ei : imp = i_sym I).
  { unfold linear_impacts in Hi. destruct (m_simple_sym m); [inversion Hi; reflexivity|].
    assert (Z : forallb (fun x => Reqb x 0) (nps hypo) = true).
    { apply forallb_forall. intros x Hx. apply Reqb_true. destruct (In_nth (nps hypo) x 0 Hx) as (k & _ & <-). apply H0. }
    rewrite Z in Hi. inversion Hi; reflexivity. }
  subst imp.
  assert (Hl : m_lognormal m = false) by apply Hpl.
  pose proof (C29_system_is_second_order_expansion m I data (pois hypo) (nps hypo) M q n (i_sym I) Hpq Hn Hi (fun b Hb => match Nat.nlt_0_r b (eq_ind _ (fun k => (b < k)%nat) Hb _ Hnp) with end) Hs (or_introl Hl)) as D.
  fold P in D. rewrite Hl, Hnp in D. pose proof (likelihood_quadratic _ _ _ _ _ _ _ _ _ _ Hs _ _ D) as LQ.
  pose proof (C29_profile_minimizes_expansion E sv m I data hypo dl mp M q HB Hsv Hlen H Hpq Hdet Hl) as Min.
  specialize (Min (fun b Hb => match Nat.nlt_0_r b (eq_ind _ (fun k => (b < k)%nat) Hb _ Hnp) with end) Hs Hpsd). fold P in Min.
  assert (NL : forall ns, nll m I (pois hypo) ns data false None false = Ok (Fin (likelihood 0 (i_nbins_g I) P (i_poi_hess I) (fun p => nth p (i_cons I) 0) (fun b => nth b (d_counts data) 0) (fun p => nth p (d_aux data) 0)
     (approx_tot false (i_nsamples I) P n (i_sym I) (fun p => nth p (nps hypo) 0) (fun p => nth p ns 0)) (fun p => nth p ns 0)))).
  { intros ns. rewrite (nll_linear m I (pois hypo) (nps hypo) n data ref Hpl H0 Hn Href) by (intros b Hb; rewrite Hnp in Hb; lia). fold P. rewrite Hnp. do 2 f_equal.
    unfold likelihood. f_equal. f_equal. f_equal. apply rsum_ext. intros i Hi'. apply rsum_ext. intros j Hj. unfold approx_tot.
    f_equal; [f_equal|]; f_equal; apply rsum_ext; intros s Hss; do 2 f_equal; apply rsum_ext; intros a Ha; rewrite H0; reflexivity. }
  eexists. split; [apply NL|]. intros ns'. eexists. split; [apply NL|]. pose proof (LQ (fun p => nth p (nps mp) 0)) as L1. pose proof (LQ (fun p => nth p ns' 0)) as L2. cbn beta in L1, L2. rewrite L1, L2. specialize (Min (fun p => nth p ns' 0)). lra.
Qed.
Print Assumptions C29_exact_for_gaussian_linear.

(** a Gaussian model with one bin, one POI and one NP: the yield is 10 mu (1 + theta / 10) *)
Definition gmod (lognormal simple : bool) (h : R) (cons : option R) : Model :=
  mkModel "g" None [("mu", mkPOI (Some "mu") (Some 0) (Some 10) (Some 1) None None)]
    [("a", mkNP (Some "a") (Some 0) 1 cons (Some "aux") None None)] [("aux", mkAux (Some "aux") (Some (-5)) (Some 5) None None)]
    [("G", mkChannel "G" (KGauss ["b1"] (Some (fun _ _ => h))) [("S", mkSample "S" (ExprNorm "mu") (Some 1) (Some [10]) [("a", JFlt (1/10))])])] []
    false true simple lognormal 0.
Definition gcons (c : option R) : R := match c with Some _ => 1 | None => 0 end.
Lemma gmod_built l si h c : c = None \/ c = Some 1 -> exists I, set_internal_vars ex_env (gmod l si h c) = Ok I /\ i_channels I = m_channels (gmod l si h c) /\ i_nbins I = 1%nat /\ i_nsamples I = 1%nat /\
  i_pm I = mkPM ["mu"] [("a", 0, 1)] /\ i_ref_pois I = [1] /\ i_nbins_p I = 0%nat /\ i_nbins_g I = 1%nat /\ i_poi_hess I 0%nat 0%nat = h /\
  nth 0 (i_cons I) 0 = gcons c /\ i_sym I 0%nat 0%nat 0%nat = 1 / 10 /\ i_nvar I = 1%nat.
Proof.
  intros Hc. unfold gmod.
  assert (E : exists cs, match c with None => Ok 0 | Some _ => let! x := scaled_constraint (mkNP (Some "a") (Some 0) 1 c (Some "aux") None None) in if Reqb x 0 then Err ZeroDivisionError else Ok (1 / (x * x)) end = Ok cs /\ cs = gcons c).
  { destruct Hc as [-> | ->]; eexists; [split; reflexivity|]. split; [ev; reflexivity|]. cbn. field. }
  destruct Hc as [-> | ->]; eexists; (split; [ev; reflexivity|]); repeat split; cbn [i_cons nth i_sym gcons i_poi_hess]; try (cbn; lra); try (cbn; field).
Qed.

Definition gsolve : solver := fun n M q =>
  match n with O => Ok (fun _ => 0) | S O => if Reqb (M 0%nat 0%nat) 0 then Err LinAlgError else Ok (fun _ => q 0%nat / M 0%nat 0%nat) | _ => Err LinAlgError end.
Lemma gsolve_ok : solves gsolve.
Proof.
  intros [|[|n]] M q d H i Hi; cbn in H; [lia| |discriminate]. destruct (Reqb (M 0%nat 0%nat) 0) eqn:E; [discriminate|]. apply Reqb_false in E. inversion H; subst.
  assert (i = 0)%nat as -> by lia. cbn. field. exact E.
Qed.
Definition gdata : Data := mkData [12] [0].
Definition ghypo (th : R) : Params := mkPars [1] [th] (Some (mkPM ["mu"] [("a", 0, 1)])).

Lemma g_nexp l si h c I mu th : c = None \/ c = Some 1 -> set_internal_vars ex_env (gmod l si h c) = Ok I -> exists n, n_exp (gmod l si h c) I [mu] [th] = Ok n /\ n 0%nat 0%nat = 10 * mu * (1 + th / 10).
Proof.
  intros Hc H. destruct (gmod_built l si h c Hc) as (I' & H' & Hch & Hb & Hs & Hp & Hr & _ & _ & _ & _ & Hsy & _). rewrite H in H'. injection H' as <-.
  unfold n_exp, nominal_row, cut_k_exp, k_exp. rewrite Hch, Hb, Hs, Hp. cbn [m_asym m_linear gmod m_channels].
  eexists. split; [ev; reflexivity|]. cbn [rsum nth]. unfold cut. cbn [m_cutoff gmod]. rdec. cbn [rsum length]. unfold i_sym in Hsy. rewrite Hsy. field.
Qed.
Lemma g_ref l si h c I : c = None \/ c = Some 1 -> set_internal_vars ex_env (gmod l si h c) = Ok I -> exists ref, ref_yields (gmod l si h c) I = Ok ref.
Proof.
  intros Hc H. destruct (g_nexp l si h c I 1 0 Hc H) as (n & Hn & _). destruct (gmod_built l si h c Hc) as (I' & H' & _ & _ & _ & Hp & Hr & _). rewrite H in H'. injection H' as <-.
  unfold ref_yields. rewrite Hp, Hr. cbn [length pm_nps repeat]. rewrite Hn. eexists. reflexivity.
Qed.
Lemma g_pq l h c I th : c = None \/ c = Some 1 -> set_internal_vars ex_env (gmod l true h c) = Ok I -> exists M q, pq_einsum (gmod l true h c) I gdata [1] [th] = Ok (M, q) /\
  M 0%nat 0%nat = (1 + th / 10) * h * (1 + th / 10) + (if l then 2 * ((10 + th) * h * (th - 2) / 100) else 0) + gcons c /\ q 0%nat = (1 + th / 10) * h * (th - 2) + gcons c * th.
Proof.
  intros Hc H. destruct (g_nexp l true h c I 1 th Hc H) as (n & Hn & En). destruct (gmod_built l true h c Hc) as (I' & H' & Hch & Hb & Hs & Hp & Hr & Hnp & Hng & Hh & Hcs & Hsy & _). rewrite H in H'. injection H' as <-.
  unfold pq_einsum. rewrite Hn. cbn [bind]. unfold linear_impacts. cbn [m_simple_sym gmod bind]. rewrite Hnp, Hng, Hp, Hs. cbn [Nat.ltb Nat.leb bind]. eexists _, _. split; [reflexivity|].
  unfold pq_gaussian, cons_hess. cbn [fst snd rsum length pm_nps Nat.eqb nth Nat.add gdata d_counts d_aux]. rewrite Hcs. cbn [m_lognormal gmod]. split.
  - destruct l; cbn [rsum Nat.add]; rewrite Hsy, Hh, En; field.
  - rewrite Hsy, Hh, En; field.
Qed.
Lemma g_profile l h c I th : c = None \/ c = Some 1 -> set_internal_vars ex_env (gmod l true h c) = Ok I ->
  let M := (1 + th / 10) * h * (1 + th / 10) + (if l then 2 * ((10 + th) * h * (th - 2) / 100) else 0) + gcons c in
  let q := (1 + th / 10) * h * (th - 2) + gcons c * th in
  exists dl mp, profile gsolve (gmod l true h c) I gdata (HPars (ghypo th)) = Ok (dl, mp) /\ pois mp = [1] /\ nps mp = [th - if Rltb (Rabs M) (1 / 1000) then 0 else q / M].
Proof.
  intros Hc H M q. destruct (g_pq l h c I th Hc H) as (Mx & qx & E & E1 & E2). destruct (gmod_built l true h c Hc) as (I' & H' & _ & _ & _ & Hp & _). rewrite H in H'. injection H' as <-.
  unfold profile. cbn [pois nps ghypo]. rewrite E. cbn [bind]. rewrite Hp. cbn [length pm_nps].
  assert (Ed : det 1 Mx = M) by (cbn; rewrite E1; fold M; ring). rewrite Ed. replace ((1 / 1000) ^ 1) with (1 / 1000) by ring.
  destruct (Rltb (Rabs M) (1 / 1000)) eqn:Eb.
  - cbn [bind]. eexists _, _. split; [reflexivity|]. split; reflexivity.
  - apply Rltb_false in Eb. cbn [gsolve]. rewrite E1. fold M. assert (M <> 0) by (intros Z; rewrite Z, Rabs_R0 in Eb; lra). rewrite (proj2 (Reqb_false M 0)) by assumption.
    cbn [bind]. eexists _, _. split; [reflexivity|]. split; [reflexivity|]. cbn. rewrite E2. reflexivity.
Qed.

(** hypotheses of the three theorems above are met, with a non-trivial result: the NP moves from 0 to 1 *)
Example C29_nonvacuous : exists I dl mp M q ref, set_internal_vars ex_env (gmod false true 1 (Some 1)) = Ok I /\ solves gsolve /\
  profile gsolve (gmod false true 1 (Some 1)) I gdata (HPars (ghypo 0)) = Ok (dl, mp) /\ nps mp = [1] /\
  pq_einsum (gmod false true 1 (Some 1)) I gdata [1] [0] = Ok (M, q) /\ ref_yields (gmod false true 1 (Some 1)) I = Ok ref /\
  (1 / 1000) ^ length (pm_nps (i_pm I)) <= Rabs (det (length (pm_nps (i_pm I))) M) /\ plain_linear (gmod false true 1 (Some 1)) /\ i_nbins_p I = 0%nat /\
  length (nps (ghypo 0)) = length (pm_nps (i_pm I)) /\ sym_on (i_nbins_g I) (i_poi_hess I) /\ psd (i_nbins_g I) (i_poi_hess I).
Proof.
  destruct (gmod_built false true 1 (Some 1) (or_intror eq_refl)) as (I & H & _ & _ & _ & Hp & _ & Hnp & Hng & Hh & _).
  destruct (g_pq false 1 (Some 1) I 0 (or_intror eq_refl) H) as (M & q & E & E1 & _). destruct (g_profile false 1 (Some 1) I 0 (or_intror eq_refl) H) as (dl & mp & Hpr & _ & Hm).
  destruct (g_ref false true 1 (Some 1) I (or_intror eq_refl) H) as (ref & Href).
  exists I, dl, mp, M, q, ref. split; [exact H|]. split; [exact gsolve_ok|]. split; [exact Hpr|]. split.
  { rewrite Hm. rewrite (proj2 (Rltb_false _ _)); cbn [gcons]; [f_equal; field|]. rewrite Rabs_right; lra. }
  split; [exact E|]. split; [exact Href|]. rewrite Hp, Hnp, Hng. cbn [length pm_nps]. split.
  { cbn [det rsum pow]. rewrite E1. cbn [gcons]. rewrite Rabs_right; lra. }
  split; [repeat split|]. split; [reflexivity|]. split; [reflexivity|]. split.
  - intros i j Hi Hj. assert (i = 0)%nat as -> by lia. assert (j = 0)%nat as -> by lia. reflexivity.
  - intros d. unfold qform. cbn [rsum]. rewrite Hh. pose proof (Rle_0_sqr (d 0%nat)). unfold Rsqr in *. lra.
Qed.

(** Refuted: with the log-normal terms, the matrix of a Gaussian channel is not the second derivative of the
    log-linear likelihood: the curvature term is counted twice (minimizers.py:184) *)
Theorem C29_gaussian_lognormal_refuted : exists I M q n imp, set_internal_vars ex_env (gmod true true 1 (Some 1)) = Ok I /\
  pq_einsum (gmod true true 1 (Some 1)) I gdata [1] [0] = Ok (M, q) /\ n_exp (gmod true true 1 (Some 1)) I [1] [0] = Ok n /\ linear_impacts (gmod true true 1 (Some 1)) I [0] = Ok imp /\
  ~ second_order (length (pm_nps (i_pm I)))
    (fun th => likelihood (i_nbins_p I) (i_nbins_g I) (length (pm_nps (i_pm I))) (i_poi_hess I) (fun p => nth p (i_cons I) 0)
       (fun b => nth b (d_counts gdata) 0) (fun p => nth p (d_aux gdata) 0)
       (approx_tot true (i_nsamples I) (length (pm_nps (i_pm I))) n imp (fun p => nth p [0] 0) th) th)
    (fun p => nth p [0] 0) q M.
Proof.
  destruct (gmod_built true true 1 (Some 1) (or_intror eq_refl)) as (I & H & _ & _ & Hs & Hp & _ & Hnp & Hng & Hh & Hc & Hsy & _).
  destruct (g_pq true 1 (Some 1) I 0 (or_intror eq_refl) H) as (M & q & E & E1 & _). destruct (g_nexp true true 1 (Some 1) I 1 0 (or_intror eq_refl) H) as (n & Hn & En).
  exists I, M, q, n, (i_sym I). split; [exact H|]. split; [exact E|]. split; [exact Hn|]. split; [reflexivity|]. intros SO. specialize (SO (fun _ => 1)).
  rewrite Hp, Hnp, Hng, Hs in SO. cbn [length pm_nps] in SO.
  assert (Hsym : sym_on 1 (i_poi_hess I)) by (intros i j Hi Hj; assert (i = 0)%nat as -> by lia; assert (j = 0)%nat as -> by lia; reflexivity).
  pose proof (likelihood_line 0 1 1 (i_poi_hess I) (fun p => nth p (i_cons I) 0) (fun b => nth b (d_counts gdata) 0) (fun p => nth p (d_aux gdata) 0)
     (fun t => approx_tot true 1 1 n (i_sym I) (fun p => nth p [0] 0) (fun a => nth a [0] 0 + t * 1)) (fun b => rsum 1 (fun s => n s b)) _ _ (fun p => nth p [0] 0) (fun _ => 1)
     (fun b => tot_line0 true 1 1 n (i_sym I) (fun p => nth p [0] 0) (fun _ => 1) b) (fun b => tot_line true 1 1 n (i_sym I) (fun p => nth p [0] 0) (fun _ => 1) b)
     (fun b Hb => match Nat.nlt_0_r b Hb with end) Hsym) as L.
  destruct SO as (f1 & A1 & _ & A3). destruct L as (f2 & B1 & _ & B3).
  assert (EL : locally 0 (fun t => f2 t = f1 t)).
  { eapply filter_imp; [|apply filter_and; [exact A1|exact B1]]. intros t [Ha Hb]. exact (der_unique _ _ _ _ Hb Ha). }
  pose proof (der_unique _ _ _ _ (der_ext_loc _ _ _ _ EL B3) A3) as Eh. revert Eh. unfold slope, curv, lin. cbn [rsum Nat.add nth gdata d_counts]. rewrite En, E1, Hh, Hc, Hsy. cbn [gcons]. lra.
Qed.
Print Assumptions C29_gaussian_lognormal_refuted.

(** Refuted: for a Gaussian linear model, profiling that does not start from zero NPs misses the minimum, and a second
    iteration moves away from the exact minimum found by the first (minimizers.py:390-392, niter = 2) *)
Theorem C29_restart_refuted : exists I, set_internal_vars ex_env (gmod false true 1 (Some 1)) = Ok I /\
  (exists d1 p1, profile gsolve (gmod false true 1 (Some 1)) I gdata (HPars (ghypo 0)) = Ok (d1, p1) /\ nps p1 = [1]) /\
  (exists d1 p1 x th, profile_iter gsolve (gmod false true 1 (Some 1)) I gdata 2 None (ghypo 0) = Ok (d1, p1) /\ th <> 1 /\ nps p1 = [th] /\
     nll (gmod false true 1 (Some 1)) I [1] [1] gdata false None false = Ok (Fin x) /\
     forall y, nll (gmod false true 1 (Some 1)) I [1] [th] gdata false None false = Ok (Fin y) -> x < y).
Proof.
  destruct (gmod_built false true 1 (Some 1) (or_intror eq_refl)) as (I & H & _ & _ & Hs & Hp & _ & Hnp & Hng & Hh & Hc & Hsy & _).
  destruct (g_profile false 1 (Some 1) I 0 (or_intror eq_refl) H) as (dl & mp & Hpr & Hpo & Hm).
  destruct (g_profile false 1 (Some 1) I 1 (or_intror eq_refl) H) as (dl2 & mp2 & Hpr2 & Hpo2 & Hm2).
  rewrite (proj2 (Rltb_false _ _)) in Hm by (cbn [gcons]; rewrite Rabs_right; lra). rewrite (proj2 (Rltb_false _ _)) in Hm2 by (cbn [gcons]; rewrite Rabs_right; lra). cbn [gcons] in Hm, Hm2.
  replace (0 - ((1 + 0 / 10) * 1 * (0 - 2) + 1 * 0) / ((1 + 0 / 10) * 1 * (1 + 0 / 10) + 0 + 1)) with 1 in Hm by field.
  exists I. split; [exact H|]. split; [exists dl, mp; split; [exact Hpr|exact Hm]|].
  assert (Emp : mp = ghypo 1).
  { destruct (profile_inv gsolve (gmod false true 1 (Some 1)) I gdata (ghypo 0) dl mp) as (_ & _ & _ & _ & _ & _ & _ & _ & _ & Ep & _); [rewrite Hp; reflexivity|exact Hpr|].
    destruct mp as [a b c]. cbn in *. subst. rewrite Hp. reflexivity. }
  destruct (g_nexp false true 1 (Some 1) I 1 0 (or_intror eq_refl) H) as (n & Hn & En). destruct (g_ref false true 1 (Some 1) I (or_intror eq_refl) H) as (ref & Href).
  eexists _, _, _, _. split; [|split; [|split; [|split]]].
  - cbn [profile_iter]. rewrite Hpr. cbn [bind]. rewrite Emp, Hpr2. cbn [bind]. reflexivity.
  - shelve.
  - exact Hm2.
  - apply (nll_linear _ I [1] [0] n gdata ref); [repeat split| |exact Hn|exact Href|rewrite Hnp; intros; lia]. intros [|[|p]]; reflexivity.
  - intros y Hy. rewrite (nll_linear (gmod false true 1 (Some 1)) I [1] [0] n gdata ref) in Hy; [|repeat split|intros [|[|p]]; reflexivity|exact Hn|exact Href|rewrite Hnp; intros; lia].
    injection Hy as <-.
    unfold likelihood, approx_tot. rewrite Hnp, Hng, Hp, Hs. cbn [rsum length pm_nps Nat.add nth gdata d_counts d_aux resp]. rewrite Hsy, Hh, Hc. cbn [gcons].
    rewrite !En. match goal with |- context [1 - ?a / ?b] => set (z := 1 - a / b) end. assert (z = 1 + 10 / 221) by (unfold z; field). clearbody z. nra.
  Unshelve. cbn beta. apply Rgt_not_eq. match goal with |- ?a > 1 => replace a with (1 + 10 / 221) by field end. lra.
Qed.
Print Assumptions C29_restart_refuted.

(** Refuted: a well-posed system with a small determinant is treated as degenerate (minimizers.py:213-217), and the NPs
    are left away from the minimum *)
Theorem C29_small_determinant_refuted : exists I d1 p1 x, set_internal_vars ex_env (gmod false true (1 / 10000) None) = Ok I /\
  profile gsolve (gmod false true (1 / 10000) None) I gdata (HPars (ghypo 0)) = Ok (d1, p1) /\ nps p1 = [0] /\
  nll (gmod false true (1 / 10000) None) I [1] [2] gdata false None false = Ok (Fin x) /\
  forall y, nll (gmod false true (1 / 10000) None) I [1] [0] gdata false None false = Ok (Fin y) -> x < y.
Proof.
  destruct (gmod_built false true (1 / 10000) None (or_introl eq_refl)) as (I & H & _ & _ & Hs & Hp & _ & Hnp & Hng & Hh & Hc & Hsy & _).
  destruct (g_profile false (1 / 10000) None I 0 (or_introl eq_refl) H) as (dl & mp & Hpr & Hpo & Hm).
  rewrite (proj2 (Rltb_true _ _)) in Hm by (cbn [gcons]; rewrite Rabs_right; lra). rewrite Rminus_0_r in Hm.
  destruct (g_nexp false true (1 / 10000) None I 1 0 (or_introl eq_refl) H) as (n & Hn & En). destruct (g_ref false true (1 / 10000) None I (or_introl eq_refl) H) as (ref & Href).
  assert (NL : forall th, nll (gmod false true (1 / 10000) None) I [1] [th] gdata false None false = Ok (Fin (1 / 20000 * (th - 2) * (th - 2)))).
  { intros th. rewrite (nll_linear (gmod false true (1 / 10000) None) I [1] [0] n gdata ref); [|repeat split|intros [|[|p]]; reflexivity|exact Hn|exact Href|rewrite Hnp; intros; lia].
    do 2 f_equal. unfold likelihood, approx_tot. rewrite Hnp, Hng, Hp, Hs. cbn [rsum length pm_nps Nat.add nth gdata d_counts d_aux resp]. rewrite Hsy, Hh, Hc, En. cbn [gcons]. field. }
  exists I, dl, mp, (1 / 20000 * (2 - 2) * (2 - 2)). split; [exact H|]. split; [exact Hpr|]. split; [exact Hm|]. split; [apply NL|]. intros y Hy. rewrite NL in Hy. injection Hy as <-. lra.
Qed.
Print Assumptions C29_small_determinant_refuted.

(** Refuted: without the simplified impacts option, profiling from non-zero NPs always fails (core.py:941) *)
Theorem C29_exact_impacts_refuted : forall E sv m I data hypo n, set_internal_vars E m = Ok I -> m_simple_sym m = false -> (exists x, In x (nps hypo) /\ x <> 0) -> i_nvar I <> 0%nat ->
  n_exp m I (pois hypo) (nps hypo) = Ok n -> profile sv m I data (HPars hypo) = Err UnboundLocalError.
Proof.
  intros E sv m I data hypo n _ Hs (x & Hx & Hne) Hv Hn. unfold profile, pq_einsum. rewrite Hn. cbn [bind]. unfold linear_impacts. rewrite Hs.
  destruct (forallb (fun x => Reqb x 0) (nps hypo)) eqn:Ef; [exfalso; rewrite forallb_forall in Ef; apply Hne, Reqb_true, Ef, Hx|].
  destruct (Nat.eqb_spec (i_nvar I) 0); [contradiction|]. reflexivity.
Qed.
Print Assumptions C29_exact_impacts_refuted.
Example C29_exact_impacts_nonvacuous : exists I n, set_internal_vars ex_env (gmod false false 1 (Some 1)) = Ok I /\ m_simple_sym (gmod false false 1 (Some 1)) = false /\
  (exists x, In x (nps (ghypo 1)) /\ x <> 0) /\ i_nvar I <> 0%nat /\ n_exp (gmod false false 1 (Some 1)) I [1] [1] = Ok n.
Proof.
  destruct (gmod_built false false 1 (Some 1) (or_intror eq_refl)) as (I & H & _ & _ & _ & _ & _ & _ & _ & _ & _ & _ & Hv). destruct (g_nexp false false 1 (Some 1) I 1 1 (or_intror eq_refl) H) as (n & Hn & _).
  exists I, n. split; [exact H|]. split; [reflexivity|]. split; [exists 1; split; [left; reflexivity|lra]|]. rewrite Hv. split; [lia|exact Hn].
Qed.

(** C30: the POIs of the result are those of the hypothesis, the reported deltas are the change of the NPs, and the NPs
    are unchanged when the system is degenerate *)
Theorem C30_profile_keeps_pois : forall sv m I data hypo dl mp, length (nps hypo) = length (pm_nps (i_pm I)) -> profile sv m I data (HPars hypo) = Ok (dl, mp) ->
  pois mp = pois hypo /\ length (nps mp) = length (nps hypo) /\ pois dl = pois hypo /\
  (forall i, (i < length (nps hypo))%nat -> nth i (nps mp) 0 = nth i (nps hypo) 0 - nth i (nps dl) 0).
Proof.
  intros sv m I data hypo dl mp Hl H. destruct (profile_inv _ _ _ _ _ _ _ Hl H) as (M & q & d & _ & _ & A & B & C & _ & _ & _ & D).
  split; [exact A|]. split; [lia|]. split; [exact B|]. intros i Hi. rewrite Hl in Hi. destruct (D i Hi) as (-> & ->). reflexivity.
Qed.
Print Assumptions C30_profile_keeps_pois.
Theorem C30_degenerate_returns_nps : forall sv m I data hypo dl mp M q, length (nps hypo) = length (pm_nps (i_pm I)) -> profile sv m I data (HPars hypo) = Ok (dl, mp) ->
  pq_einsum m I data (pois hypo) (nps hypo) = Ok (M, q) -> Rabs (det (length (pm_nps (i_pm I))) M) < (1 / 1000) ^ length (pm_nps (i_pm I)) ->
  nps mp = nps hypo /\ nps dl = repeat 0 (length (nps hypo)).
Proof.
  intros sv m I data hypo dl mp M q Hl H Hpq Hd. destruct (profile_inv _ _ _ _ _ _ _ Hl H) as (M' & q' & d & Hpq' & [(_ & Z)|(X & _)] & A & B & C & C' & _ & _ & D); rewrite Hpq in Hpq'; injection Hpq' as <- <-; [|lra].
  split; apply (nth_ext _ _ 0 0); rewrite ?repeat_length; try lia; intros i Hi.
  - rewrite C in Hi. destruct (D i Hi) as (-> & _). rewrite Z. ring.
  - rewrite C' in Hi. destruct (D i Hi) as (_ & ->). rewrite Z. symmetry. apply nth_repeat.
Qed.
Print Assumptions C30_degenerate_returns_nps.
(** and the POIs are kept by any number of iterations *)
Theorem C30_iterations_keep_pois : forall sv m I data niter d0 hypo dl mp, length (nps hypo) = length (pm_nps (i_pm I)) -> profile_iter sv m I data niter d0 hypo = Ok (dl, mp) ->
  pois mp = pois hypo /\ length (nps mp) = length (nps hypo).
Proof.
  intros sv m I data niter. induction niter as [|k IH]; intros d0 hypo dl mp Hl H; cbn [profile_iter] in H; [inversion H; subst; split; reflexivity|].
  apply bind_Ok in H as ((d1, p1) & H1 & H). destruct (C30_profile_keeps_pois _ _ _ _ _ _ _ Hl H1) as (A & B & _).
  destruct (IH _ _ _ _ (eq_trans B Hl) H) as (C & D). split; congruence.
Qed.
Print Assumptions C30_iterations_keep_pois.
(** both cases occur: a regular system (C29_nonvacuous) and a degenerate one *)
Example C30_degenerate_nonvacuous : exists I dl mp M q, profile gsolve (gmod false true 0 None) I gdata (HPars (ghypo 0)) = Ok (dl, mp) /\ length (nps (ghypo 0)) = length (pm_nps (i_pm I)) /\
  pq_einsum (gmod false true 0 None) I gdata [1] [0] = Ok (M, q) /\ Rabs (det (length (pm_nps (i_pm I))) M) < (1 / 1000) ^ length (pm_nps (i_pm I)).
Proof.
  destruct (gmod_built false true 0 None (or_introl eq_refl)) as (I & H & _ & _ & _ & Hp & _).
  destruct (g_pq false 0 None I 0 (or_introl eq_refl) H) as (M & q & E & E1 & _). destruct (g_profile false 0 None I 0 (or_introl eq_refl) H) as (dl & mp & Hpr & _ & Hm).
  exists I, dl, mp, M, q. split; [exact Hpr|]. rewrite Hp. split; [reflexivity|]. split; [exact E|]. cbn [length pm_nps det rsum pow]. rewrite E1. cbn [gcons].
  rewrite Rabs_right; lra.
Qed.

(** C69: refuted: a hypothesis given as anything else than a Parameters object (the documentation allows whatever
    Parameters can be built from) always fails *)
Theorem C69_profile_other_formats_refuted : forall sv m I data, profile sv m I data HOther = Err NameError.
Proof. reflexivity. Qed.
Print Assumptions C69_profile_other_formats_refuted.
