(** C81: the likelihood is the product of the likelihoods of the channels and of the constraints. *)
From Verif Require Import CoreExample Py PyFacts Base Expressions ExprSpec ExprFacts Norms Sample SampleFacts Channels ChannelFacts Params ParamsFacts Core CoreFacts CoreSpec CoreCoefs CoreYields NllFacts.
Local Open Scope string_scope.
Local Open Scope list_scope.
Local Open Scope R_scope.

(** * specification *)
(** the term of one channel, of which the expected yields are t 0, t 1, ... and the observed counts n 0, n 1, ...: a multivariate Gaussian of given inverse covariance, or a product of
    Poisson terms up to the factor n! *)
Definition channel_nll (c : Channel) (t n : nat -> R) : R :=
  match ch_kind c with
  | KGauss bins (Some h) => 1 / 2 * rsum (length bins) (fun i => rsum (length bins) (fun j => (t i - n i) * h i j * (t j - n j)))
  | _ => rsum (nbins c) (fun b => t b - n b * ln (t b))
  end.
(** channels with consecutive bins, starting from bin o *)
Fixpoint channels_nll (chs : dict Channel) (o : nat) (t n : nat -> R) : R :=
  match chs with
  | [] => 0
  | (_, c) :: r => channel_nll c (fun b => t (o + b)%nat) (fun b => n (o + b)%nat) + channels_nll r (o + nbins c) t n
  end.
(** a constraint: the pull of the auxiliary observable (in units of the variation) with respect to the NP, over the width of the constraint in the same units *)
Definition constraint_nll (p : NP) (aux x : R) : R :=
  match np_constraint p with
  | None => 0
  | Some w => 1 / 2 * ((aux - x) / (w / np_variation p)) ^ 2
  end.
Fixpoint constraints_nll (nps : list NP) (aux ns : list R) : R :=
  match nps with
  | [] => 0
  | p :: r => constraint_nll p (nth 0 aux 0) (nth 0 ns 0) + constraints_nll r (tl aux) (tl ns)
  end.

(** * proof *)
Lemma channels_nll_app a b o t n : channels_nll (a ++ b) o t n = channels_nll a o t n + channels_nll b (o + total_bins a) t n.
Proof.
  revert o; induction a as [|[k c] a IH]; intros o; cbn [app channels_nll total_bins fold_right]; [rewrite Nat.add_0_r; ring|].
  rewrite IH. cbn [snd]. replace (o + (nbins c + total_bins a))%nat with (o + nbins c + total_bins a)%nat by lia.
  change (fold_right _ _ a) with (total_bins a). rewrite Nat.add_assoc. ring.
Qed.
Lemma pois_channels chs t n : (forall kc, In kc chs -> is_gaussian (snd kc) = false) -> forall o, channels_nll chs o t n = rsum (total_bins chs) (fun b => t (o + b)%nat - n (o + b)%nat * ln (t (o + b)%nat)).
Proof.
  induction chs as [|[k c] chs IH]; intros H o; cbn [channels_nll total_bins fold_right snd]; [reflexivity|]. change (fold_right _ _ chs) with (total_bins chs).
  rewrite rsum_split, IH by (intros; apply H; now right). f_equal.
  - assert (G : is_gaussian c = false) by (apply (H (k, c)); now left). unfold is_gaussian in G. unfold channel_nll. destruct (ch_kind c); try discriminate; reflexivity.
  - apply rsum_ext. intros b _. now rewrite Nat.add_assoc.
Qed.
Lemma hess_poisson chs r n h : (forall kc, In kc chs -> is_gaussian (snd kc) = false) -> hess_blocks (chs ++ r) n h = hess_blocks r n h.
Proof.
  induction chs as [|[k c] chs IH]; intros H; [reflexivity|]. cbn [app hess_blocks].
  assert (G : is_gaussian c = false) by (apply (H (k, c)); now left). unfold is_gaussian in G. destruct (ch_kind c); try discriminate; apply IH; intros; apply H; now right.
Qed.
Definition within (n : nat) (h : mat) : Prop := forall i j, (n <= i \/ n <= j)%nat -> h i j = 0.
Definition overlay (n l : nat) (hc h : mat) : mat :=
  fun i j => if ((n <=? i) && (i <? n + l) && (n <=? j) && (j <? n + l))%nat then hc (i - n)%nat (j - n)%nat else h i j.
Lemma overlay_in n l hc h i j : (i < l)%nat -> (j < l)%nat -> overlay n l hc h (n + i)%nat (n + j)%nat = hc i j.
Proof.
  intros Hi Hj. unfold overlay. replace (n + i - n)%nat with i by lia. replace (n + j - n)%nat with j by lia.
  rewrite (proj2 (Nat.leb_le n (n + i))), (proj2 (Nat.leb_le n (n + j))), (proj2 (Nat.ltb_lt (n + i) (n + l))), (proj2 (Nat.ltb_lt (n + j) (n + l))) by lia. reflexivity.
Qed.
Lemma overlay_out n l hc h i j : (i < n \/ n + l <= i \/ j < n \/ n + l <= j)%nat -> overlay n l hc h i j = h i j.
Proof.
  intros H. unfold overlay. destruct (Nat.leb_spec n i), (Nat.ltb_spec i (n + l)), (Nat.leb_spec n j), (Nat.ltb_spec j (n + l)); cbn; try reflexivity; lia.
Qed.
Lemma overlay_within n l hc h : within n h -> within (n + l) (overlay n l hc h).
Proof. intros H i j Hij. rewrite overlay_out by lia. apply H. lia. Qed.
Lemma overlay_qform n l hc h a : within n h -> qform (n + l) (overlay n l hc h) a a = qform n h a a + qform l hc (fun i => a (n + i)%nat) (fun i => a (n + i)%nat).
Proof.
  intros H. unfold qform. rewrite rsum_split. f_equal.
  - apply rsum_ext. intros i Hi. rewrite rsum_split. rewrite (rsum_ext l _ (fun _ => 0)), rsum_0 by (intros j Hj; rewrite overlay_out, H by lia; ring).
    rewrite Rplus_0_r. apply rsum_ext. intros j Hj. rewrite overlay_out by lia. reflexivity.
  - apply rsum_ext. intros i Hi. rewrite rsum_split. rewrite (rsum_ext n _ (fun _ => 0)), rsum_0 by (intros j Hj; rewrite overlay_out, H by lia; ring).
    rewrite Rplus_0_l. apply rsum_ext. intros j Hj. rewrite overlay_in by assumption. reflexivity.
Qed.
Lemma hess_gauss chs : (forall kc, In kc chs -> is_gaussian (snd kc) = true) -> forall n h H a, within n h -> hess_blocks chs n h = Ok H ->
  qform (n + total_bins chs) H a a = qform n h a a + 2 * channels_nll chs n a (fun _ => 0).
Proof.
  induction chs as [|[k c] chs IH]; intros Hg n h H a Hw Hh; cbn [hess_blocks channels_nll total_bins fold_right snd] in *.
  - inversion Hh; subst. rewrite Nat.add_0_r. ring.
  - assert (G : is_gaussian c = true) by (apply (Hg (k, c)); now left). unfold is_gaussian in G. unfold channel_nll. destruct (ch_kind c) as [| | |bins o] eqn:Ek; try discriminate.
    destruct o as [hc|]; [|discriminate]. assert (Nb : nbins c = length bins) by (unfold nbins; now rewrite Ek). change (fold_right _ _ chs) with (total_bins chs).
    assert (Hg' : forall kc, In kc chs -> is_gaussian (snd kc) = true) by (intros; apply Hg; now right).
    fold (overlay n (length bins) hc h) in Hh. specialize (IH Hg' _ _ _ a (overlay_within _ _ hc _ Hw) Hh). rewrite Nb, Nat.add_assoc, IH, overlay_qform by exact Hw.
    unfold qform at 2. rewrite (rsum_ext _ (fun i => rsum (length bins) (fun j => (a (n + i)%nat - 0) * hc i j * (a (n + j)%nat - 0))) (fun i => rsum (length bins) (fun j => a (n + i)%nat * hc i j * a (n + j)%nat))).
    + field.
    + intros i _. apply rsum_ext. intros j _. ring.
Qed.
Lemma channels_shift chs t n : (forall kc, In kc chs -> is_gaussian (snd kc) = true) -> (forall kc, In kc chs -> forall bins, ch_kind (snd kc) <> KGauss bins None) -> forall o p,
  channels_nll chs (o + p) t n = channels_nll chs p (fun i => t (o + i)%nat - n (o + i)%nat) (fun _ => 0).
Proof.
  induction chs as [|[k c] chs IH]; intros Hg Hs o p; cbn [channels_nll]; [reflexivity|]. f_equal.
  - assert (G : is_gaussian c = true) by (apply (Hg (k, c)); now left). pose proof (Hs (k, c) (or_introl eq_refl)) as S0. cbn [snd] in S0. unfold is_gaussian in G. unfold channel_nll.
    destruct (ch_kind c) as [| | |bins [hc|]]; try discriminate; [|exfalso; now apply (S0 bins)]. f_equal. apply rsum_ext. intros i _. apply rsum_ext. intros j _. rewrite !Nat.add_assoc. ring.
  - rewrite <- Nat.add_assoc. apply IH; intros; [apply Hg|apply Hs]; now right.
Qed.
Lemma hess_some chs : (forall kc, In kc chs -> is_gaussian (snd kc) = true) -> forall n h H, hess_blocks chs n h = Ok H -> forall kc, In kc chs -> forall bins, ch_kind (snd kc) <> KGauss bins None.
Proof.
  induction chs as [|[k c] chs IH]; intros Hg n h H Hh kc Hin bins Hk; [destruct Hin|]. destruct Hin as [<-|Hin]; cbn [hess_blocks snd] in *.
  - rewrite Hk in Hh. discriminate.
  - assert (G : is_gaussian c = true) by (apply (Hg (k, c)); now left). unfold is_gaussian in G. destruct (ch_kind c) as [| | |b [hc|]]; try discriminate.
    eapply IH; eauto. intros; apply Hg; now right.
Qed.
Lemma hess_kind a b : Forall2 (fun kc kc' => ch_kind (snd kc') = ch_kind (snd kc)) a b -> forall n h, hess_blocks b n h = hess_blocks a n h.
Proof.
  induction 1 as [|[k c] [k' c'] a b H1 F IH]; intros n h; [reflexivity|]. cbn [hess_blocks snd] in *. rewrite H1. destruct (ch_kind c) as [| | |bins [hc|]]; auto.
Qed.
Lemma cons_is_pulls : forall nps cons aux ns, Forall2 (fun p x => cons_of p = Ok x) nps cons ->
  1 / 2 * rsum (length nps) (fun p => nth p cons 0 * (nth p aux 0 - nth p ns 0) * (nth p aux 0 - nth p ns 0)) = constraints_nll nps aux ns.
Proof.
  intros nps cons aux ns H. revert aux ns. induction H as [|p x nps cons H1 F IH]; intros aux ns; cbn [length constraints_nll]; [cbn; ring|].
  rewrite rsum_shift, Rmult_plus_distr_l. f_equal.
  - unfold cons_of in H1. unfold constraint_nll. destruct (np_constraint p) as [w|] eqn:Ec; [|inversion H1; subst; cbn [nth]; ring].
    unfold scaled_constraint in H1. rewrite Ec in H1. destruct (Reqb (np_variation p) 0) eqn:Ev; cbn [bind] in H1; [discriminate|].
    destruct (Reqb (w / np_variation p) 0) eqn:E0; [discriminate|]. apply Reqb_false in E0, Ev. inversion H1; subst x. cbn [nth]. assert (w <> 0) by (intros ->; apply E0; unfold Rdiv; ring). field. split; assumption.
  - rewrite <- (IH (tl aux) (tl ns)). f_equal. apply rsum_ext. intros i _. cbn [nth]. destruct aux, ns; cbn [tl nth]; destruct i; reflexivity.
Qed.

(** C81: the negative log-likelihood is the sum of the terms of the channels and of the constraints *)
Theorem C81_likelihood_is_product : forall E m I ps ns data t ref, set_internal_vars E m = Ok I -> tot_bin_exp m I ps ns None = Ok t -> ref_yields m I = Ok ref ->
  (forall b, (b < i_nbins_p I)%nat -> 0 < t b) ->
  nll m I ps ns data false None false =
  Ok (Fin (channels_nll (i_channels I) 0 t (fun b => nth b (d_counts data) 0) + constraints_nll (values (m_nps m)) (d_aux data) ns)) /\
  nll m I ps ns data false None true = Ok (Fin (channels_nll (i_channels I) 0 t (fun b => nth b (d_counts data) 0))).
Proof.
  intros E m I ps ns data t ref HS Ht Hr Hp. pose proof (siv_built _ _ _ HS) as Bt. set (n := fun b => nth b (d_counts data) 0).
  assert (Hch : pois_sum I n t + gauss_sum I n t = channels_nll (i_channels I) 0 t n).
  { destruct (built_split _ _ _ Bt) as (chp & chg & Hc & Gp & Gg & Np & Ng). rewrite Hc, channels_nll_app. f_equal.
    - rewrite pois_channels by exact Gp. rewrite Np. reflexivity.
    - rewrite Np. cbn [Nat.add]. unfold gauss_sum. set (a := fun i => t (i_nbins_p I + i)%nat - n (i_nbins_p I + i)%nat).
      pose proof (bt_hess _ _ _ Bt) as Hh. rewrite <- (hess_kind (poisson_first (m_channels m)) (i_channels I)) in Hh.
      2:{ eapply Forall2_impl_in; [|exact (built_channels _ _ _ Bt)]. cbn. tauto. }
      rewrite Hc, hess_poisson in Hh by exact Gp.
      pose proof (hess_gauss chg Gg 0%nat (fun _ _ => 0) _ a ltac:(intros i j _; reflexivity) Hh) as Q. cbn [Nat.add] in Q. rewrite Ng in Q. rewrite Q.
      rewrite <- (Nat.add_0_r (i_nbins_p I)) at 1. rewrite (channels_shift chg t n Gg (hess_some _ Gg _ _ _ Hh)). fold a. cbn [qform rsum]. unfold qform; cbn [rsum]. field. }
  assert (Hcs : cons_sum I (d_aux data) ns = constraints_nll (values (m_nps m)) (d_aux data) ns).
  { unfold cons_sum. destruct (pmodel_names _ _ (bt_pm _ _ _ Bt)) as (_ & Hn & _). assert (L : length (pm_nps (i_pm I)) = length (values (m_nps m))).
    { apply (f_equal (@length string)) in Hn. unfold np_names, keys in Hn. rewrite !map_length in Hn. unfold values. rewrite map_length. exact Hn. }
    rewrite L. apply cons_is_pulls. pose proof (bt_cons _ _ _ Bt) as F. clear -F. unfold values. induction F; cbn; constructor; auto. }
  split; rewrite (nll_noff m I ps ns data None _ t ref Ht Hr Hp); fold n; rewrite Hch; [rewrite Hcs; reflexivity|]. now rewrite Rplus_0_r.
Qed.
Print Assumptions C81_likelihood_is_product.

(** C81, with the formula of the expected yields: the term of channel i only depends on the samples of that channel *)
Theorem C81_yields_of_the_channels : forall E m I ps ns t i k c b, set_internal_vars E m = Ok I -> names_ok m -> tables_ok E m (i_channels I) -> length ps = length (m_pois m) ->
  tot_bin_exp m I ps ns None = Ok t -> nth_error (i_channels I) i = Some (k, c) -> (b < nbins c)%nat ->
  t (total_bins (firstn i (i_channels I)) + b)%nat = lsum (map (fun sm => spec_yield m ps sm b * cut (m_cutoff m) (np_factor E m sm b ns)) (values (ch_samples c))).
Proof. intros E m I ps ns t i k c b HS HN HT HL Ht Hi Hb. exact (tot_bin_at E m I ps ns t i k c b (siv_built _ _ _ HS) HN HT HL Ht Hi Hb). Qed.
Print Assumptions C81_yields_of_the_channels.

(** C81: the inverse covariance of the Gaussian bins is that of each channel, in its own bins, and bins of different channels are uncorrelated *)
Fixpoint gauss_block (chs : dict Channel) (i j : nat) : R :=
  match chs with
  | [] => 0
  | (_, c) :: r =>
    if ((i <? nbins c) && (j <? nbins c))%nat then match ch_kind c with KGauss _ (Some h) => h i j | _ => 0 end
    else if ((i <? nbins c) || (j <? nbins c))%nat then 0 else gauss_block r (i - nbins c) (j - nbins c)
  end.
Lemma hess_block_at chs : (forall kc, In kc chs -> is_gaussian (snd kc) = true) -> forall n h H, within n h -> hess_blocks chs n h = Ok H ->
  (forall i j, (i < n \/ j < n)%nat -> H i j = h i j) /\ forall i j, H (n + i)%nat (n + j)%nat = gauss_block chs i j.
Proof.
  induction chs as [|[k c] chs IH]; intros Hg n h H Hw Hh; cbn [hess_blocks gauss_block snd] in *.
  - inversion Hh; subst. split; [auto|]. intros i j. apply Hw. lia.
  - assert (G : is_gaussian c = true) by (apply (Hg (k, c)); now left). unfold is_gaussian in G. destruct (ch_kind c) as [| | |bins [hc|]] eqn:Ek; try discriminate.
    assert (Nb : nbins c = length bins) by (unfold nbins; now rewrite Ek). rewrite Nb. fold (overlay n (length bins) hc h) in Hh.
    destruct (IH ltac:(intros; apply Hg; now right) _ _ _ (overlay_within _ _ hc _ Hw) Hh) as (A & B). split.
    + intros i j Hij. rewrite A by lia. apply overlay_out. lia.
    + intros i j. destruct (Nat.ltb_spec i (length bins)), (Nat.ltb_spec j (length bins)); cbn [andb orb].
      * rewrite A by lia. now apply overlay_in.
      * rewrite A by lia. rewrite overlay_out by lia. apply Hw. lia.
      * rewrite A by lia. rewrite overlay_out by lia. apply Hw. lia.
      * replace (n + i)%nat with (n + length bins + (i - length bins))%nat by lia. replace (n + j)%nat with (n + length bins + (j - length bins))%nat by lia. apply B.
Qed.
Theorem C81_inverse_covariance : forall E m I i j, set_internal_vars E m = Ok I -> i_poi_hess I i j = gauss_block (filter (fun kc => is_gaussian (snd kc)) (i_channels I)) i j.
Proof.
  intros E m I i j HS. pose proof (siv_built _ _ _ HS) as Bt. destruct (built_split _ _ _ Bt) as (chp & chg & Hc & Gp & Gg & Np & Ng).
  assert (Ef : filter (fun kc => is_gaussian (snd kc)) (i_channels I) = chg).
  { rewrite Hc, filter_app. rewrite (filter_none _ chp) by exact Gp. cbn [app]. clear -Gg. induction chg as [|x l IH]; [reflexivity|]. cbn. rewrite (Gg x (or_introl eq_refl)). f_equal. apply IH. intros; apply Gg; now right. }
  pose proof (bt_hess _ _ _ Bt) as Hh. rewrite <- (hess_kind (poisson_first (m_channels m)) (i_channels I)) in Hh.
  2:{ eapply Forall2_impl_in; [|exact (built_channels _ _ _ Bt)]. cbn. tauto. }
  rewrite Hc, hess_poisson in Hh by exact Gp. rewrite Ef. apply (hess_block_at chg Gg 0%nat _ _ ltac:(intros ? ? _; reflexivity) Hh).
Qed.
Print Assumptions C81_inverse_covariance.

(** a Poisson channel, Gaussian channels with one and two bins, a constrained NP and a free one *)
Definition sm_model : Model :=
  mkModel "sm" None [("mu", mkPOI (Some "mu") (Some 0) (Some 10) (Some 1) None None)]
    [("a", mkNP (Some "a") (Some 0) 1 (Some 2) None None None); ("b", mkNP (Some "b") (Some 0) 1 None None None None)] []
    [("P", mkChannel "P" KSingle [("S", mkSample "S" (NumberNorm (Some 1)) (Some 1) (Some [3]) [])]);
     ("G", mkChannel "G" (KGauss ["b"] (Some (fun _ _ => 2))) [("S", mkSample "S" (ExprNorm "mu") (Some 1) (Some [1]) [("a", JObj [("+1", JFlt 0); ("-1", JFlt 0)]); ("b", JObj [("+1", JFlt 0); ("-1", JFlt 0)])])]);
     ("H", mkChannel "H" (KGauss ["c"; "d"] (Some (fun i j => INR (i + 1) + INR (j + 1)))) [("S", mkSample "S" (NumberNorm (Some 1)) (Some 1) (Some [1; 2]) [])])] [] true false true false 0.
Example C81_nonvacuous : exists I t ref, set_internal_vars ex_env sm_model = Ok I /\ tot_bin_exp sm_model I [1] [0; 0] None = Ok t /\ ref_yields sm_model I = Ok ref /\ i_nbins_p I = 1%nat /\ i_nbins_g I = 3%nat /\
  (forall b, (b < i_nbins_p I)%nat -> 0 < t b) /\ names_ok sm_model /\ tables_ok ex_env sm_model (i_channels I) /\ nth_error (i_channels I) 2 <> None.
Proof.
  assert (X : exists I t ref, set_internal_vars ex_env sm_model = Ok I /\ tot_bin_exp sm_model I [1] [0; 0] None = Ok t /\ ref_yields sm_model I = Ok ref /\ i_nbins_p I = 1%nat /\ i_nbins_g I = 3%nat /\
     i_channels I = m_channels sm_model).
  { do 3 eexists. split; [unfold sm_model; ev; reflexivity|]. split; [unfold sm_model; ev; reflexivity|]. split; [unfold sm_model; ev; reflexivity|]. repeat split. }
  destruct X as (I & t & ref & HS & Ht & Hr & Np & Ng & Hc). exists I, t, ref. do 5 (split; [assumption|]).
  assert (HN : names_ok sm_model) by (repeat constructor; cbn; intuition congruence).
  assert (HT : tables_ok ex_env sm_model (i_channels I)).
  { rewrite Hc. assert (AV : forall sm par, available_variations (e_float ex_env) sm par = Ok [1; -1] -> balanced ex_env sm par /\ (norders ex_env sm par <= 1)%nat).
    { intros sm par HB. unfold balanced, norders. rewrite HB. split; [intros av [= <-]|]; cbn [filter]; rdec; cbn; lia. }
    split; [|intros _; split; intros k c ks sm par [X|[X|[X|[]]]] Hs Hp; inversion X; subst].
    - intros k c ks sm [X|[X|[X|[]]]] Hs; inversion X; subst; destruct Hs as [Y|[]]; inversion Y; subst; (split; [eexists; split; reflexivity|]); intros par l Hl; cbn in Hl;
        repeat match type of Hl with context [String.eqb ?a ?b] => destruct (String.eqb a b) end; discriminate.
    - apply AV. destruct Hs as [Y|[]]; inversion Y; destruct Hp as [<-|[<-|[]]]; reflexivity.
    - apply AV. destruct Hs as [Y|[]]; inversion Y; destruct Hp as [<-|[<-|[]]]; reflexivity.
    - apply AV. destruct Hs as [Y|[]]; inversion Y; destruct Hp as [<-|[<-|[]]]; reflexivity.
    - left. apply AV. destruct Hs as [Y|[]]; inversion Y; destruct Hp as [<-|[<-|[]]]; reflexivity.
    - left. apply AV. destruct Hs as [Y|[]]; inversion Y; destruct Hp as [<-|[<-|[]]]; reflexivity.
    - left. apply AV. destruct Hs as [Y|[]]; inversion Y; destruct Hp as [<-|[<-|[]]]; reflexivity. }
  split; [|split; [exact HN|split; [exact HT|rewrite Hc; discriminate]]].
  rewrite Np. intros b Hb. assert (b = 0)%nat by lia. subst b.
  pose proof (C81_yields_of_the_channels ex_env sm_model I [1] [0; 0] t 0%nat "P" _ 0%nat HS HN HT eq_refl Ht ltac:(rewrite Hc; reflexivity) ltac:(cbn; lia)) as E0.
  cbn [firstn total_bins fold_right Nat.add] in E0. rewrite E0. cbn [values ch_samples map snd lsum]. unfold spec_yield. cbn [s_nominal_norm s_yields s_norm norm_den nth].
  unfold cut. cbn [m_cutoff sm_model]. rdec. unfold np_factor, factor. cbn [m_linear sm_model]. match goal with |- context [exp ?x] => pose proof (exp_pos x) end. lra.
Qed.
