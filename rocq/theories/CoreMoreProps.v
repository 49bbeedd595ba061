(** C86, C87, C88: pseudo-data, covariance and correlation matrices, constraint settings. *)
From Verif Require Import Py PyFacts Base Expressions ExprFacts Norms Sample SampleFacts Channels ChannelFacts Params ParamsFacts Core CoreFacts CoreSpec CoreCoefs CoreYields CoreExample ModelIO ModelIOFacts ModelToolsFacts CoreMore NllFacts NllGradProps DataProps.
Local Open Scope string_scope.
Local Open Scope list_scope.
Local Open Scope R_scope.

(** * C86: pseudo-data *)

(** the NPs of the model, with their values *)
Lemma np_value m I p i k q : pmodel_of m = Ok (i_pm I) -> wf p (i_pm I) -> NoDup (keys (m_pois m) ++ keys (m_nps m)) ->
  nth_error (m_nps m) i = Some (k, q) -> exists x, nth_error (nps p) i = Some x /\ pars_get p k = Ok x.
Proof.
  intros Hpm (Hm & Hp & Hn) HN Hi. destruct (pmodel_names _ _ Hpm) as (Hpo & Hk & _).
  assert (L : (i < length (nps p))%nat). { rewrite Hn. assert (E : length (pm_nps (i_pm I)) = length (np_names (i_pm I))) by (unfold np_names; now rewrite map_length). rewrite E, Hk. unfold keys. rewrite map_length. apply nth_error_Some. congruence. }
  destruct (nth_error (nps p) i) as [x|] eqn:Ex; [|apply nth_error_None in Ex; lia]. exists x. split; [reflexivity|].
  unfold pars_get. rewrite Hm, Hpo, Hk.
  assert (Ki : nth_error (keys (m_nps m)) i = Some k) by (unfold keys; rewrite nth_error_map, Hi; reflexivity).
  destruct (index k (keys (m_pois m))) as [j|] eqn:Ej.
  - exfalso. apply index_nth in Ej. apply nth_error_In in Ej. apply nth_error_In in Ki. clear -HN Ej Ki. induction (keys (m_pois m)) as [|a l IH]; [contradiction|].
    cbn in HN. inversion HN as [|? ? Ha HN']; subst. destruct Ej as [->|Ej]; [apply Ha, in_or_app; now right|]. apply IH; assumption.
  - rewrite (nth_index _ _ _ (NoDup_app_r _ _ HN) Ki). unfold lget. now rewrite Ex.
Qed.

Lemma mapM_enum_nth {A B} (f : nat * A -> res B) : forall l n r, mapM f (combine (seq n (length l)) l) = Ok r ->
  length r = length l /\ forall i a, nth_error l i = Some a -> exists b, nth_error r i = Some b /\ f ((n + i)%nat, a) = Ok b.
Proof.
  induction l as [|a l IH]; intros n r H; cbn [length seq combine mapM] in H; [injection H as <-; split; [reflexivity|intros [|i] a Ha; discriminate]|].
  apply bind_Ok in H as (b & Hb & H). apply bind_Ok in H as (r' & Hr & H). injection H as <-. destruct (IH _ _ Hr) as (L & Hn).
  split; [cbn; now rewrite L|]. intros [|i] a' Ha; cbn in Ha.
  - injection Ha as <-. exists b. split; [reflexivity|]. now rewrite Nat.add_0_r.
  - destruct (Hn i a' Ha) as (b' & Hb' & Hf). exists b'. split; [exact Hb'|]. replace (n + S i)%nat with (S n + i)%nat by lia. exact Hf.
Qed.

(** Each Poisson bin is drawn independently with the expected yield of the bin as its mean. *)
Theorem C86_poisson_counts : forall r m I p d t, generate_data r m I p = Ok d -> tot_bin_exp m I (pois p) (nps p) None = Ok t ->
  forall b, (b < i_nbins_p I)%nat -> 0 <= t b /\ nth_error (d_counts d) b = Some (r_poisson r b (t b)).
Proof.
  intros r m I p d t H Ht b Hb. unfold generate_data in H. rewrite Ht in H. cbn [bind] in H. apply bind_Ok in H as (cp & Hcp & H). apply bind_Ok in H as (aux & _ & H).
  rewrite (proj2 (Nat.ltb_lt 0 (i_nbins_p I))) in Hcp by lia. destruct (existsb _ _) eqn:Ex in Hcp; [discriminate|]. injection Hcp as <-.
  unfold data_init in H. apply bind_Ok in H as (c & Hc & H). apply bind_Ok in H as (a & _ & H). injection H as <-. cbn [d_counts].
  assert (Hn : nth_error (map (fun b => r_poisson r b (t b)) (seq 0 (i_nbins_p I))) b = Some (r_poisson r b (t b))) by (rewrite nth_error_map; rewrite (nth_error_nth' _ 0%nat) by (rewrite seq_length; exact Hb); rewrite seq_nth by exact Hb; reflexivity).
  split.
  - destruct (Rltb (t b) 0) eqn:E; [|apply Rltb_false in E; lra]. exfalso. rewrite <- not_true_iff_false in Ex. apply Ex. apply existsb_exists. exists b. split; [apply in_seq; lia|exact E].
  - unfold set_counts in Hc. destruct (_ ++ _) as [|x l] eqn:E in Hc; [apply app_eq_nil in E as [E _]; rewrite E in Hn; destruct b; discriminate|].
    destruct (_ =? _)%nat in Hc; [|discriminate]. injection Hc as <-. rewrite <- E, nth_error_app1; [exact Hn|]. apply nth_error_Some. congruence.
Qed.
Print Assumptions C86_poisson_counts.

(** The bins of the Gaussian channels: one joint draw, as many values as bins (the contract of numpy), of which the means
    are the expected yields of these bins. *)
Theorem C86_gaussian_counts : forall r m I p d t, (forall mean h, length (r_mvn r mean h) = length mean) ->
  generate_data r m I p = Ok d -> tot_bin_exp m I (pois p) (nps p) None = Ok t -> (0 < i_nbins_g I)%nat -> exists mean,
  (length mean = i_nbins_g I /\ forall i, (i < i_nbins_g I)%nat -> nth_error mean i = Some (t (i_nbins_p I + i)%nat)) /\
  forall i, (i < i_nbins_g I)%nat -> nth_error (d_counts d) (i_nbins_p I + i) = nth_error (r_mvn r mean (i_poi_hess I)) i.
Proof.
  intros r m I p d t HL H Ht Hg. unfold generate_data in H. rewrite Ht in H. cbn [bind] in H. apply bind_Ok in H as (cp & Hcp & H). apply bind_Ok in H as (aux & _ & H).
  rewrite (proj2 (Nat.ltb_lt 0 (i_nbins_g I)) Hg) in H. exists (map t (seq (i_nbins_p I) (i_nbins_g I))). split.
  - split; [now rewrite map_length, seq_length|]. intros i Hi. rewrite nth_error_map, (nth_error_nth' _ 0%nat) by (rewrite seq_length; exact Hi). rewrite seq_nth by exact Hi. reflexivity.
  - intros i Hi. assert (Lc : length cp = i_nbins_p I).
    { destruct (0 <? i_nbins_p I)%nat eqn:E; [destruct (existsb _ _) in Hcp; [discriminate|]; injection Hcp as <-; now rewrite map_length, seq_length|]. injection Hcp as <-. apply Nat.ltb_ge in E. cbn. lia. }
    unfold data_init in H. apply bind_Ok in H as (c & Hc & H). apply bind_Ok in H as (a & _ & H). injection H as <-. cbn [d_counts].
    unfold set_counts in Hc. destruct (cp ++ _) as [|x l] eqn:E in Hc.
    + exfalso. apply app_eq_nil in E as [_ E]. apply (f_equal (@length R)) in E. rewrite HL, map_length, seq_length in E. cbn in E. lia.
    + destruct (_ =? _)%nat in Hc; [|discriminate]. injection Hc as <-. rewrite <- E, nth_error_app2 by lia. f_equal. lia.
Qed.
Print Assumptions C86_gaussian_counts.

(** The auxiliary observable of each constrained NP is a normal draw around the value of the NP, and that of a free NP
    is 0. *)
Theorem C86_auxiliary_observables : forall r E m I p d, set_internal_vars E m = Ok I -> names_ok m -> wf p (i_pm I) -> generate_data r m I p = Ok d ->
  length (d_aux d) = length (m_nps m) /\
  forall i k q, nth_error (m_nps m) i = Some (k, q) -> exists x, nth_error (nps p) i = Some x /\
    nth_error (d_aux d) i = Some (match np_constraint q with None => 0 | Some c => r_normal r i x c end).
Proof.
  intros r E m I p d HS HN Hw H. pose proof (siv_built _ _ _ HS) as Bt. unfold generate_data in H. apply bind_Ok in H as (t & Ht & H). apply bind_Ok in H as (cp & Hcp & H). apply bind_Ok in H as (aux & Ha & H).
  unfold data_init in H. apply bind_Ok in H as (c & Hc & H). apply bind_Ok in H as (a & Hs & H). injection H as <-. cbn [d_aux].
  unfold enumerate in Ha. destruct (mapM_enum_nth _ _ _ _ Ha) as (L & Hn).
  assert (Ea : length a = length (m_nps m) /\ forall i, nth_error (m_nps m) i <> None -> a = aux).
  { unfold set_aux_obs in Hs. rewrite L, Nat.eqb_refl in Hs. destruct (length (m_nps m) =? 0)%nat eqn:E0; injection Hs as <-.
    - apply Nat.eqb_eq in E0. destruct (pmodel_names _ _ (bt_pm _ _ _ Bt)) as (_ & Hk & _). split.
      + rewrite map_length. assert (X : length (np_names (i_pm I)) = length (keys (m_nps m))) by (now rewrite Hk). unfold np_names, keys in X. rewrite !map_length in X. exact X.
      + intros i Hi. apply nth_error_Some in Hi. lia.
    - split; [exact L|reflexivity]. }
  split; [apply Ea|]. intros i k q Hi. destruct (np_value _ _ _ _ _ _ (bt_pm _ _ _ Bt) Hw (names_ok_base _ HN) Hi) as (x & Hx & Hg). exists x. split; [exact Hx|].
  rewrite (proj2 Ea i) by congruence. destruct (Hn i (k, q) Hi) as (b & Hb & Hf). cbn [fst snd] in Hf. rewrite Hg in Hf. cbn [bind] in Hf. rewrite Hb. f_equal.
  unfold gen_aux, generate_aux in Hf. destruct (np_constraint q) as [cc|]; [destruct (Rltb cc 0); [discriminate|]|]; injection Hf as <-; reflexivity.
Qed.
Print Assumptions C86_auxiliary_observables.

(** normal draws as shifted and scaled standard draws *)
Definition normal_draws (r : Rand) (z : nat -> R) : Prop := forall i mean width, r_normal r i mean width = mean + width * z i.
Definition pull2 (q : NP) (z : R) : R := match np_constraint q with None => 0 | Some _ => (np_variation q * z)² end.
(** sum over the constrained NPs *)
Fixpoint sum_nps (nps : dict NP) (f : nat -> NP -> R) : R :=
  match nps with [] => 0 | (_, q) :: l => f 0%nat q + sum_nps l (fun i => f (S i)) end.

Lemma sum_nps_rsum f : forall l, sum_nps l f = rsum (length l) (fun i => match nth_error l i with Some (_, q) => f i q | None => 0 end).
Proof.
  intros l. revert f. induction l as [|[k q] l IH]; intros f; [reflexivity|]. cbn [length sum_nps]. rewrite rsum_shift. cbn [nth_error]. f_equal. apply IH.
Qed.

Lemma Forall2_nth_error_l {A B} (P : A -> B -> Prop) l k i a : Forall2 P l k -> nth_error l i = Some a -> exists b, nth_error k i = Some b /\ P a b.
Proof. intros H. revert i. induction H as [|x y l k Hp H IH]; intros [|i] Hi; cbn in Hi; try discriminate; [injection Hi as <-; exists y; auto|apply IH; exact Hi]. Qed.

(** The constraint term of the likelihood of a pseudo-dataset, at the parameters for which it was generated: half the
    sum of the squared draws, each multiplied by the variation of its NP. *)
Theorem C86_constraint_term : forall r z E m I p d off fl v w, normal_draws r z -> set_internal_vars E m = Ok I -> names_ok m -> wf p (i_pm I) -> generate_data r m I p = Ok d ->
  nll m I (pois p) (nps p) d off fl false = Ok (Fin v) -> nll m I (pois p) (nps p) d off fl true = Ok (Fin w) ->
  v - w = 1 / 2 * sum_nps (m_nps m) (fun i q => pull2 q (z i)).
Proof.
  intros r z E m I p d off fl v w Hz HS HN Hw Hd Hv Hww. pose proof (siv_built _ _ _ HS) as Bt.
  destruct (C86_auxiliary_observables _ _ _ _ _ _ HS HN Hw Hd) as (La & Ha).
  assert (D : v - w = 1 / 2 * qform (length (pm_nps (i_pm I))) (cons_hess I) (fun p0 => nth p0 (d_aux d) 0 - nth p0 (nps p) 0) (fun p0 => nth p0 (d_aux d) 0 - nth p0 (nps p) 0)).
  { unfold nll in Hv, Hww. apply bind_Ok in Hv as (t & Ht & Hv). rewrite Ht in Hww. cbn [bind] in Hww. apply bind_Ok in Hv as (rf & Hrf & Hv). rewrite Hrf in Hww. cbn [bind] in Hww.
    cbv zeta in Hv, Hww. injection Hv as Hv. injection Hww as Hww. revert Hv Hww.
    match goal with |- context [eadd (eadd ?a ?b) _] => generalize a; generalize b end. intros b a. destruct a, b; cbn; try discriminate. intros [= <-] [= <-]. lra. }
  rewrite D, cons_qform. f_equal. rewrite sum_nps_rsum.
  assert (Lp : length (pm_nps (i_pm I)) = length (m_nps m)).
  { destruct (pmodel_names _ _ (bt_pm _ _ _ Bt)) as (_ & Hk & _). assert (X : length (np_names (i_pm I)) = length (keys (m_nps m))) by (now rewrite Hk). unfold np_names, keys in X. rewrite !map_length in X. exact X. }
  rewrite Lp. apply rsum_ext. intros i Hi. destruct (nth_error (m_nps m) i) as [[k q]|] eqn:Ei; [|apply nth_error_None in Ei; lia].
  destruct (Ha i k q Ei) as (x & Hx & Hax). rewrite (nth_error_nth _ _ 0 Hx), (nth_error_nth _ _ 0 Hax).
  destruct (Forall2_nth_error_l _ _ _ _ _ (bt_cons _ _ _ Bt) Ei) as (c & Hc & Hcc). cbn [snd] in Hcc. rewrite (nth_error_nth _ _ 0 Hc).
  unfold cons_of in Hcc. unfold pull2. destruct (np_constraint q) as [s|] eqn:Es; [|injection Hcc as <-; ring].
  unfold scaled_constraint in Hcc. rewrite Es in Hcc. destruct (Reqb (np_variation q) 0) eqn:E0; [discriminate|]. cbn [bind] in Hcc. destruct (Reqb (s / np_variation q) 0) eqn:E1; [discriminate|]. injection Hcc as <-.
  apply Reqb_false in E0. apply Reqb_false in E1. rewrite Hz. unfold Rsqr. field. split; [exact E0|]. intros ->. apply E1. unfold Rdiv. ring.
Qed.
Print Assumptions C86_constraint_term.

(** For NPs of unit variation the pulls are standard normal draws: the constraint term is half the sum of their squares *)
Theorem C86_standard_pulls : forall r z E m I p d off fl v w, normal_draws r z -> set_internal_vars E m = Ok I -> names_ok m -> wf p (i_pm I) -> generate_data r m I p = Ok d ->
  (forall k q, In (k, q) (m_nps m) -> np_is_free q = false -> np_variation q = 1) ->
  nll m I (pois p) (nps p) d off fl false = Ok (Fin v) -> nll m I (pois p) (nps p) d off fl true = Ok (Fin w) ->
  v - w = 1 / 2 * sum_nps (m_nps m) (fun i q => if np_is_free q then 0 else (z i)²).
Proof.
  intros r z E m I p d off fl v w Hz HS HN Hw Hd H1 Hv Hww. rewrite (C86_constraint_term _ _ _ _ _ _ _ _ _ _ _ Hz HS HN Hw Hd Hv Hww). f_equal.
  rewrite !sum_nps_rsum. apply rsum_ext. intros i Hi. destruct (nth_error (m_nps m) i) as [[k q]|] eqn:Ei; [|reflexivity]. unfold pull2.
  pose proof (H1 k q (nth_error_In _ _ Ei)) as H1'. unfold np_is_free in *. destruct (np_constraint q); [rewrite H1' by reflexivity; f_equal; ring|reflexivity].
Qed.
Print Assumptions C86_standard_pulls.

(** A model with one NP of nominal value 1, variation and constraint 1/10 (one standard deviation): the pulls of the
    pseudo-data have a width of 1/10 instead of 1 *)
Lemma shifted_facts : exists I, set_internal_vars ex_env shifted_model = Ok I /\ i_pm I = mkPM [] [("np", 1, 1/10)] /\ i_nbins I = 1%nat /\ i_nbins_p I = 1%nat /\ i_nbins_g I = 0%nat /\
  (forall x, exists t, tot_bin_exp shifted_model I [] [x] None = Ok t /\ t 0%nat = 10) /\ exists rf, ref_yields shifted_model I = Ok rf.
Proof.
  assert (A : exists I, set_internal_vars ex_env shifted_model = Ok I /\ i_channels I = m_channels shifted_model /\ i_nbins I = 1%nat /\ i_nsamples I = 1%nat /\
    i_pm I = mkPM [] [("np", 1, 1/10)] /\ i_ref_pois I = [] /\ i_nbins_p I = 1%nat /\ i_nbins_g I = 0%nat /\ i_nvar I = 1%nat /\
    i_pos I 0%nat = 0 /\ i_neg I 0%nat = 0).
  { unfold shifted_model, shifted_np. eexists. split; [ev; reflexivity|]. repeat split; try reflexivity.
    all: cbn [i_pos i_neg]; unfold set_slice; cbn; lra. }
  destruct A as (I & H & Hc & Hb & Hs & Hp & Hr & Hnp & Hng & Hv & Hpos & Hneg). exists I. repeat (split; [assumption|]).
  assert (T : forall x, exists t, tot_bin_exp shifted_model I [] [x] None = Ok t /\ t 0%nat = 10).
  { intros y. unfold tot_bin_exp, n_exp, nominal_row, cut_k_exp, k_exp. rewrite Hc, Hb, Hs, Hp, Hv. eexists. split; [ev; reflexivity|]. cbn.
    fold (i_pos I) (i_neg I). rewrite Hpos, Hneg. lra. }
  split; [exact T|]. unfold ref_yields. rewrite Hr, Hp. cbn [pm_nps length repeat]. destruct (T 0) as (t0 & Ht00 & _). unfold tot_bin_exp in Ht00. apply bind_Ok in Ht00 as (n & Hn & _). rewrite Hn. cbn [bind]. eauto.
Qed.
Lemma shifted_data r : exists I d, set_internal_vars ex_env shifted_model = Ok I /\ wf (mkPars [] [0] (Some (i_pm I))) (i_pm I) /\
  generate_data r shifted_model I (mkPars [] [0] (Some (i_pm I))) = Ok d /\
  (forall nc, exists v, nll shifted_model I [] [0] d false None nc = Ok (Fin v)).
Proof.
  destruct shifted_facts as (I & H & Hp & Hb & Hnp & Hng & T & rf & Hrf). destruct (T 0) as (t & Ht & Ht0).
  exists I, (mkData [r_poisson r 0 (t 0%nat)] [r_normal r 0 0 (1/10)]). split; [exact H|]. split; [rewrite Hp; repeat split|]. split.
  - unfold generate_data. cbn [pois nps]. rewrite Ht. cbn [bind]. rewrite Hnp, Hng. cbn [Nat.ltb Nat.leb seq existsb map]. rewrite Ht0. rewrite (proj2 (Rltb_false 10 0)) by lra. cbn [orb bind].
    unfold enumerate. cbn [m_nps shifted_model length seq combine mapM fst snd]. unfold pars_get. cbn [pmod]. rewrite Hp. cbn [pm_pois index np_names pm_nps map fst String.eqb Ascii.eqb Bool.eqb lget nth_error nps bind]. unfold lget. cbn [nth_error bind].
    unfold gen_aux, shifted_np, generate_aux. cbn [np_constraint]. rewrite (proj2 (Rltb_false (1/10) 0)) by lra. cbn [bind app].
    unfold data_init, set_counts, set_aux_obs. rewrite Hb, Hp. reflexivity.
  - intros nc. unfold nll. rewrite Ht. cbn [bind]. rewrite Hrf. cbn [bind]. rewrite Hnp, Hng, Hp. cbn [esum pm_nps length d_counts d_aux nth]. unfold elog. rewrite Ht0. rewrite (proj2 (Rltb_true 0 10)) by lra. cbn [emulr eadd]. eauto.
Qed.
Theorem C86_width_refuted : forall r z, normal_draws r z -> exists I d v w, set_internal_vars ex_env shifted_model = Ok I /\
  generate_data r shifted_model I (mkPars [] [0] (Some (i_pm I))) = Ok d /\
  nll shifted_model I [] [0] d false None false = Ok (Fin v) /\ nll shifted_model I [] [0] d false None true = Ok (Fin w) /\
  v - w = 1 / 2 * (z 0%nat / 10)².
Proof.
  intros r z Hz. destruct (shifted_data r) as (I & d & H & Hw & Hd & Hn). destruct (Hn false) as (v & Hv). destruct (Hn true) as (w & Hww). exists I, d, v, w.
  repeat (split; [assumption|]). rewrite (C86_constraint_term r z ex_env shifted_model I (mkPars [] [0] (Some (i_pm I))) d false None v w Hz H); [|repeat constructor; cbn; intuition congruence|exact Hw|exact Hd|exact Hv|exact Hww].
  cbn. unfold pull2. cbn. unfold Rsqr. field.
Qed.
Print Assumptions C86_width_refuted.

(** Gaussian channels: the draws have the inverse covariance of the likelihood as their covariance.  In the model of
    C24_gaussian_channels_refuted, where the variance is 1/2, the likelihood of a draw of one standard deviation is that
    of two standard deviations. *)
Theorem C86_gaussian_channels_refuted : forall r z, (forall mean h, r_mvn r [mean] h = [mean + sqrt (h 0%nat 0%nat) * z]) -> exists I d,
  set_internal_vars ex_env gauss_model = Ok I /\ generate_data r gauss_model I (mkPars [1] [] (Some (i_pm I))) = Ok d /\
  nll gauss_model I [1] [] d false None false = Ok (Fin (1 / 2 * (2 * z)²)).
Proof.
  intros r z Hz. destruct gauss_built as (I & H & Hc & Hb & Hs & Hp & Hr & Hnp & Hng & Hh). exists I, (mkData [1 + sqrt 2 * z] []). split; [exact H|].
  assert (T : exists t, tot_bin_exp gauss_model I [1] [] None = Ok t /\ t 0%nat = 1).
  { unfold tot_bin_exp, n_exp, nominal_row, cut_k_exp, k_exp. rewrite Hc, Hb, Hs, Hp. cbn [m_asym m_linear gauss_model m_channels]. eexists. split; [ev; reflexivity|]. cbn. unfold cut. cbn. rdec. cbn. lra. }
  destruct T as (t & Ht & Ht0). split.
  - unfold generate_data. cbn [pois nps]. rewrite Ht. cbn [bind]. rewrite Hnp, Hng. cbn [Nat.ltb Nat.leb seq map bind]. rewrite Ht0, Hz, Hh. cbn [m_nps gauss_model enumerate combine seq length mapM bind app].
    unfold data_init, set_counts, set_aux_obs. rewrite Hb, Hp. reflexivity.
  - rewrite (gauss_nll I 1 _ H). do 2 f_equal. unfold Rsqr. replace ((1 - (1 + sqrt 2 * z)) * (1 - (1 + sqrt 2 * z))) with (sqrt 2 * sqrt 2 * z * z) by ring. rewrite sqrt_sqrt by lra. field.
Qed.
Print Assumptions C86_gaussian_channels_refuted.

(** the same with unit variation *)
Definition unit_np : NP := mkNP (Some "np") (Some 1) 1 (Some 1) (Some "aux") None None.
Definition unit_model : Model := mkModel "m" None [] [("np", unit_np)] [("aux", mkAux (Some "aux") None None None None)]
  [("SR", mkChannel "SR" KSingle [("B", mkSample "B" (NumberNorm (Some 1)) (Some 1) (Some [10]) [])])] [] true true true false 0.
Lemma unit_facts : exists I, set_internal_vars ex_env unit_model = Ok I /\ i_pm I = mkPM [] [("np", 1, 1)] /\ i_nbins I = 1%nat /\ i_nbins_p I = 1%nat /\ i_nbins_g I = 0%nat /\
  (forall x, exists t, tot_bin_exp unit_model I [] [x] None = Ok t /\ t 0%nat = 10) /\ exists rf, ref_yields unit_model I = Ok rf.
Proof.
  assert (A : exists I, set_internal_vars ex_env unit_model = Ok I /\ i_channels I = m_channels unit_model /\ i_nbins I = 1%nat /\ i_nsamples I = 1%nat /\
    i_pm I = mkPM [] [("np", 1, 1)] /\ i_ref_pois I = [] /\ i_nbins_p I = 1%nat /\ i_nbins_g I = 0%nat /\ i_nvar I = 1%nat /\
    i_pos I 0%nat = 0 /\ i_neg I 0%nat = 0).
  { unfold unit_model, unit_np. eexists. split; [ev; reflexivity|]. repeat split; try reflexivity.
    all: cbn [i_pos i_neg]; unfold set_slice; cbn; lra. }
  destruct A as (I & H & Hc & Hb & Hs & Hp & Hr & Hnp & Hng & Hv & Hpos & Hneg). exists I. repeat (split; [assumption|]).
  assert (T : forall x, exists t, tot_bin_exp unit_model I [] [x] None = Ok t /\ t 0%nat = 10).
  { intros y. unfold tot_bin_exp, n_exp, nominal_row, cut_k_exp, k_exp. rewrite Hc, Hb, Hs, Hp, Hv. eexists. split; [ev; reflexivity|]. cbn.
    fold (i_pos I) (i_neg I). rewrite Hpos, Hneg. lra. }
  split; [exact T|]. unfold ref_yields. rewrite Hr, Hp. cbn [pm_nps length repeat]. destruct (T 0) as (t0 & Ht00 & _). unfold tot_bin_exp in Ht00. apply bind_Ok in Ht00 as (n & Hn & _). rewrite Hn. cbn [bind]. eauto.
Qed.
Lemma unit_data r : exists I d, set_internal_vars ex_env unit_model = Ok I /\ wf (mkPars [] [0] (Some (i_pm I))) (i_pm I) /\
  generate_data r unit_model I (mkPars [] [0] (Some (i_pm I))) = Ok d /\
  (forall nc, exists v, nll unit_model I [] [0] d false None nc = Ok (Fin v)).
Proof.
  destruct unit_facts as (I & H & Hp & Hb & Hnp & Hng & T & rf & Hrf). destruct (T 0) as (t & Ht & Ht0).
  exists I, (mkData [r_poisson r 0 (t 0%nat)] [r_normal r 0 0 (1)]). split; [exact H|]. split; [rewrite Hp; repeat split|]. split.
  - unfold generate_data. cbn [pois nps]. rewrite Ht. cbn [bind]. rewrite Hnp, Hng. cbn [Nat.ltb Nat.leb seq existsb map]. rewrite Ht0. rewrite (proj2 (Rltb_false 10 0)) by lra. cbn [orb bind].
    unfold enumerate. cbn [m_nps unit_model length seq combine mapM fst snd]. unfold pars_get. cbn [pmod]. rewrite Hp. cbn [pm_pois index np_names pm_nps map fst String.eqb Ascii.eqb Bool.eqb lget nth_error nps bind]. unfold lget. cbn [nth_error bind].
    unfold gen_aux, unit_np, generate_aux. cbn [np_constraint]. rewrite (proj2 (Rltb_false 1 0)) by lra. cbn [bind app].
    unfold data_init, set_counts, set_aux_obs. rewrite Hb, Hp. reflexivity.
  - intros nc. unfold nll. rewrite Ht. cbn [bind]. rewrite Hrf. cbn [bind]. rewrite Hnp, Hng, Hp. cbn [esum pm_nps length d_counts d_aux nth]. unfold elog. rewrite Ht0. rewrite (proj2 (Rltb_true 0 10)) by lra. cbn [emulr eadd]. eauto.
Qed.
Example C86_nonvacuous : forall r, exists I d, set_internal_vars ex_env unit_model = Ok I /\ names_ok unit_model /\ wf (mkPars [] [0] (Some (i_pm I))) (i_pm I) /\
  generate_data r unit_model I (mkPars [] [0] (Some (i_pm I))) = Ok d /\ (forall nc, exists v, nll unit_model I [] [0] d false None nc = Ok (Fin v)) /\
  (forall k q, In (k, q) (m_nps unit_model) -> np_is_free q = false -> np_variation q = 1) /\ m_nps unit_model <> [].
Proof.
  intros r. destruct (unit_data r) as (I & d & H & Hw & Hd & Hn). exists I, d. split; [exact H|]. split; [repeat constructor; cbn; intuition congruence|]. split; [exact Hw|]. split; [exact Hd|]. split; [exact Hn|].
  split; [|discriminate]. intros k q [E|[]] _. injection E as _ <-. reflexivity.
Qed.

(** * C87: covariance, errors and correlations of the POIs *)
Definition posdef (n : nat) (H : mat) : Prop := forall x, (exists i, (i < n)%nat /\ x i <> 0) -> 0 < rsum n (fun i => rsum n (fun j => x i * H i j * x j)).

(** The covariance matrix is the inverse of the matrix of second derivatives of the likelihood, and symmetric *)
Theorem C87_covariance_is_inverse : forall iv E m I ps ns data C, inverts iv -> covariance_matrix iv E m I ps ns data = Some C ->
  exists H, nll_hessian E m I ps ns data = Ok H /\ (forall i j, H i j = H j i) /\ let n := length (m_pois m) in
  (forall i j, (i < n)%nat -> (j < n)%nat -> rsum n (fun k => H i k * C k j) = (if (i =? j)%nat then 1 else 0) /\
     rsum n (fun k => C i k * H k j) = (if (i =? j)%nat then 1 else 0) /\ C i j = C j i).
Proof.
  intros iv E m I ps ns data C Hiv H. unfold covariance_matrix in H. destruct (nll_hessian E m I ps ns data) as [h|] eqn:Eh; [|discriminate]. exists h. split; [reflexivity|].
  pose proof (C24_hessian_symmetric _ _ _ _ _ _ _ Eh) as Hs. split; [exact Hs|]. intros n. destruct (iv (length (m_pois m)) h) as [c|] eqn:Ei; [|discriminate]. injection H as ->. fold n in Ei.
  pose proof (Hiv _ _ _ Ei) as R. unfold delta in R.
  assert (Sy : forall i j, (i < n)%nat -> (j < n)%nat -> C i j = C j i).
  { intros i j Hi Hj.
    (* C i j = sum_a C a i * delta a j = sum_a sum_k C a i * H a k * C k j *)
    assert (A : forall i j, (i < n)%nat -> (j < n)%nat -> C j i = rsum n (fun a => rsum n (fun k => C a i * h a k * C k j))).
    { clear i j Hi Hj. intros i j Hi Hj. transitivity (rsum n (fun a => C a i * (if (a =? j)%nat then 1 else 0))).
      - rewrite (rsum_single n j) by (auto; intros a Ha Hne; rewrite (proj2 (Nat.eqb_neq _ _) Hne); ring). rewrite Nat.eqb_refl. ring.
      - apply rsum_ext. intros a Ha. rewrite <- R by assumption. rewrite <- rsum_scal. apply rsum_ext. intros k _. ring. }
    rewrite (A i j Hi Hj), (A j i Hj Hi), rsum_swap. apply rsum_ext. intros a _. apply rsum_ext. intros k _. rewrite (Hs a k). ring. }
  intros i j Hi Hj. split; [apply R; assumption|]. split; [|apply Sy; assumption].
  rewrite Nat.eqb_sym, <- (R j i Hj Hi). apply rsum_ext. intros k Hk. rewrite (Sy i k Hi Hk), (Hs k j). ring.
Qed.
Print Assumptions C87_covariance_is_inverse.

Lemma cov_posdef n H C : (forall i j, (i < n)%nat -> (j < n)%nat -> C i j = C j i) -> (forall i j, (i < n)%nat -> (j < n)%nat -> rsum n (fun k => H i k * C k j) = (if (i =? j)%nat then 1 else 0)) ->
  posdef n H -> posdef n C.
Proof.
  intros Sy R P x (i0 & Hi0 & Hx). set (y := fun i => rsum n (fun j => C i j * x j)).
  assert (Hy : forall i, (i < n)%nat -> rsum n (fun k => H i k * y k) = x i).
  { intros i Hi. transitivity (rsum n (fun j => (if (i =? j)%nat then 1 else 0) * x j)).
    - unfold y. transitivity (rsum n (fun k => rsum n (fun j => H i k * C k j * x j))). { apply rsum_ext. intros k _. rewrite <- rsum_scal. apply rsum_ext. intros j _. ring. }
      rewrite rsum_swap. apply rsum_ext. intros j Hj. rewrite rsum_scal_r, R by assumption. reflexivity.
    - rewrite (rsum_single n i); [rewrite Nat.eqb_refl; ring|exact Hi|]. intros j _ Hne. rewrite (proj2 (Nat.eqb_neq i j)) by congruence. ring. }
  assert (Ey : exists i, (i < n)%nat /\ y i <> 0).
  { assert (N : ~ forall i, (i < n)%nat -> y i = 0). { intros N. apply Hx. rewrite <- (Hy i0 Hi0). apply rsum_eq0. intros k Hk. rewrite N by exact Hk. ring. }
    clear -N. assert (D : forall m, (exists i, (i < m)%nat /\ y i <> 0) \/ forall i, (i < m)%nat -> y i = 0).
    { induction m as [|m [(i & Hi & Hn)|IH]]; [right; intros; lia|left; exists i; split; [lia|exact Hn]|]. destruct (Req_dec (y m) 0) as [E|E]; [right|left; exists m; split; [lia|exact E]].
      intros i Hi. destruct (Nat.eq_dec i m) as [->|]; [exact E|apply IH; lia]. }
    destruct (D n) as [H|H]; [exact H|contradiction]. }
  replace (rsum n (fun i => rsum n (fun j => x i * C i j * x j))) with (rsum n (fun i => rsum n (fun j => y i * H i j * y j))); [apply P, Ey|].
  transitivity (rsum n (fun i => y i * x i)).
  - apply rsum_ext. intros i Hi. rewrite <- (Hy i Hi), <- rsum_scal. apply rsum_ext. intros j _. ring.
  - apply rsum_ext. intros i Hi. unfold y. rewrite <- rsum_scal_r. apply rsum_ext. intros j Hj. ring.
Qed.

Lemma posdef_diag n C i : posdef n C -> (i < n)%nat -> 0 < C i i.
Proof.
  intros P Hi. specialize (P (fun k => if (k =? i)%nat then 1 else 0)). rewrite (rsum_single n i) in P; [|exact Hi|].
  - rewrite (rsum_single n i) in P; [rewrite Nat.eqb_refl in P|exact Hi|intros j _ Hne; rewrite (proj2 (Nat.eqb_neq j i)) by exact Hne; ring].
    replace (C i i) with (1 * C i i * 1) by ring. apply P. exists i. split; [exact Hi|rewrite Nat.eqb_refl; lra].
  - intros k _ Hne. apply rsum_eq0. intros j _. rewrite (proj2 (Nat.eqb_neq k i)) by exact Hne. ring.
Qed.
Lemma rsum_two n i j f : (i < n)%nat -> (j < n)%nat -> i <> j -> (forall k, (k < n)%nat -> k <> i -> k <> j -> f k = 0) -> rsum n f = f i + f j.
Proof.
  intros Hi Hj Hne H. transitivity (rsum n (fun k => (if (k =? i)%nat then f i else 0) + (if (k =? j)%nat then f j else 0))).
  - apply rsum_ext. intros k Hk. destruct (Nat.eqb_spec k i) as [Ei|Ei]; destruct (Nat.eqb_spec k j) as [Ej|Ej].
    + congruence. + rewrite Ei. ring. + rewrite Ej. ring. + rewrite (H k) by assumption. ring.
  - rewrite rsum_plus. rewrite (rsum_single n i), (rsum_single n j); try assumption; rewrite ?Nat.eqb_refl; try reflexivity; intros k _ Hk; rewrite (proj2 (Nat.eqb_neq _ _) Hk); reflexivity.
Qed.
Lemma posdef_pair n C i j : posdef n C -> (forall i j, (i < n)%nat -> (j < n)%nat -> C i j = C j i) -> (i < n)%nat -> (j < n)%nat -> i <> j -> C i j * C i j < C i i * C j j.
Proof.
  intros P Sy Hi Hj Hne. pose proof (posdef_diag n C i P Hi) as Pi. pose proof (posdef_diag n C j P Hj) as Pj.
  set (x := fun k => if (k =? i)%nat then C j j else if (k =? j)%nat then - C i j else 0).
  assert (Xi : x i = C j j) by (unfold x; now rewrite Nat.eqb_refl). assert (Xj : x j = - C i j) by (unfold x; rewrite Nat.eqb_refl, (proj2 (Nat.eqb_neq j i)) by congruence; reflexivity).
  assert (X0 : forall k, k <> i -> k <> j -> x k = 0) by (intros k A B; unfold x; rewrite (proj2 (Nat.eqb_neq _ _) A), (proj2 (Nat.eqb_neq _ _) B); reflexivity).
  assert (Q : 0 < rsum n (fun a => rsum n (fun b => x a * C a b * x b))) by (apply P; exists i; split; [exact Hi|rewrite Xi; lra]).
  rewrite (rsum_two n i j) in Q; try assumption; [|intros k _ A B; apply rsum_eq0; intros b _; rewrite (X0 k A B); ring].
  rewrite !(rsum_two n i j) in Q; try assumption; try (intros k _ A B; rewrite (X0 k A B); ring). rewrite Xi, Xj, (Sy j i Hj Hi) in Q.
  replace (C j j * C i i * C j j + C j j * C i j * - C i j + (- C i j * C i j * C j j + - C i j * C j j * - C i j)) with (C j j * (C i i * C j j - C i j * C i j)) in Q by ring.
  apply Rmult_lt_reg_l with (C j j); [exact Pj|]. lra.
Qed.

(** Where the second derivatives are positive definite: the errors are the positive square roots of the variances *)
Theorem C87_errors : forall iv E m I ps ns data C H, inverts iv -> covariance_matrix iv E m I ps ns data = Some C -> nll_hessian E m I ps ns data = Ok H ->
  posdef (length (m_pois m)) H -> NoDup (keys (m_pois m)) ->
  exists errs, parabolic_errors m (Some C) = Ok errs /\ keys errs = keys (m_pois m) /\
    forall i k, nth_error (keys (m_pois m)) i = Some k -> exists e, dget k errs = Some (Fin e) /\ 0 < e /\ e * e = C i i.
Proof.
  intros iv E m I ps ns data C H Hiv HC HH P HN. destruct (C87_covariance_is_inverse _ _ _ _ _ _ _ _ Hiv HC) as (H' & HH' & _ & A). rewrite HH in HH'. injection HH' as <-. cbv zeta in A.
  assert (PC : posdef (length (m_pois m)) C) by (eapply cov_posdef; [intros i j Hi Hj; apply (A i j Hi Hj)|intros i j Hi Hj; apply (A i j Hi Hj)|exact P]).
  assert (G : forall l n, (forall i k, nth_error l i = Some k -> nth_error (keys (m_pois m)) (n + i) = Some k) -> NoDup l -> let errs := map (fun ik : nat * string => (snd ik, esqrt (C (fst ik) (fst ik)))) (combine (seq n (length l)) l) in
     keys errs = l /\ forall i k, nth_error l i = Some k -> exists e, dget k errs = Some (Fin e) /\ 0 < e /\ e * e = C (n + i)%nat (n + i)%nat).
  { induction l as [|a l IH]; intros n Hl Hd; cbn [length seq combine map keys fst snd]; [split; [reflexivity|intros [|i] k Hk; discriminate]|]. inversion Hd as [|? ? Ha Hd']; subst.
    destruct (IH (S n)) as (B1 & B2); [intros i k Hk; replace (S n + i)%nat with (n + S i)%nat by lia; apply Hl; exact Hk|exact Hd'|]. cbv zeta in B1, B2. split; [unfold keys in *; cbn [map fst]; now rewrite B1|].
    intros [|i] k Hk; cbn [nth_error] in Hk; cbn [dget fst snd].
    - injection Hk as <-. rewrite String.eqb_refl. pose proof (Hl 0%nat a eq_refl) as Hn. rewrite Nat.add_0_r in *. assert (Ln : (n < length (m_pois m))%nat) by (unfold keys in Hn; rewrite nth_error_map in Hn; apply nth_error_Some; destruct (nth_error (m_pois m) n); [discriminate|cbn in Hn; discriminate]).
      pose proof (posdef_diag _ _ n PC Ln) as D. unfold esqrt. rewrite (proj2 (Rltb_false (C n n) 0)) by lra. exists (sqrt (C n n)). split; [reflexivity|]. split; [apply sqrt_lt_R0, D|apply sqrt_sqrt; lra].
    - destruct (String.eqb_spec k a) as [->|_]; [exfalso; apply Ha, (nth_error_In _ _ Hk)|]. destruct (B2 i k Hk) as (e & He). exists e. replace (n + S i)%nat with (S n + i)%nat by lia. exact He. }
  destruct (G (keys (m_pois m)) 0%nat) as (G1 & G2); [auto|exact HN|]. eexists. split; [reflexivity|]. split; [exact G1|exact G2].
Qed.
Print Assumptions C87_errors.

(** and the correlations are those of the covariance matrix: 1 on the diagonal, symmetric, strictly between -1 and 1
    elsewhere *)
Theorem C87_correlations : forall iv E m I ps ns data C H, inverts iv -> covariance_matrix iv E m I ps ns data = Some C -> nll_hessian E m I ps ns data = Ok H ->
  posdef (length (m_pois m)) H ->
  exists rho, correlation_matrix m (Some C) = Ok rho /\ forall i j, (i < length (m_pois m))%nat -> (j < length (m_pois m))%nat ->
    rho i i = 1 /\ rho i j = rho j i /\ (i <> j -> -1 < rho i j < 1) /\ rho i j * (sqrt (C i i) * sqrt (C j j)) = C i j.
Proof.
  intros iv E m I ps ns data C H Hiv HC HH P. destruct (C87_covariance_is_inverse _ _ _ _ _ _ _ _ Hiv HC) as (H' & HH' & _ & A). rewrite HH in HH'. injection HH' as <-. cbv zeta in A.
  assert (Sy : forall i j, (i < length (m_pois m))%nat -> (j < length (m_pois m))%nat -> C i j = C j i) by (intros i j Hi Hj; apply (A i j Hi Hj)).
  assert (PC : posdef (length (m_pois m)) C) by (eapply cov_posdef; [exact Sy|intros i j Hi Hj; apply (A i j Hi Hj)|exact P]).
  unfold correlation_matrix. rewrite (proj2 (forallb_forall _ _)) by (intros i Hi; apply in_seq in Hi; apply Rltb_true, (posdef_diag _ _ _ PC); lia). eexists. split; [reflexivity|].
  intros i j Hi Hj. cbv beta zeta. pose proof (posdef_diag _ _ i PC Hi) as Pi. pose proof (posdef_diag _ _ j PC Hj) as Pj. pose proof (sqrt_lt_R0 _ Pi) as Si. pose proof (sqrt_lt_R0 _ Pj) as Sj.
  assert (Qi : sqrt (C i i) * sqrt (C i i) = C i i) by (apply sqrt_sqrt; lra). assert (Qj : sqrt (C j j) * sqrt (C j j) = C j j) by (apply sqrt_sqrt; lra).
  split; [rewrite <- Qi at 1; field; lra|]. split; [rewrite (Sy i j Hi Hj); field; lra|]. split; [|field; lra].
  intros Hne. pose proof (posdef_pair _ _ i j PC Sy Hi Hj Hne) as Pp. assert (Sq : (C i j)² < (sqrt (C i i) * sqrt (C j j))²) by (unfold Rsqr; replace (sqrt (C i i) * sqrt (C j j) * (sqrt (C i i) * sqrt (C j j))) with (C i i * C j j) by (rewrite <- Qi, <- Qj at 1; ring); exact Pp).
  assert (Pm : 0 < sqrt (C i i) * sqrt (C j j)) by (apply Rmult_lt_0_compat; assumption). apply Rsqr_lt_abs_0 in Sq. rewrite (Rabs_pos_eq (sqrt _ * _)) in Sq by lra. apply Rabs_def2 in Sq.
  replace (C i j / sqrt (C i i) / sqrt (C j j)) with (C i j / (sqrt (C i i) * sqrt (C j j))) by (field; lra). split.
  - apply Rmult_lt_reg_r with (sqrt (C i i) * sqrt (C j j)); [exact Pm|]. unfold Rdiv. rewrite Rmult_assoc, Rinv_l by lra. lra.
  - apply Rmult_lt_reg_r with (sqrt (C i i) * sqrt (C j j)); [exact Pm|]. unfold Rdiv. rewrite Rmult_assoc, Rinv_l by lra. lra.
Qed.
Print Assumptions C87_correlations.

(** One POI: the error is the inverse square root of the second derivative *)
Theorem C87_one_poi : forall iv E m I ps ns data C H p, inverts iv -> covariance_matrix iv E m I ps ns data = Some C -> nll_hessian E m I ps ns data = Ok H ->
  keys (m_pois m) = [p] -> 0 < H 0%nat 0%nat -> parabolic_errors m (Some C) = Ok [(p, Fin (1 / sqrt (H 0%nat 0%nat)))].
Proof.
  intros iv E m I ps ns data C H p Hiv HC HH K P. destruct (C87_covariance_is_inverse _ _ _ _ _ _ _ _ Hiv HC) as (H' & HH' & _ & A). rewrite HH in HH'. injection HH' as <-. cbv zeta in A.
  assert (L : length (m_pois m) = 1%nat) by (assert (X : length (keys (m_pois m)) = 1%nat) by (rewrite K; reflexivity); unfold keys in X; rewrite map_length in X; exact X).
  rewrite L in A. destruct (A 0%nat 0%nat) as (A1 & _); [lia|lia|]. cbn [rsum Nat.eqb] in A1. rewrite Rplus_0_l in A1.
  assert (Ec : C 0%nat 0%nat = 1 / H 0%nat 0%nat) by (apply Rmult_eq_reg_l with (H 0%nat 0%nat); [rewrite A1; field; lra|lra]).
  unfold parabolic_errors. rewrite K. cbn [enumerate length seq combine map fst snd]. rewrite Ec. unfold esqrt. rewrite (proj2 (Rltb_false _ 0)) by (apply Rlt_le, Rdiv_lt_0_compat; lra).
  rewrite sqrt_div_alt by lra. rewrite sqrt_1. reflexivity.
Qed.
Print Assumptions C87_one_poi.

(** If the covariance matrix cannot be computed there are no errors: an exception is raised *)
Theorem C87_no_covariance : forall m, parabolic_errors m None = Err AttributeError /\ correlation_matrix m None = Err AttributeError.
Proof. split; reflexivity. Qed.
Print Assumptions C87_no_covariance.

(** a model with two correlated POIs *)
Definition two_poi_model : Model :=
  mkModel "two" None [("mu1", mkPOI (Some "mu1") (Some 0) (Some 10) (Some 1) None None); ("mu2", mkPOI (Some "mu2") (Some 0) (Some 10) (Some 1) None None)] [] []
    [("SR", mkChannel "SR" KSingle [("S", mkSample "S" (ExprNorm "mu1") (Some 1) (Some [10]) []); ("B", mkSample "B" (ExprNorm "mu2") (Some 1) (Some [5]) [])]);
     ("CR", mkChannel "CR" KSingle [("B", mkSample "B" (ExprNorm "mu2") (Some 1) (Some [10]) [])])] [] true true true false 0.
(** inverses of matrices of sizes 1 and 2 *)
Definition inv12 : inverter := fun n M =>
  let d := M 0%nat 0%nat * M 1%nat 1%nat - M 0%nat 1%nat * M 1%nat 0%nat in
  match n with
  | 1%nat => if Reqb (M 0%nat 0%nat) 0 then Err ValueError else Ok (fun _ _ => 1 / M 0%nat 0%nat)
  | 2%nat => if Reqb d 0 then Err ValueError else
      Ok (fun i j => match i, j with 0%nat, 0%nat => M 1%nat 1%nat / d | 0%nat, _ => - M 0%nat 1%nat / d | _, 0%nat => - M 1%nat 0%nat / d | _, _ => M 0%nat 0%nat / d end)
  | _ => Err ValueError
  end.
Lemma inv12_inverts : inverts inv12.
Proof.
  intros n M C H i j Hi Hj. unfold inv12 in H. destruct n as [|[|[|n]]]; try discriminate.
  - destruct (Reqb (M 0%nat 0%nat) 0) eqn:E; [discriminate|]. apply Reqb_false in E. injection H as <-. destruct i, j; try lia. cbn. field. exact E.
  - cbv zeta in H. destruct (Reqb _ 0) eqn:E in H; [discriminate|]. apply Reqb_false in E. injection H as <-. destruct i as [|[|i]], j as [|[|j]]; try lia; cbn; field; exact E.
Qed.
Example C87_nonvacuous : exists I H C, set_internal_vars ex_env two_poi_model = Ok I /\ nll_hessian ex_env two_poi_model I [1; 1] [] (mkData [15; 10] []) = Ok H /\
  covariance_matrix inv12 ex_env two_poi_model I [1; 1] [] (mkData [15; 10] []) = Some C /\ inverts inv12 /\ posdef 2 H /\ H 0%nat 1%nat = 10/3.
Proof.
  assert (X : exists I H, set_internal_vars ex_env two_poi_model = Ok I /\ nll_hessian ex_env two_poi_model I [1; 1] [] (mkData [15; 10] []) = Ok H /\
    H 0%nat 0%nat = 20/3 /\ H 0%nat 1%nat = 10/3 /\ H 1%nat 0%nat = 10/3 /\ H 1%nat 1%nat = 35/3).
  { do 2 eexists. split; [unfold two_poi_model; ev; reflexivity|]. split; [unfold two_poi_model; ev; reflexivity|]. unfold cut; cbn; rdec; cbn. repeat split; unfold div0; rdec; lra. }
  destruct X as (I & H & HS & HH & H00 & H01 & H10 & H11). exists I, H. eexists. split; [exact HS|]. split; [exact HH|]. split; [unfold covariance_matrix; rewrite HH; cbn [m_pois two_poi_model length]; unfold inv12; cbv zeta; rewrite H00, H01, H10, H11;
  rewrite (proj2 (Reqb_false _ 0)) by lra; reflexivity|]. split; [exact inv12_inverts|]. split; [|exact H01].
  intros x (i & Hi & Hx). cbn. rewrite H00, H01, H10, H11.
  replace (0 + (0 + x 0%nat * (20 / 3) * x 0%nat + x 0%nat * (10 / 3) * x 1%nat) + (0 + x 1%nat * (10 / 3) * x 0%nat + x 1%nat * (35 / 3) * x 1%nat)) with (5 / 3 * (2 * x 0%nat + x 1%nat) * (2 * x 0%nat + x 1%nat) + 10 * (x 1%nat * x 1%nat)) by field.
  destruct (Req_dec (x 1%nat) 0) as [E|E].
  - destruct i as [|[|i]]; [|contradiction|lia]. rewrite E. assert (0 < x 0%nat * x 0%nat) by (apply Rsqr_pos_lt in Hx; exact Hx). nra.
  - assert (0 < x 1%nat * x 1%nat) by (apply Rsqr_pos_lt in E; exact E). pose proof (Rle_0_sqr (2 * x 0%nat + x 1%nat)). unfold Rsqr in *. nra.
Qed.

(** * C88: set_constraint *)
Theorem C88_set_constraint_refuted : forall E m par val, m_nps m <> [] -> set_constraint E m par val = Err AttributeError.
Proof. intros E m par val H. unfold set_constraint. destruct (m_nps m); [contradiction|reflexivity]. Qed.
Print Assumptions C88_set_constraint_refuted.
