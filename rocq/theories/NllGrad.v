(** Derivatives of the likelihood with respect to the POIs. *)
From Coquelicot Require Import Coquelicot.
From Verif Require Import Py PyFacts Base Expressions ExprSpec Deriv ExprFacts ExprGrad Norms Sample SampleFacts Channels ChannelFacts Params ParamsFacts Core CoreFacts CoreSpec CoreCoefs CoreYields NllFacts.
Local Open Scope R_scope.
Local Open Scope string_scope.
Local Open Scope list_scope.

Lemma keys_dset_new {V} k (v : V) d : ~ In k (keys d) -> keys (dset k v d) = keys d ++ [k].
Proof. intros H. rewrite dset_app_new by exact H. unfold keys. rewrite map_app. reflexivity. Qed.

Lemma real_vals_total exprs : forall d rho, ordered (keys d) exprs -> agrees d rho ->
  (forall e, In e exprs -> dens_ok1 e (env_den exprs rho)) -> exists v, real_vals exprs d = Ok v.
Proof.
  induction exprs as [|e r IH]; intros d rho Ho Ha Hd; cbn [real_vals]; [eauto|].
  cbn [ordered] in Ho. destruct Ho as (Hi & Hn & Hf & Ho).
  destruct (expr_value_total e d rho) as (v & Hv); auto.
  { pose proof (Hd e (or_introl eq_refl)) as D. cbn [env_den] in D. destruct e; cbn [dens_ok1] in *; auto. intros k Hk.
    specialize (D k Hk). cbn [expr_name deps] in *.
    assert (Hkd : In k (keys d)) by (apply Hi, in_or_app; now right).
    rewrite (env_den_avail _ _ _ _ Ho) in D by (apply in_or_app; now left). rewrite upd_neq in D; [exact D|]. intros ->; contradiction. }
  rewrite Hv. cbn [bind]. destruct (expr_value_ok _ _ _ Hv) as (_ & _ & Hval). destruct (Hval rho Ha) as (Hvd & _).
  apply (IH _ (upd rho (expr_name e) (expr_den e rho))).
  - rewrite keys_dset_new by exact Hn. exact Ho.
  - intros k x Hk. destruct (String.string_dec k (expr_name e)) as [->|Hne].
    + rewrite dget_dset_eq in Hk. inversion Hk; subst. apply upd_eq.
    + rewrite dget_dset_neq in Hk by exact Hne. rewrite upd_neq by exact Hne. apply Ha; exact Hk.
  - intros e' He'. apply (Hd e' (or_intror He')).
Qed.

(** changing one POI *)
Lemma nth_set_nth {A} (d : A) i j x l : nth i (set_nth j x l) d = if (Nat.eqb i j && (j <? length l)%nat)%bool then x else nth i l d.
Proof.
  revert i j; induction l as [|y l IH]; intros [|i] [|j]; cbn [set_nth nth length]; try reflexivity.
  - destruct (Nat.eqb_spec (S i) (S j)); cbn; reflexivity.
  - rewrite IH. cbn. reflexivity.
Qed.
Lemma set_nth_length {A} j (x : A) l : length (set_nth j x l) = length l.
Proof. revert j; induction l as [|y l IH]; intros [|j]; cbn; auto. Qed.

Lemma par_env_upd m ps a p x : NoDup (keys (m_pois m)) -> nth_error (keys (m_pois m)) a = Some p -> length ps = length (m_pois m) ->
  forall k, par_env m (set_nth a x ps) k = upd (par_env m ps) p x k.
Proof.
  intros HN Ha HL k. assert (Hlt : (a < length ps)%nat).
  { rewrite HL. unfold keys in Ha. rewrite <- (map_length fst). apply nth_error_Some. congruence. }
  unfold par_env, upd. destruct (index k (keys (m_pois m))) as [i|] eqn:Ei.
  - rewrite nth_set_nth. rewrite (proj2 (Nat.ltb_lt _ _) Hlt), andb_true_r. apply index_nth in Ei.
    destruct (Nat.eqb_spec i a) as [->|Hne].
    + assert (k = p) as -> by congruence. rewrite String.eqb_refl. reflexivity.
    + destruct (String.eqb_spec k p) as [->|]; [|reflexivity]. exfalso. apply Hne. apply (proj1 (NoDup_nth_error _) HN); [apply nth_error_Some|]; congruence.
  - destruct (String.eqb_spec k p) as [->|]; [|reflexivity]. apply index_None in Ei. exfalso. apply Ei. eapply nth_error_In; exact Ha.
Qed.
Lemma par_env_at m ps a p : NoDup (keys (m_pois m)) -> nth_error (keys (m_pois m)) a = Some p -> par_env m ps p = nth a ps 0.
Proof.
  intros HN Ha. unfold par_env. destruct (index p (keys (m_pois m))) as [i|] eqn:Ei.
  - apply index_nth in Ei. f_equal. apply (proj1 (NoDup_nth_error _) HN); [apply nth_error_Some|]; congruence.
  - apply index_None in Ei. exfalso. apply Ei. eapply nth_error_In; exact Ha.
Qed.

(** everything known about the values of the expressions at one point *)
Lemma model_vals m pm ps rv : names_ok m -> pmodel_of m = Ok pm -> length ps = length (m_pois m) -> model_real_vals m pm ps = Ok rv ->
  exists d, real_vals (values (m_exprs m)) d = Ok rv /\ NoDup (keys d ++ map expr_name (values (m_exprs m))) /\
    keys d = keys (m_pois m) ++ keys (m_nps m) /\ (forall x, env_of d x = par_env m ps x).
Proof.
  intros HN Hpm HL H. destruct (base_dict m pm ps Hpm (names_ok_base _ HN) HL) as (d & Hd & Hk & He).
  unfold model_real_vals in H. rewrite Hd in H. cbn [bind] in H. exists d. repeat split; auto. rewrite Hk, <- app_assoc. exact HN.
Qed.

Lemma der_ext_env exprs (r1 r2 : R -> env) k x g : (forall y z, r1 y z = r2 y z) -> der (fun y => env_den exprs (r1 y) k) x g -> der (fun y => env_den exprs (r2 y) k) x g.
Proof. intros H. apply der_ext. intros y. apply env_den_ext. apply H. Qed.

(** along a POI, the value of every parameter and expression has a derivative *)
Lemma model_env_der m pm ps rv a p k : names_ok m -> pmodel_of m = Ok pm -> length ps = length (m_pois m) -> model_real_vals m pm ps = Ok rv ->
  nth_error (keys (m_pois m)) a = Some p -> In k (keys rv) ->
  exists g, der (fun x => model_env m (set_nth a x ps) k) (nth a ps 0) g.
Proof.
  intros HN Hpm HL Hrv Ha Hk. destruct (model_vals m pm ps rv HN Hpm HL Hrv) as (d & Hd & Hnd & Hkd & He).
  assert (HNp : NoDup (keys (m_pois m))) by (apply (NoDup_app_l _ (keys (m_nps m)) (names_ok_base _ HN))).
  assert (Hx0 : nth a ps 0 = env_of d p) by (rewrite He, (par_env_at m ps a p HNp Ha); reflexivity).
  assert (Hext : forall x z, upd (env_of d) p x z = par_env m (set_nth a x ps) z).
  { intros x z. rewrite (par_env_upd m ps a p x HNp Ha HL). unfold upd. destruct (String.eqb z p); [reflexivity|apply He]. }
  rewrite (proj2 (proj2 (proj2 (real_vals_ok _ _ _ Hd Hnd)))) in Hk. apply in_app_or in Hk as [Hk|Hk].
  - eexists. unfold model_env. rewrite Hx0. eapply der_ext_env; [exact Hext|].
    exact (grad_known (values (m_exprs m)) d rv Hd Hnd [p] 1 p 0 (ESingle k) _ eq_refl (or_intror (ex_intro _ k (conj Hk eq_refl))) eq_refl).
  - apply in_map_iff in Hk as (e & <- & Hin).
    destruct (grad_total (values (m_exprs m)) d rv Hd Hnd [p] e _ Hin (le_n _)) as (gv & Hg).
    eexists. unfold model_env. rewrite Hx0. eapply der_ext_env; [exact Hext|].
    exact (grad_known (values (m_exprs m)) d rv Hd Hnd [p] _ p 0 e gv eq_refl (or_introl Hin) Hg).
Qed.

(** the values exist in a neighbourhood *)
Lemma real_vals_local m pm ps rv a p : names_ok m -> pmodel_of m = Ok pm -> length ps = length (m_pois m) -> model_real_vals m pm ps = Ok rv ->
  nth_error (keys (m_pois m)) a = Some p ->
  locally (nth a ps 0) (fun x => exists rv', model_real_vals m pm (set_nth a x ps) = Ok rv' /\ keys rv' = keys rv).
Proof.
  intros HN Hpm HL Hrv Ha. destruct (model_vals m pm ps rv HN Hpm HL Hrv) as (d & Hd & Hnd & Hkd & He).
  assert (HNp : NoDup (keys (m_pois m))) by (apply (NoDup_app_l _ (keys (m_nps m)) (names_ok_base _ HN))).
  destruct (real_vals_ok _ _ _ Hd Hnd) as (Hord & _ & Hden & Hkeys).
  assert (Hself : forall k, model_env m (set_nth a (nth a ps 0) ps) k = env_den (values (m_exprs m)) (env_of d) k).
  { intros k. unfold model_env. apply env_den_ext. intros z. rewrite (par_env_upd m ps a p _ HNp Ha HL). rewrite He.
    unfold upd. destruct (String.eqb_spec z p) as [->|]; [|reflexivity]. symmetry. apply (par_env_at m ps a p HNp Ha). }
  assert (L : locally (nth a ps 0) (fun x => forall e, In e (values (m_exprs m)) -> dens_ok1 e (model_env m (set_nth a x ps)))).
  { apply locally_forall_in. intros e He'. destruct e as [n v|n|n nom co|n pf nu de|n k|n f]; cbn [dens_ok1]; try (apply filter_forall; intros; exact I).
    apply (locally_forall_in de (fun k x => model_env m (set_nth a x ps) k <> 0)). intros k Hk.
    destruct (model_env_der m pm ps rv a p k HN Hpm HL Hrv Ha) as (g & Hg).
    { rewrite Hkeys. apply in_split in He' as (pre & post & Hs). rewrite Hs in Hord |- *. apply ordered_split in Hord.
      specialize (Hord k (in_or_app _ _ _ (or_intror Hk))). apply in_app_or in Hord. apply in_or_app. destruct Hord as [?|Hord]; [now left|right].
      rewrite map_app. apply in_or_app. now left. }
    eapply (der_locally_nz _ _ _ Hg). rewrite Hself. apply (Hden (env_of d) (agrees_env_of d) _ He' k Hk). }
  eapply filter_imp; [|exact L]. intros x Hx.
  assert (HLx : length (set_nth a x ps) = length (m_pois m)) by (rewrite set_nth_length; exact HL).
  destruct (base_dict m pm _ Hpm (names_ok_base _ HN) HLx) as (dx & Hdx & Hkx & Hex).
  destruct (real_vals_total (values (m_exprs m)) dx (env_of dx)) as (rv' & Hrv').
  - rewrite Hkx, <- Hkd. exact Hord.
  - apply agrees_env_of.
  - intros e He'. specialize (Hx e He'). destruct e; cbn [dens_ok1] in *; auto. intros k Hk. specialize (Hx k Hk).
    unfold model_env in Hx. rewrite (env_den_ext _ _ (par_env m (set_nth a x ps)) Hex). exact Hx.
  - exists rv'. unfold model_real_vals. rewrite Hdx. cbn [bind]. split; [exact Hrv'|].
    rewrite (proj2 (proj2 (proj2 (real_vals_ok _ _ _ Hrv' ltac:(rewrite Hkx, <- Hkd; exact Hnd))))), Hkeys, Hkx, Hkd. reflexivity.
Qed.

(** the nominal yields of sample index [s] in every bin, as functions of the values of the parameters and expressions *)
Definition sample_funs (sm : Sample) : list (env -> R) :=
  match s_nominal_norm sm, s_yields sm with
  | Some nn, Some y => map (fun yb rho => norm_den (s_norm sm) rho / nn * yb) y
  | _, _ => []
  end.
Definition row_funs (I : Internal) (s : nat) : list (env -> R) :=
  concat (map (fun kc : string * Channel => match sample_at (snd kc) s with Some sm => sample_funs sm | None => repeat (fun _ => 0) (nbins (snd kc)) end) (i_channels I)).

Lemma sample_yields_funs sm rv rho l : (forall k x, dget k rv = Some x -> x = rho k) -> sample_yields sm rv = Ok l -> l = map (fun f => f rho) (sample_funs sm).
Proof.
  intros Ha H. unfold sample_yields, normalization in H. apply bind_Ok in H as (w & Hw & H). apply bind_Ok in Hw as (v & Hv & Hw). unfold sample_funs.
  destruct (s_nominal_norm sm) as [nn|]; [|discriminate]. destruct (Reqb nn 0); [discriminate|]. inversion Hw; subst w.
  destruct (s_yields sm) as [y|]; [|discriminate]. inversion H; subst. rewrite map_map. apply map_ext. intros yb.
  rewrite (norm_value_den _ _ _ _ Ha Hv). reflexivity.
Qed.
Lemma nominal_row_funs I rv rho s row : (forall k x, dget k rv = Some x -> x = rho k) -> nominal_row I rv s = Ok row -> row = map (fun f => f rho) (row_funs I s).
Proof.
  intros Ha H. unfold nominal_row in H. apply bind_Ok in H as (bl & Hbl & H). inversion H; subst; clear H. unfold row_funs. apply mapM_Forall2 in Hbl.
  induction Hbl as [|kc r l rs Hr Hrs IH]; cbn [map concat]; [reflexivity|]. rewrite map_app. f_equal; [|exact IH].
  destruct (sample_at (snd kc) s) as [sm|]; [eapply sample_yields_funs; eauto|]. inversion Hr.
  generalize (nbins (snd kc)). intros n. induction n; cbn; congruence.
Qed.
(** success depends on the names only *)
Lemma nominal_row_keys I rv rv' s row : keys rv' = keys rv -> nominal_row I rv s = Ok row -> exists row', nominal_row I rv' s = Ok row'.
Proof.
  intros Hk H. unfold nominal_row in *. apply bind_Ok in H as (bl & Hbl & _).
  destruct (mapM_total (fun kc : string * Channel => match sample_at (snd kc) s with Some sm => sample_yields sm rv' | None => Ok (repeat 0 (nbins (snd kc))) end) (i_channels I)) as (bl' & Hbl').
  2:{ rewrite Hbl'. cbn [bind]. eauto. }
  intros kc Hin. apply mapM_Forall2 in Hbl. destruct (Forall2_in_l _ _ _ _ Hbl Hin) as (r & _ & Hr).
  destruct (sample_at (snd kc) s) as [sm|]; [|eauto]. clear - Hk Hr. unfold sample_yields, normalization in *.
  apply bind_Ok in Hr as (w & Hw & Hr). apply bind_Ok in Hw as (v & Hv & Hw).
  assert (Hv' : exists v', norm_value (s_norm sm) rv' = Ok v').
  { unfold norm_value in *. destruct (s_norm sm) as [[x|]|n]; [eauto|discriminate|]. destruct (String.eqb n ""); [eauto|].
    apply keys_dgetE. rewrite Hk. unfold dgetE in Hv. destruct (dget n rv) eqn:E; [|discriminate]. apply dget_In in E. change n with (fst (n, r0)). now apply in_map. }
  destruct Hv' as (v' & ->). cbn [bind]. destruct (s_nominal_norm sm) as [nn|]; [|discriminate]. destruct (Reqb nn 0); [discriminate|]. cbn [bind].
  destruct (s_yields sm); [eauto|discriminate].
Qed.

(** the total yields as a function of the values of the parameters and expressions; [K] are the NP factors *)
Definition totf (I : Internal) (K : nat -> nat -> R) (b : nat) (rho : env) : R :=
  rsum (i_nsamples I) (fun s => nth b (row_funs I s) (fun _ => 0) rho * K s b).

Lemma nth_app_fun (l : list (env -> R)) rho b : nth b (map (fun f => f rho) l) 0 = nth b l (fun _ => 0) rho.
Proof. revert b; induction l as [|f l IH]; intros [|b]; cbn; auto. Qed.

Lemma n_exp_funs m I pm ps ns n : names_ok m -> pmodel_of m = Ok pm -> i_pm I = pm -> length ps = length (m_pois m) -> n_exp m I ps ns = Ok n ->
  exists K rv, cut_k_exp m I ns = Ok K /\ model_real_vals m pm ps = Ok rv /\ (forall s, (s < i_nsamples I)%nat -> (exists row, nominal_row I rv s = Ok row) /\ length (row_funs I s) = i_nbins I) /\
    (0 < i_nsamples I)%nat /\
    forall s b, (s < i_nsamples I)%nat -> n s b = nth b (row_funs I s) (fun _ => 0) (model_env m ps) * K s b.
Proof.
  intros HN Hpm HI HL H. unfold n_exp in H. rewrite HI in H. apply bind_Ok in H as (rv & Hrv & H). apply bind_Ok in H as (rows & Hrows & H).
  destruct (i_nsamples I =? 0)%nat eqn:E0; [discriminate|]. apply Nat.eqb_neq in E0. destruct (forallb _ rows) eqn:EL; [|discriminate]. cbn [negb] in H.
  apply bind_Ok in H as (K & HK & H). inversion H; subst n; clear H. exists K, rv. split; [exact HK|]. split; [exact Hrv|].
  assert (Hval : forall k x, dget k rv = Some x -> x = model_env m ps k) by (apply (real_vals_spec m pm ps rv HN Hpm HL Hrv)).
  assert (Hrow : forall s, (s < i_nsamples I)%nat -> nominal_row I rv s = Ok (nth s rows [])).
  { intros s Hs. pose proof (mapM_nth _ _ _ s 0%nat ([] : list R) Hrows) as A. rewrite seq_length in A. specialize (A Hs). rewrite seq_nth in A by exact Hs. exact A. }
  split; [|split; [lia|]].
  - intros s Hs. split; [eauto|]. pose proof (nominal_row_funs I rv _ s _ Hval (Hrow s Hs)) as A.
    apply mapM_Ok_length in Hrows. rewrite seq_length in Hrows.
    rewrite forallb_forall in EL. assert (Hin : In (nth s rows []) rows) by (apply nth_In; lia). apply EL in Hin. apply Nat.eqb_eq in Hin.
    rewrite A, map_length in Hin. exact Hin.
  - intros s b Hs. f_equal. rewrite (nominal_row_funs I rv _ s _ Hval (Hrow s Hs)). apply nth_app_fun.
Qed.

(** conversely *)
Lemma n_exp_funs_conv m I pm ps ns K rv : names_ok m -> pmodel_of m = Ok pm -> i_pm I = pm -> length ps = length (m_pois m) ->
  cut_k_exp m I ns = Ok K -> model_real_vals m pm ps = Ok rv -> (forall s, (s < i_nsamples I)%nat -> (exists row, nominal_row I rv s = Ok row) /\ length (row_funs I s) = i_nbins I) ->
  (0 < i_nsamples I)%nat ->
  exists n, n_exp m I ps ns = Ok n /\ forall s b, (s < i_nsamples I)%nat -> n s b = nth b (row_funs I s) (fun _ => 0) (model_env m ps) * K s b.
Proof.
  intros HN Hpm HI HL HK Hrv Hrows H0.
  assert (E : exists n, n_exp m I ps ns = Ok n).
  { unfold n_exp. rewrite HI, Hrv. cbn [bind].
    destruct (mapM_total (nominal_row I rv) (seq 0 (i_nsamples I))) as (rows & Hr); [intros s Hs; apply in_seq in Hs; apply Hrows; lia|].
    rewrite Hr. cbn [bind]. destruct (i_nsamples I =? 0)%nat eqn:E0; [apply Nat.eqb_eq in E0; lia|].
    assert (EL : forallb (fun r => (length r =? i_nbins I)%nat) rows = true).
    { apply forallb_forall. intros r Hin. apply Nat.eqb_eq. destruct (In_nth _ _ [] Hin) as (s & Hs & <-).
      pose proof (mapM_Ok_length _ _ _ Hr) as L. rewrite seq_length in L. assert (Hs' : (s < i_nsamples I)%nat) by lia.
      pose proof (mapM_nth _ _ _ s 0%nat ([] : list R) Hr) as A. rewrite seq_length in A. specialize (A Hs'). rewrite seq_nth in A by exact Hs'.
      rewrite (nominal_row_funs I rv _ s _ (real_vals_spec m pm ps rv HN Hpm HL Hrv) A), map_length. apply Hrows. exact Hs'. }
    rewrite EL. cbn [negb]. rewrite HK. cbn [bind]. eauto. }
  destruct E as (n & Hn). exists n. split; [exact Hn|]. destruct (n_exp_funs m I pm ps ns n HN Hpm HI HL Hn) as (K' & rv' & HK' & _ & _ & _ & A).
  rewrite HK in HK'. inversion HK'; subst K'. exact A.
Qed.

(** at one point everything can be computed; then also in a neighbourhood *)
Record point_ok (m : Model) (I : Internal) (ps ns : list R) (K : nat -> nat -> R) (rv : dict R) : Prop := mkPt {
  pt_len : length ps = length (m_pois m);
  pt_k : cut_k_exp m I ns = Ok K;
  pt_rv : model_real_vals m (i_pm I) ps = Ok rv;
  pt_rows : forall s, (s < i_nsamples I)%nat -> (exists row, nominal_row I rv s = Ok row) /\ length (row_funs I s) = i_nbins I;
  pt_ns : (0 < i_nsamples I)%nat }.

Lemma tot_point m I ps ns t : names_ok m -> pmodel_of m = Ok (i_pm I) -> length ps = length (m_pois m) -> tot_bin_exp m I ps ns None = Ok t ->
  exists K rv, point_ok m I ps ns K rv /\ forall b, t b = totf I K b (model_env m ps).
Proof.
  intros HN Hpm HL H. unfold tot_bin_exp in H. apply bind_Ok in H as (n & Hn & H). inversion H; subst t; clear H.
  destruct (n_exp_funs m I _ ps ns n HN Hpm eq_refl HL Hn) as (K & rv & H1 & H2 & H3 & H4 & H5). exists K, rv. split; [constructor; auto|].
  intros b. unfold totf. apply rsum_ext. intros s Hs. apply H5, Hs.
Qed.
Lemma point_tot m I ps ns K rv : names_ok m -> pmodel_of m = Ok (i_pm I) -> point_ok m I ps ns K rv ->
  exists t, tot_bin_exp m I ps ns None = Ok t /\ forall b, t b = totf I K b (model_env m ps).
Proof.
  intros HN Hpm [P1 P2 P3 P4 P5]. destruct (n_exp_funs_conv m I _ ps ns K rv HN Hpm eq_refl P1 P2 P3 P4 P5) as (n & Hn & A).
  unfold tot_bin_exp. rewrite Hn. cbn [bind]. eexists; split; [reflexivity|]. intros b. unfold totf. apply rsum_ext. intros s Hs. apply A, Hs.
Qed.
Lemma point_local m I ps ns K rv a p : names_ok m -> pmodel_of m = Ok (i_pm I) -> point_ok m I ps ns K rv -> nth_error (keys (m_pois m)) a = Some p ->
  locally (nth a ps 0) (fun x => exists rv', point_ok m I (set_nth a x ps) ns K rv').
Proof.
  intros HN Hpm [P1 P2 P3 P4 P5] Ha. eapply filter_imp; [|apply (real_vals_local m (i_pm I) ps rv a p HN Hpm P1 P3 Ha)].
  intros x (rv' & Hrv' & Hk). exists rv'. constructor; auto; [rewrite set_nth_length; exact P1|].
  intros s Hs. destruct (P4 s Hs) as ((row & Hrow) & HLs). split; [|exact HLs]. eapply nominal_row_keys; eauto.
Qed.

(** derivative of one row of yields *)
Definition all_names (m : Model) : list string := keys (m_pois m) ++ keys (m_nps m) ++ map expr_name (values (m_exprs m)).
Lemma sample_gradient_der E m I ps rv sm g a p : names_ok m -> ~ In "" (all_names m) -> pmodel_of m = Ok (i_pm I) -> length ps = length (m_pois m) ->
  model_real_vals m (i_pm I) ps = Ok rv -> nth_error (keys (m_pois m)) a = Some p ->
  sample_gradient (e_fuel E) sm (keys (m_pois m)) (model_reals m) rv = Ok g ->
  Forall2 (fun f gv => der (fun x => f (model_env m (set_nth a x ps))) (nth a ps 0) (gv a)) (sample_funs sm) g.
Proof.
  intros HN HE Hpm HL Hrv Ha H. unfold sample_gradient in H. apply bind_Ok in H as (gn & Hgn & H). unfold sample_funs.
  destruct (s_yields sm) as [y|]; [|discriminate]. destruct (s_nominal_norm sm) as [nn|]; [|discriminate]. destruct (Reqb nn 0) eqn:Enn; [discriminate|]. apply Reqb_false in Enn.
  inversion H; subst g; clear H.
  assert (D : der (fun x => norm_den (s_norm sm) (model_env m (set_nth a x ps))) (nth a ps 0) (gn a)).
  { destruct (model_vals m (i_pm I) ps rv HN Hpm HL Hrv) as (d & Hd & Hnd & Hkd & He).
    assert (HNp : NoDup (keys (m_pois m))) by (apply (NoDup_app_l _ (keys (m_nps m)) (names_ok_base _ HN))).
    unfold norm_gradient_of in Hgn. destruct (s_norm sm) as [v|n]; cbn [norm_den].
    - inversion Hgn; subst gn. destruct v; apply der_const.
    - destruct (String.eqb n "") eqn:En.
      + exfalso. apply String.eqb_eq in En. subst n. apply bind_Ok in Hgn as (e & Hr & Hgn).
        unfold dgetE in Hr. destruct (dget "" (model_reals m)) as [e'|] eqn:Er; [|discriminate].
        destruct (reals_inv _ _ _ _ Er) as [[H1 H2]|[H1 _]]; apply HE; unfold all_names; rewrite app_assoc; apply in_or_app; [right|left; exact H1].
        rewrite <- H2. now apply in_map.
      + apply bind_Ok in Hgn as (e & Hr & Hgn). unfold dgetE in Hr. destruct (dget n (model_reals m)) as [e'|] eqn:Er; [|discriminate]. inversion Hr; subst e'.
        unfold model_reals in Er, Hgn. rewrite <- Hkd in Er, Hgn.
        destruct (known_reals (values (m_exprs m)) d n e Er) as (Hkn & <-).
        rewrite <- (par_env_at m ps a p HNp Ha), <- He. unfold model_env.
        eapply der_ext_env; [|exact (grad_known (values (m_exprs m)) d rv Hd Hnd (keys (m_pois m)) _ p a e gn Ha Hkn Hgn)].
        intros x z. rewrite (par_env_upd m ps a p x HNp Ha HL). unfold upd. destruct (String.eqb z p); [reflexivity|apply He]. }
  clear - D Enn. induction y as [|yb y IH]; cbn [map]; constructor; [|exact IH].
  apply (der_ext (fun x => yb / nn * norm_den (s_norm sm) (model_env m (set_nth a x ps)))); [intros x; field; exact Enn|].
  eapply der_val; [apply der_scal, D|]. cbn beta. field. exact Enn.
Qed.

Lemma Forall2_concat {A B} (P : A -> B -> Prop) l r : Forall2 (fun x y => Forall2 P x y) l r -> Forall2 P (concat l) (concat r).
Proof. induction 1; cbn; [constructor|]. apply Forall2_app; assumption. Qed.
Lemma Forall2_nth {A B} (P : A -> B -> Prop) l r da db i : Forall2 P l r -> P da db -> P (nth i l da) (nth i r db).
Proof. intros H Hd. revert i; induction H; intros [|i]; cbn; auto. Qed.
Lemma Forall2_repeat {A B} (P : A -> B -> Prop) a b n : P a b -> Forall2 P (repeat a n) (repeat b n).
Proof. intros H. induction n; cbn; constructor; auto. Qed.

Lemma gradient_row_der E m I ps rv s gr a p : names_ok m -> ~ In "" (all_names m) -> pmodel_of m = Ok (i_pm I) -> length ps = length (m_pois m) ->
  model_real_vals m (i_pm I) ps = Ok rv -> nth_error (keys (m_pois m)) a = Some p -> gradient_row E m I rv s = Ok gr ->
  Forall2 (fun f gv => der (fun x => f (model_env m (set_nth a x ps))) (nth a ps 0) (gv a)) (row_funs I s) gr.
Proof.
  intros HN HE Hpm HL Hrv Ha H. unfold gradient_row in H. apply bind_Ok in H as (bl & Hbl & H). inversion H; subst gr; clear H.
  unfold row_funs. apply Forall2_concat. apply mapM_Forall2 in Hbl. induction Hbl as [|kc g l r Hg Hr IH]; cbn [map]; constructor; [|exact IH].
  destruct (sample_at (snd kc) s) as [sm|]; [eapply sample_gradient_der; eauto|]. inversion Hg. apply Forall2_repeat. apply der_const.
Qed.

(** the real value of the likelihood *)
Definition real_of (r : res ext) : R := match r with Ok (Fin x) => x | _ => 0 end.
Definition set_poi (a : nat) (x : R) (ps : list R) := set_nth a x ps.

Lemma totf_der I K (ps : list R) (m : Model) a (gr : nat -> list vec) :
  (forall s, (s < i_nsamples I)%nat -> Forall2 (fun f gv => der (fun x => f (model_env m (set_nth a x ps))) (nth a ps 0) (gv a)) (row_funs I s) (gr s)) ->
  forall b, der (fun x => totf I K b (model_env m (set_nth a x ps))) (nth a ps 0) (rsum (i_nsamples I) (fun s => nth b (gr s) (fun _ => 0) a * K s b)).
Proof.
  intros H b. unfold totf. apply der_rsum. intros s Hs.
  eapply der_val; [apply (der_mult (fun x => nth b (row_funs I s) (fun _ => 0) (model_env m (set_nth a x ps))) (fun _ => K s b)); [|apply der_const]|].
  - apply (Forall2_nth (fun (f : env -> R) (gv : vec) => der (fun x => f (model_env m (set_nth a x ps))) (nth a ps 0) (gv a)) _ _ (fun _ => 0) (fun _ => 0) b (H s Hs)). apply der_const.
  - cbn beta. ring.
Qed.

(** the likelihood in a neighbourhood of a point where it is finite *)
Lemma set_nth_self {A} (d : A) a l : set_nth a (nth a l d) l = l.
Proof. revert a; induction l as [|x l IH]; intros [|a]; cbn; congruence. Qed.

Definition nllf (m : Model) (I : Internal) (K : nat -> nat -> R) (n : nat -> R) (C : R) (ps : list R) : R :=
  rsum (i_nbins_p I) (fun b => totf I K b (model_env m ps) - n b * ln (totf I K b (model_env m ps))) + C.

Lemma nll_nllf m I ns data off nc : names_ok m -> pmodel_of m = Ok (i_pm I) -> i_nbins_g I = 0%nat ->
  (off = true -> exists ref, ref_yields m I = Ok ref /\ forall b, (b < i_nbins_p I)%nat -> 0 < ref b) -> (exists ref, ref_yields m I = Ok ref) ->
  exists C, forall ps K rv, point_ok m I ps ns K rv -> (forall b, (b < i_nbins_p I)%nat -> 0 < totf I K b (model_env m ps)) ->
    nll m I ps ns data off None nc = Ok (Fin (nllf m I K (fun b => nth b (d_counts data) 0) C ps)).
Proof.
  intros HN Hpm Hg Hoff (ref & Href). destruct off.
  - destruct (Hoff eq_refl) as (ref' & Href' & Hrp). rewrite Href in Href'. inversion Href'; subst ref'.
    eexists. intros ps K rv HP Hpos. destruct (point_tot m I ps ns K rv HN Hpm HP) as (t & Ht & Et).
    rewrite (nll_off m I ps ns data None nc t ref Ht Href); auto; [|intros b Hb; rewrite Et; auto|rewrite Hg; intros i j Hi; lia].
    f_equal. f_equal. unfold nllf, pois_sum, gauss_sum. rewrite Hg. unfold qform at 1 2. cbn [rsum].
    rewrite (rsum_ext (i_nbins_p I) (fun b => t b - nth b (d_counts data) 0 * ln (t b)) (fun b => totf I K b (model_env m ps) - nth b (d_counts data) 0 * ln (totf I K b (model_env m ps)))) by (intros b Hb; rewrite Et; reflexivity).
    match goal with |- ?X + ?G + ?Cc - ?O = _ => instantiate (1 := (if nc then 0 else cons_sum I (d_aux data) ns) - (rsum (i_nbins_p I) (fun b => ref b - nth b (d_counts data) 0 * ln (ref b)))) end. ring.
  - eexists. intros ps K rv HP Hpos. destruct (point_tot m I ps ns K rv HN Hpm HP) as (t & Ht & Et).
    rewrite (nll_noff m I ps ns data None nc t ref Ht Href); [|intros b Hb; rewrite Et; auto].
    f_equal. f_equal. unfold nllf, pois_sum, gauss_sum. rewrite Hg. unfold qform. cbn [rsum].
    rewrite (rsum_ext (i_nbins_p I) (fun b => t b - nth b (d_counts data) 0 * ln (t b)) (fun b => totf I K b (model_env m ps) - nth b (d_counts data) 0 * ln (totf I K b (model_env m ps)))) by (intros b Hb; rewrite Et; reflexivity).
    instantiate (1 := if nc then 0 else cons_sum I (d_aux data) ns). ring.
Qed.

(** positivity in a neighbourhood *)
Lemma pos_local m I ps ns K rv a p : names_ok m -> pmodel_of m = Ok (i_pm I) -> point_ok m I ps ns K rv -> nth_error (keys (m_pois m)) a = Some p ->
  (forall b, (b < i_nbins_p I)%nat -> 0 < totf I K b (model_env m ps)) ->
  locally (nth a ps 0) (fun x => forall b, (b < i_nbins_p I)%nat -> 0 < totf I K b (model_env m (set_nth a x ps))).
Proof.
  intros HN Hpm [P1 P2 P3 P4 P5] Ha Hpos.
  apply (filter_imp (fun x => forall b, In b (seq 0 (i_nbins_p I)) -> 0 < totf I K b (model_env m (set_nth a x ps)))).
  { intros x H b Hb. apply H, in_seq. lia. }
  apply locally_forall_in. intros b Hb. apply in_seq in Hb.
  assert (D : exists g, der (fun x => totf I K b (model_env m (set_nth a x ps))) (nth a ps 0) g).
  { unfold totf.
    assert (D1 : forall s, (s < i_nsamples I)%nat -> exists g, der (fun x => nth b (row_funs I s) (fun _ => 0) (model_env m (set_nth a x ps)) * K s b) (nth a ps 0) g).
    { intros s Hs. destruct (P4 s Hs) as ((row & Hrow) & _).
      assert (Dn : exists g, der (fun x => nth b (row_funs I s) (fun _ => 0) (model_env m (set_nth a x ps))) (nth a ps 0) g).
      { destruct (nth_in_or_default b (row_funs I s) (fun _ => 0)) as [Hin|E]; [|rewrite E; eexists; apply der_const].
        unfold row_funs in Hin |- *. set (f := nth b _ _) in *. clearbody f. apply in_concat in Hin as (bl & Hbl & Hf). apply in_map_iff in Hbl as (kc & <- & Hkc).
        unfold nominal_row in Hrow. apply bind_Ok in Hrow as (rs & Hrs & _). apply mapM_Forall2 in Hrs. destruct (Forall2_in_l _ _ _ _ Hrs Hkc) as (r & _ & Hr).
        destruct (sample_at (snd kc) s) as [sm|]; [|apply repeat_spec in Hf; subst f; eexists; apply der_const].
        unfold sample_funs in Hf. unfold sample_yields, normalization in Hr. apply bind_Ok in Hr as (w & Hw & _). apply bind_Ok in Hw as (v & Hv & _).
        destruct (s_nominal_norm sm) as [nn|]; [|destruct Hf]. destruct (s_yields sm) as [y|]; [|destruct Hf]. apply in_map_iff in Hf as (yb & <- & _).
        assert (Dv : exists g, der (fun x => norm_den (s_norm sm) (model_env m (set_nth a x ps))) (nth a ps 0) g).
        { unfold norm_value in Hv. destruct (s_norm sm) as [[z|]|n]; cbn [norm_den]; try (eexists; apply der_const).
          destruct (String.eqb n ""); [eexists; apply der_const|]. apply (model_env_der m (i_pm I) ps rv a p n HN Hpm P1 P3 Ha).
          unfold dgetE in Hv. destruct (dget n rv) eqn:E; [|discriminate]. apply dget_In in E. change n with (fst (n, r0)). now apply in_map. }
        destruct Dv as (g & Dg). exists (yb / nn * g). apply (der_ext (fun x => yb / nn * norm_den (s_norm sm) (model_env m (set_nth a x ps)))).
        { intros x. unfold Rdiv. ring. }
        apply der_scal, Dg. }
      destruct Dn as (g & Dg). exists (K s b * g). apply (der_ext (fun x => K s b * nth b (row_funs I s) (fun _ => 0) (model_env m (set_nth a x ps)))); [intros x; ring|]. apply der_scal, Dg. }
    exists (rsum (i_nsamples I) (fun s => Derive (fun x => nth b (row_funs I s) (fun _ => 0) (model_env m (set_nth a x ps)) * K s b) (nth a ps 0))).
    apply der_rsum. intros s Hs. destruct (D1 s Hs) as (g & Dg). rewrite (der_Derive _ _ _ Dg). exact Dg. }
  destruct D as (g & Dg). apply (der_locally_pos _ _ _ Dg). rewrite set_nth_self. apply Hpos. lia.
Qed.

Lemma nllf_der m I K n C ps a (g : nat -> R) : (forall b, (b < i_nbins_p I)%nat -> 0 < totf I K b (model_env m ps)) ->
  (forall b, der (fun x => totf I K b (model_env m (set_nth a x ps))) (nth a ps 0) (g b)) ->
  der (fun x => nllf m I K n C (set_nth a x ps)) (nth a ps 0) (rsum (i_nbins_p I) (fun b => g b - g b / totf I K b (model_env m ps) * n b)).
Proof.
  intros Hpos D. unfold nllf.
  eapply der_val; [apply (der_plus (fun x => rsum (i_nbins_p I) (fun b => totf I K b (model_env m (set_nth a x ps)) - n b * ln (totf I K b (model_env m (set_nth a x ps))))) (fun _ => C)); [|apply der_const]|apply Rplus_0_r].
  apply (der_rsum (i_nbins_p I) (fun b x => totf I K b (model_env m (set_nth a x ps)) - n b * ln (totf I K b (model_env m (set_nth a x ps))))). intros b Hb.
  assert (Hx : totf I K b (model_env m (set_nth a (nth a ps 0) ps)) = totf I K b (model_env m ps)) by (rewrite set_nth_self; reflexivity).
  eapply der_val; [apply der_minus; [apply D|apply der_scal, der_ln; [|apply D]]|].
  - cbn beta. rewrite Hx. auto.
  - cbn beta. rewrite Hx. pose proof (Hpos b Hb). field. lra.
Qed.

(** gradient *)
Lemma nll_gradient_inv E m I ps ns data G : nll_gradient E m I ps ns data = Ok G ->
  exists rv n gr K, model_real_vals m (i_pm I) ps = Ok rv /\ n_exp m I ps ns = Ok n /\ mapM (gradient_row E m I rv) (seq 0 (i_nsamples I)) = Ok gr /\ cut_k_exp m I ns = Ok K /\
   forall a, G a = rsum (i_nbins I) (fun b =>
      let gt := rsum (i_nsamples I) (fun s => nth b (nth s gr []) (fun _ => 0) a * K s b) in
      gt - div0 gt (rsum (i_nsamples I) (fun s => n s b)) * nth b (d_counts data) 0).
Proof.
  unfold nll_gradient. intros H. apply bind_Ok in H as (rv & Hrv & H). apply bind_Ok in H as (n & Hn & H). apply bind_Ok in H as (gr & Hgr & H).
  destruct (negb _); [discriminate|]. apply bind_Ok in H as (K & HK & H). inversion H; subst. exists rv, n, gr, K. repeat split; auto.
Qed.

Lemma nll_gradient_der E m I ps ns data off nc G v a p : built E m I -> names_ok m -> ~ In "" (all_names m) -> length ps = length (m_pois m) ->
  i_nbins_g I = 0%nat -> (off = true -> forall ref, ref_yields m I = Ok ref -> forall b, (b < i_nbins_p I)%nat -> 0 < ref b) ->
  nll m I ps ns data off None nc = Ok (Fin v) -> nll_gradient E m I ps ns data = Ok G -> nth_error (keys (m_pois m)) a = Some p ->
  der (fun x => real_of (nll m I (set_nth a x ps) ns data off None nc)) (nth a ps 0) (G a).
Proof.
  intros Bt HN HE HL Hg Hoff Hv HG Ha. pose proof (bt_pm _ _ _ Bt) as Hpm. pose proof (built_nbins _ _ _ Bt) as Hnb.
  destruct (nll_fin_inv _ _ _ _ _ _ _ _ _ Hv) as (t & ref & Ht & Href & Hp).
  assert (Hp' : forall b, (b < i_nbins_p I)%nat -> 0 < t b) by (apply Hp; destruct off; [right; apply Hoff; auto|now left]).
  destruct (tot_point m I ps ns t HN Hpm HL Ht) as (K & rv & HP & Et).
  assert (Hpos : forall b, (b < i_nbins_p I)%nat -> 0 < totf I K b (model_env m ps)) by (intros b Hb; rewrite <- Et; auto).
  destruct (nll_nllf m I ns data off nc HN Hpm Hg) as (C & HC); [intros ->; eauto|eauto|].
  destruct (nll_gradient_inv _ _ _ _ _ _ _ HG) as (rv' & n & gr & K' & Hrv' & Hn & Hgr & HK' & HG').
  pose proof HP as [P1 P2 P3 P4 P5]. rewrite P2 in HK'. inversion HK'; subst K'; clear HK'. rewrite P3 in Hrv'. inversion Hrv'; subst rv'; clear Hrv'.
  apply (der_ext_loc (fun x => nllf m I K (fun b => nth b (d_counts data) 0) C (set_nth a x ps))).
  { eapply filter_imp; [|apply filter_and; [exact (point_local m I ps ns K rv a p HN Hpm HP Ha)|exact (pos_local m I ps ns K rv a p HN Hpm HP Ha Hpos)]].
    intros x [(rvx & Hx) Hpx]. exact (eq_sym (f_equal real_of (HC _ K rvx Hx Hpx))). }
  eapply der_val.
  - apply nllf_der; [exact Hpos|]. intros b. apply (totf_der I K ps m a (fun s => nth s gr [])).
    intros s Hs. apply (gradient_row_der E m I ps rv s _ a p HN HE Hpm HL P3 Ha).
    pose proof (mapM_nth _ _ _ s 0%nat ([] : list vec) Hgr) as A. rewrite seq_length in A. specialize (A Hs). rewrite seq_nth in A by exact Hs. exact A.
  - rewrite HG'. rewrite Hnb, Hg, Nat.add_0_r. apply rsum_ext. intros b Hb. cbn zeta. f_equal. f_equal.
    assert (Et2 : rsum (i_nsamples I) (fun s => n s b) = t b).
    { unfold tot_bin_exp in Ht. rewrite Hn in Ht. cbn [bind] in Ht. inversion Ht. reflexivity. }
    rewrite Et2. unfold div0. pose proof (Hp' b Hb). rewrite (proj2 (Reqb_false (t b) 0)) by lra. rewrite <- Et. reflexivity.
Qed.
