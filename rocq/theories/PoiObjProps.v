(** C85: what the minimizer hands to the optimization routine; C32, C55: more on t_mu and bounds. *)
From Verif Require Import Py PyFacts Base BaseFacts Expressions Norms Sample Channels ChannelFacts Params ParamsFacts Core CoreFacts CoreExample NpMin PoiMin PoiMinFacts PoiMinProps.
Local Open Scope string_scope.
Local Open Scope list_scope.

(** ** C85 *)

(** the bounds that leave room for a parameter to vary, in order *)
Definition open_range (b : ParBound) : bool := match pb_min b, pb_max b with Some x, Some y => Rltb x y | _, _ => false end.
Definition free_list (bs : dict ParBound) : dict ParBound := filter (fun kb => open_range (snd kb)) bs.

Lemma free_bounds_values bs fr : free_bounds bs = Ok fr -> map snd fr = values (free_list bs) /\ forall i b, In (i, b) fr -> nth_error (values bs) i = Some b.
Proof.
  unfold free_bounds. intros H. apply bind_Ok in H as (l & Hl & H). injection H as <-. unfold enumerate in Hl.
  assert (G : forall n (ps : dict ParBound) l, mapM (fun ib : nat * ParBound => let! f := is_free (snd ib) in Ok (f, ib)) (combine (seq n (length (values ps))) (values ps)) = Ok l ->
    map snd (map snd (filter fst l)) = values (free_list ps) /\ forall i b, In (i, b) (map snd (filter fst l)) -> (n <= i)%nat /\ nth_error (values ps) (i - n) = Some b).
  { clear. intros n ps. revert n. induction ps as [|[k b] ps IH]; intros n l Hl; [injection Hl as <-; split; [reflexivity|intros ? ? []]|].
    cbn [values map length seq combine mapM snd] in Hl. apply bind_Ok in Hl as (x & Hx & Hl). apply bind_Ok in Hl as (l' & Hl' & Hl). injection Hl as <-.
    apply IH in Hl' as [A B]. apply bind_Ok in Hx as (f & Hf & Hx). injection Hx as <-.
    assert (f = open_range b) as -> by (unfold is_free in Hf; unfold open_range; destruct (pb_min b), (pb_max b); congruence).
    unfold free_list. cbn [filter snd fst]. fold (free_list ps). destruct (open_range b).
    - cbn [map snd values filter]. split; [unfold values in A; rewrite A; reflexivity|]. intros i c [E|Hc]; [injection E as <- <-; rewrite Nat.sub_diag; split; [lia|reflexivity]|].
      apply B in Hc as [Hc Hd]. split; [lia|]. replace (i - n)%nat with (S (i - S n)) by lia. exact Hd.
    - split; [exact A|]. intros i c Hc. apply B in Hc as [Hc Hd]. split; [lia|]. replace (i - n)%nat with (S (i - S n)) by lia. exact Hd. }
  apply G in Hl as [A B]. split; [exact A|]. intros i b Hb. apply B in Hb as [_ Hb]. rewrite Nat.sub_0_r in Hb. exact Hb.
Qed.

Lemma update_hypo_set pm (fr : list (nat * ParBound)) : forall x p, wf p pm -> (forall i b, In (i, b) fr -> index (pb_par b) (pm_pois pm) = Some i) -> length x = length fr ->
  update_hypo p (map fst fr) x = foldM (fun p kv => pars_set p (fst kv) (snd kv) false) (combine (map (fun ib => pb_par (snd ib)) fr) x) p.
Proof.
  unfold update_hypo. induction fr as [|[i b] fr IH]; intros x p W HI L; [reflexivity|]. destruct x as [|v x]; [discriminate|]. cbn [map combine foldM fst snd].
  pose proof (HI i b (or_introl eq_refl)) as Hi. pose proof (index_lt _ _ _ Hi) as Hl. destruct W as (Hm & Hp & Hn).
  assert (E : pars_set p (pb_par b) v false = let! l := lset (pois p) i v in Ok (mkPars l (nps p) (pmod p))) by (unfold pars_set; rewrite Hm, Hi; reflexivity).
  rewrite E. unfold lset at 1 3. rewrite (proj2 (Nat.ltb_lt i (length (pois p)))) by lia. cbn [bind]. apply IH.
  - repeat split; cbn; auto. now rewrite set_nth_length.
  - intros j c Hc. apply HI. right. exact Hc.
  - injection L as L. exact L.
Qed.

Lemma nth_error_map_some {A B} (f : A -> B) l i x : nth_error l i = Some x -> nth_error (map f l) i = Some (f x).
Proof. revert i. induction l as [|a l IH]; intros [|i]; cbn; try discriminate; [intros [= ->]; reflexivity|apply IH]. Qed.
Lemma nth_error_map_inv {A B} (f : A -> B) l i y : nth_error (map f l) i = Some y -> exists x, nth_error l i = Some x /\ y = f x.
Proof. revert i. induction l as [|a l IH]; intros [|i]; cbn; try discriminate; [intros [= <-]; eauto|apply IH]. Qed.

(** One optimization: the routine receives the initial values and the ranges of the parameters that are free, in the order of the POIs of the
    model, the closed-form gradient exactly when the model has one and numerical derivatives were not asked for, and an objective whose value
    at a point is the likelihood profiled at the parameters where the free POIs have the values of the point and everything else its
    initial value.  The result of a successful optimization is the value found by the routine. *)
Theorem C85_optimization : forall m I F s init bs r s', mi_init s = Some init -> mi_bounds s = Some bs -> wf init (i_pm I) -> keyed bs -> keys bs = pm_pois (i_pm I) ->
  free_list bs <> [] -> minimize m I F s None = Ok (r, s') ->
  exists me obj jac x0 ranges o, f_opt F me obj jac x0 ranges = Ok o /\
    me = (if (1 <? length (free_list bs))%nat then if String.eqb (mi_method s) "scalar" then "L-BFGS-B" else mi_method s else mi_method s) /\
    ranges = map (fun kb => (pb_min (snd kb), pb_max (snd kb))) (free_list bs) /\
    (me <> "scalar" -> Forall2 (fun kb v => pars_get init (fst kb) = Ok v) (free_list bs) x0 /\ (jac = true <-> f_grad F init = true /\ mi_numjac s = false)) /\
    (forall x, length x = length (free_list bs) -> exists h, wf h (i_pm I) /\ Forall2 (fun kb v => pars_get h (fst kb) = Ok v) (free_list bs) x /\
      (forall k, ~ In k (keys (free_list bs)) -> pars_get h k = pars_get init k) /\
      obj x = match f_prof F (mi_niter s) (mi_floor s) h with Ok (_, _, v) => Ok v | Err e => Err e end) /\
    (o_success o = true -> r = RNll (o_fun o) /\ mi_min_nll s' = Some (o_fun o)) /\ (o_success o = false -> r = RPair).
Proof.
  intros m I F s init bs r s' Hi Hb W K HK NE H. unfold minimize in H. rewrite Hi, Hb in H. cbn [bind] in H. rewrite Hi, Hb, (pars_clone_wf _ _ W) in H. cbn [bind] in H.
  apply bind_Ok in H as (fr & Hfr & H). destruct (free_bounds_values _ _ Hfr) as [Hv Hix].
  assert (HI : forall i b, In (i, b) fr -> index (pb_par b) (pm_pois (i_pm I)) = Some i).
  { intros i b Hin. rewrite <- HK. apply nth_index; [apply K|]. apply Hix in Hin. rewrite <- (keyed_pars _ K). apply nth_error_map_some, Hin. }
  assert (HN : map (fun ib : nat * ParBound => pb_par (snd ib)) fr = keys (free_list bs)).
  { rewrite <- (map_map snd pb_par). rewrite Hv. unfold values, keys. rewrite map_map. apply map_ext_in. intros [k b] Hk. cbn. apply K. unfold free_list in Hk. apply filter_In in Hk. apply Hk. }
  assert (LF : length fr = length (free_list bs)) by (apply (f_equal (@length _)) in Hv; unfold values in Hv; rewrite !map_length in Hv; exact Hv).
  assert (HR : map (fun ib : nat * ParBound => (pb_min (snd ib), pb_max (snd ib))) fr = map (fun kb : string * ParBound => (pb_min (snd kb), pb_max (snd kb))) (free_list bs)).
  { rewrite <- (map_map snd (fun b => (pb_min b, pb_max b))), Hv. unfold values. rewrite map_map. reflexivity. }
  apply bind_Ok in H as (x0 & Hx & H). pose proof (mapM_Ok_length _ _ _ Hx) as Lx. rewrite Lx in H. rewrite LF in H.
  destruct (free_list bs) as [|fb fl] eqn:EF; [contradiction|]. rewrite <- EF in *. assert (LN : (length (free_list bs) <> 0)%nat) by (rewrite EF; discriminate).
  rewrite (proj2 (Nat.eqb_neq _ _) LN) in H. cbn [andb] in H.
  assert (HX : Forall2 (fun (kb : string * ParBound) v => pars_get init (fst kb) = Ok v) (free_list bs) x0).
  { assert (G : mapM (fun n => pars_get init n) (keys (free_list bs)) = Ok x0).
    { rewrite <- HN. rewrite <- Hx. clear. induction fr as [|[i b] fr IH]; [reflexivity|]. cbn [map mapM snd]. rewrite IH. reflexivity. }
    clear -G. revert x0 G. induction (free_list bs) as [|[k b] l IH]; intros x0 G; cbn in G; [injection G as <-; constructor|].
    apply bind_Ok in G as (v & Hv & G). apply bind_Ok in G as (vs & Hvs & G). injection G as <-. constructor; [exact Hv|apply IH, Hvs]. }
  assert (OB : forall x, length x = length (free_list bs) -> exists h, wf h (i_pm I) /\ Forall2 (fun (kb : string * ParBound) v => pars_get h (fst kb) = Ok v) (free_list bs) x /\
      (forall k, ~ In k (keys (free_list bs)) -> pars_get h k = pars_get init k) /\ update_hypo init (map fst fr) x = Ok h).
  { intros x Lx'. rewrite (update_hypo_set (i_pm I) fr x init W HI) by congruence. rewrite HN.
    assert (ND : NoDup (keys (free_list bs))) by (destruct K as [K _]; unfold free_list; clear -K; unfold keys in *; induction bs as [|[k b] l IH]; [constructor|]; cbn in *; inversion K; subst;
      destruct (open_range b); [|auto]; cbn; constructor; [|auto]; intros Hin; apply in_map_iff in Hin as ([k' b'] & E & Hin); cbn in E; subst; apply filter_In in Hin as [Hin _]; apply H1; apply in_map_iff; eexists; split; [|exact Hin]; reflexivity).
    assert (KN : forall k, In k (keys (free_list bs)) -> In k (pm_pois (i_pm I) ++ np_names (i_pm I))).
    { intros k Hk. apply in_or_app. left. rewrite <- HK. unfold keys, free_list in *. apply in_map_iff in Hk as (kb & <- & Hk). apply in_map. apply filter_In in Hk. apply Hk. }
    assert (EX : forall (h : dict R) p, wf p (i_pm I) -> (forall k, In k (keys h) -> In k (pm_pois (i_pm I) ++ np_names (i_pm I))) -> exists q, foldM (fun p kv => pars_set p (fst kv) (snd kv) false) h p = Ok q).
    { clear. induction h as [|[k v] h IH]; intros p W HK; [eexists; reflexivity|]. cbn [foldM fst snd]. pose proof (pars_set_spec p _ k v false W) as S.
      rewrite (stored_known _ k v (HK k (or_introl eq_refl))) in S. destruct S as (q & -> & Wq & _). cbn [bind]. apply IH; [exact Wq|]. intros k' Hk'. apply HK. right. exact Hk'. }
    assert (KC : keys (combine (keys (free_list bs)) x) = keys (free_list bs)).
    { assert (Lk : length (keys (free_list bs)) = length x) by (unfold keys; rewrite map_length; congruence). clear -Lk. revert x Lk. induction (keys (free_list bs)) as [|k l IH]; intros [|v x] L; try discriminate; [reflexivity|]. cbn in *. f_equal. apply IH. congruence. }
    destruct (EX (combine (keys (free_list bs)) x) init W) as (q & Hq); [rewrite KC; exact KN|].
    destruct (set_each _ _ _ _ W ltac:(rewrite KC; exact ND) Hq) as (Wq & A & B). exists q. split; [exact Wq|]. split; [|split; [rewrite KC in B; exact B|exact Hq]].
    clear -A Lx'. revert x A Lx'. unfold keys. induction (free_list bs) as [|[k b] l IH]; intros [|v x] A L; try discriminate; [constructor|]. cbn in *. constructor; [apply A; left; reflexivity|].
    apply IH; [|congruence]. intros k' v' Hk. apply A. right. exact Hk. }
  set (s1 := if ((1 <? length (free_list bs))%nat && String.eqb (mi_method s) "scalar")%bool then with_method s "L-BFGS-B" else s) in H.
  assert (M1 : mi_method s1 = (if (1 <? length (free_list bs))%nat then if String.eqb (mi_method s) "scalar" then "L-BFGS-B" else mi_method s else mi_method s)).
  { subst s1. destruct (1 <? length (free_list bs))%nat; cbn [andb]; [|reflexivity]. destruct (String.eqb (mi_method s) "scalar"); reflexivity. }
  assert (C1 : mi_niter s1 = mi_niter s /\ mi_floor s1 = mi_floor s /\ mi_numjac s1 = mi_numjac s) by (subst s1; destruct (_ && _)%bool; repeat split).
  destruct C1 as (C1 & C2 & C3). rewrite C1, C2, C3, HR in H. clearbody s1.
  assert (SC : mi_method s1 = "scalar" -> (length (free_list bs) <= 1)%nat).
  { rewrite M1. destruct (Nat.ltb_spec 1 (length (free_list bs))); [|intros _; lia]. destruct (String.eqb_spec (mi_method s) "scalar"); [discriminate|contradiction]. }
  rewrite <- M1. clear M1.
  set (objective := fun x => let! h := update_hypo init (map fst fr) x in let! (d, p, v) := f_prof F (mi_niter s) (mi_floor s) h in Ok v) in H.
  assert (OB' : forall x, length x = length (free_list bs) -> exists h, wf h (i_pm I) /\ Forall2 (fun kb v => pars_get h (fst kb) = Ok v) (free_list bs) x /\
      (forall k, ~ In k (keys (free_list bs)) -> pars_get h k = pars_get init k) /\
      objective x = match f_prof F (mi_niter s) (mi_floor s) h with Ok (_, _, v) => Ok v | Err e => Err e end).
  { intros x Lx'. destruct (OB x Lx') as (h & A & B & C & D). exists h. split; [exact A|]. split; [exact B|]. split; [exact C|]. unfold objective. rewrite D. cbn [bind].
    destruct (f_prof F (mi_niter s) (mi_floor s) h) as [[[d p] v]|e]; reflexivity. }
  clearbody objective. apply bind_Ok in H as (o & Ho & H). apply bind_Ok in H as (s2 & Hs2 & H).
  assert (RES : (o_success o = true -> r = RNll (o_fun o) /\ mi_min_nll s' = Some (o_fun o)) /\ (o_success o = false -> r = RPair)).
  { destruct (o_success o); injection H as <- <-; (split; [|]); try discriminate; intros _; try split; reflexivity. }
  destruct (String.eqb_spec (mi_method s1) "scalar") as [E1|E1].
  - rewrite EF in Ho. cbn [map] in Ho. exists "scalar", objective, false, [], [(pb_min (snd fb), pb_max (snd fb))], o. split; [exact Ho|]. split; [symmetry; exact E1|].
    assert (fl = []) as ->.
    { destruct fl as [|fb2 fl]; [reflexivity|]. exfalso. apply SC in E1. rewrite EF in E1. cbn in E1. lia. }
    rewrite EF. split; [reflexivity|]. split; [intros N; contradiction|]. rewrite <- EF. split; [exact OB'|exact RES].
  - exists (mi_method s1), objective, (f_grad F init && negb (mi_numjac s))%bool, x0, (map (fun kb : string * ParBound => (pb_min (snd kb), pb_max (snd kb))) (free_list bs)), o.
    split; [|split; [reflexivity|split; [reflexivity|split; [|split; [exact OB'|exact RES]]]]].
    + destruct (String.eqb_spec (mi_method s1) "CG") as [E2|E2]; [destruct (0 <? mi_verbosity s1)%Z; [discriminate|rewrite E2; exact Ho]|].
      destruct (String.eqb_spec (mi_method s1) "L-BFGS-B") as [E3|E3]; [rewrite E3; exact Ho|discriminate].
    + intros _. split; [exact HX|]. rewrite andb_true_iff, negb_true_iff. reflexivity.
Qed.
Print Assumptions C85_optimization.

(** the initialization gives what the theorem asks for, when the ranges and the hypothesis only concern POIs *)
Theorem C85_after_initialization : forall E m I init bounds hypo fx p bs, set_internal_vars E m = Ok I -> NoDup (keys (m_pois m)) -> init_ok I init ->
  (forall l b, bounds = Some l -> In b l -> In (pb_par b) (keys (m_pois m))) -> (forall h k, hypo = Some h -> In k (keys h) -> In k (keys (m_pois m))) ->
  (forall h, hypo = Some h -> NoDup (keys h)) ->
  set_pois_min m I init bounds hypo fx = Ok (p, bs) -> wf p (i_pm I) /\ keyed bs /\ keys bs = pm_pois (i_pm I).
Proof.
  intros E m I init bounds hypo fx p bs HI N Hi HB HH HN H. destruct (set_pois_inv _ _ _ _ _ _ _ _ Hi H) as (p0 & p1 & W0 & _ & H1 & Hb & Hr).
  assert (K : keyed bs) by (eapply all_bounds_keyed; eassumption).
  assert (W1 : wf p1 (i_pm I)). { destruct hypo as [h|]; [|congruence]. apply (set_each _ _ _ _ W0 (HN h eq_refl) H1). }
  destruct (repair_all _ _ _ _ W1 ltac:(rewrite keyed_pars by exact K; apply K) Hr) as (Wp & _). split; [exact Wp|]. split; [exact K|].
  assert (HP : pm_pois (i_pm I) = keys (m_pois m)) by (apply (pmodel_pois m (i_pm I)); apply (siv_built _ _ _ HI)).
  rewrite HP. clear -Hb HB HH.
  assert (F : forall {A} (key : A -> string) (f : A -> ParBound) l d, (forall a, In a l -> In (key a) (keys d)) -> keys (fold_left (fun d a => dset (key a) (f a) d) l d) = keys d).
  { clear. induction l as [|a l IH]; intros d Hd; [reflexivity|]. cbn [fold_left]. rewrite IH; [apply keys_dset, Hd; left; reflexivity|]. intros b Hb. rewrite keys_dset by (apply Hd; left; reflexivity). apply Hd. right. exact Hb. }
  assert (M : keys (model_bounds m) = keys (m_pois m)) by (unfold model_bounds, keys; rewrite map_map; reflexivity).
  unfold all_bounds in Hb. set (d1 := match bounds with None => _ | Some _ => _ end) in Hb.
  assert (D1 : keys d1 = keys (m_pois m)).
  { subst d1. destruct bounds as [l|]; [|exact M]. rewrite (F _ pb_par (fun b => mkPB (pb_par b) (pb_min b) (pb_max b))); [exact M|]. intros b Hin. rewrite M. eapply HB; [reflexivity|exact Hin]. }
  destruct fx; [|injection Hb as <-; exact D1]. destruct hypo as [h|]; [|discriminate]. injection Hb as <-.
  rewrite (F _ fst (fun kv => mkPB (fst kv) (Some (snd kv)) (Some (snd kv)))); [exact D1|]. intros kv Hin. rewrite D1. eapply HH; [reflexivity|]. apply in_map, Hin.
Qed.
Print Assumptions C85_after_initialization.

(** two POIs, one of them fixed by the hypothesis *)
Definition gfit (o : optimizer) : FitEnv := mkFit (fun _ _ p => Ok (None, p, Fin (nth 0 (pois p) 0 + 10 * nth 1 (pois p) 0))) (fun _ => true) o.
Example C85_nonvacuous : exists I p bs r s', set_internal_vars ex_env tmod2 = Ok I /\ set_pois_min tmod2 I None None (Some [("nu", 2)]) true = Ok (p, bs) /\
  free_list bs = [("mu", mkPB "mu" (Some 0) (Some 10))] /\ wf p (i_pm I) /\ keyed bs /\ keys bs = pm_pois (i_pm I) /\
  minimize tmod2 I (gfit (topt true [3])) (with_pois (tmini "L-BFGS-B") (p, bs)) None = Ok (r, s') /\ r = RNll (Fin (3 + 10 * 2)).
Proof.
  destruct tmod2_built as (I & H & Hp & Hr). exists I. eexists _, _, _, _. split; [exact H|].
  split; [unfold set_pois_min; rewrite Hp, Hr; ev; reflexivity|]. split; [unfold free_list; ev; reflexivity|]. split; [rewrite Hp; repeat split; reflexivity|].
  split; [split; [cbn; repeat constructor; cbn; intuition congruence|cbn; intros k b [E|[E|[]]]; injection E as <- <-; reflexivity]|].
  split; [rewrite Hp; reflexivity|]. split; [unfold minimize; ev; reflexivity|]. reflexivity.
Qed.

(** Refuted: a range given for a nuisance parameter makes it count as a free POI, beyond the last one: every evaluation of the objective fails *)
Theorem C85_np_range_refuted : exists I p bs, set_internal_vars ex_env (tmod (Some 0) (Some 10)) = Ok I /\
  set_pois_min (tmod (Some 0) (Some 10)) I None (Some [mkPB "a" (Some (-1)) (Some 1)]) None false = Ok (p, bs) /\ wf p (i_pm I) /\
  forall prof g (o : optimizer), (forall me obj jac x0 ranges, (forall x, length x = length x0 -> obj x = Err IndexError) -> o me obj jac x0 ranges = Err IndexError) ->
    minimize (tmod (Some 0) (Some 10)) I (mkFit prof g o) (with_pois (tmini "L-BFGS-B") (p, bs)) None = Err IndexError.
Proof.
  destruct (tmod_built (Some 0) (Some 10)) as (I & H & Hp & Hr). exists I. eexists _, _. split; [exact H|].
  split; [unfold set_pois_min; rewrite Hp, Hr; ev; reflexivity|]. split; [rewrite Hp; repeat split; reflexivity|].
  intros prof g o HO. unfold minimize. cbn [with_pois mi_init mi_bounds fst snd bind tmini mini_init].
  assert (EF : free_bounds [("mu", mkPB "mu" (Some 0) (Some 10)); ("a", mkPB "a" (Some (-1)) (Some 1))] = Ok [(0%nat, mkPB "mu" (Some 0) (Some 10)); (1%nat, mkPB "a" (Some (-1)) (Some 1))]) by (ev; reflexivity).
  rewrite EF. cbn [bind]. cbn -[update_hypo].
  rewrite HO; [reflexivity|]. intros [|x [|y [|]]] L; try discriminate. reflexivity.
Qed.
Print Assumptions C85_np_range_refuted.

(** ** C55: bounds and parameter vectors *)

(** A bound tested on a parameter vector tests the value of its parameter; a parameter the vector does not know passes *)
Theorem C55_parameter_test : forall b p pm, wf p pm -> (forall v, pars_get p (pb_par b) = Ok v -> pb_test b p = Ok (test_value b v)) /\
  (~ In (pb_par b) (pm_pois pm ++ np_names pm) -> pb_test b p = Ok true) /\ exists r, pb_test b p = Ok r.
Proof.
  intros b p pm W. split; [intros v Hv; unfold pb_test; rewrite Hv; reflexivity|].
  assert (U : ~ In (pb_par b) (pm_pois pm ++ np_names pm) -> pb_test b p = Ok true).
  { intros N. assert (E : pars_get p (pb_par b) = Err KeyError).
    { unfold pars_get. destruct W as (-> & _). rewrite (proj2 (index_None _ _)); [rewrite (proj2 (index_None _ _)); [reflexivity|]|]; intros Hin; apply N, in_or_app; auto. }
    unfold pb_test. rewrite E. reflexivity. }
  split; [exact U|]. destruct (in_dec string_dec (pb_par b) (pm_pois pm ++ np_names pm)) as [Hin|Hn]; [|eauto].
  destruct (pars_get_total p pm _ W Hin) as (v & Hv). unfold pb_test. rewrite Hv. eauto.
Qed.
Print Assumptions C55_parameter_test.
Example C55_parameter_test_nonvacuous : wf (tp 5) (mkPM ["mu"] [("a", 0, 1)]) /\ pars_get (tp 5) "mu" = Ok 5 /\ ~ In "zz" (pm_pois (mkPM ["mu"] [("a", 0, 1)]) ++ np_names (mkPM ["mu"] [("a", 0, 1)])) /\
  pb_test (mkPB "mu" (Some 6) None) (tp 5) = Ok false /\ pb_test (mkPB "zz" (Some 6) None) (tp 5) = Ok true.
Proof. repeat split; try reflexivity; [cbn; intuition congruence|]. ev. reflexivity. Qed.

(** ** C32: the fits behind t_mu *)

(** The parameters kept with the two likelihoods are those of the two fits they come from *)
Theorem C32_stored_fits : forall m I F s0 hypo init t s', poi_tmu m I F s0 hypo init = Ok (t, s') ->
  exists ib hib r1 hm r2 s2, set_pois_min m I init (option_map values (mi_bounds s0)) (Some hypo) false = Ok ib /\ set_pois_min m I init (Some (values (snd ib))) (Some hypo) true = Ok hib /\
    minimize m I F (with_pois (mini_clone s0) hib) None = Ok (r1, hm) /\ minimize m I F (with_tmu (with_pois s0 ib) (mi_min_nll hm) (mi_free_nll s0) (mi_tmu_debug s0)) None = Ok (r2, s2) /\
    mi_hypo_nll s' = mi_min_nll hm /\ mi_hypo_pars s' = mi_min_pars hm /\ mi_free_nll s' = mi_min_nll s2 /\ mi_free_pars s' = mi_min_pars s2 /\ mi_min_pars s' = mi_min_pars s2.
Proof.
  intros m I F s0 hypo init t s' H. unfold poi_tmu in H. apply bind_Ok in H as (ib & Hib & H). apply bind_Ok in H as (hib & Hhib & H). apply bind_Ok in H as ((r1, hm) & H1 & H).
  apply bind_Ok in H as ((r2, s2) & H2 & H). destruct (mi_min_nll hm) as [h|] eqn:Eh; [|discriminate]. destruct (mi_min_nll s2) as [f|] eqn:Ef; [|discriminate]. injection H as <- <-.
  exists ib, hib, r1, hm, r2, s2. split; [exact Hib|]. split; [exact Hhib|]. split; [exact H1|]. rewrite <- Eh in H2. split; [exact H2|]. rewrite Eh, Ef. repeat split.
Qed.
Print Assumptions C32_stored_fits.

(** A second computation with the alternative method is attempted only after a negative difference of the likelihoods; otherwise the first
    result stands *)
Theorem C32_second_attempt : forall m I F s0 hypo init t s', poi_tmu m I F s0 hypo init = Ok (t, s') ->
  (t <> Fin 0 \/ (forall x, mi_tmu_debug s' = Fin x -> 0 <= x) /\ mi_tmu_debug s' <> MInf) -> opti_tmu m I F s0 hypo init = Ok (t, s').
Proof.
  intros m I F s0 hypo init t s' H HC. unfold opti_tmu. rewrite H. cbn [bind].
  match goal with |- (if ?c then _ else _) = _ => assert (c = false) as -> end; [|reflexivity]. destruct HC as [HC|[HC HM]].
  - destruct t as [x| | |]; try reflexivity. destruct (Reqb x 0) eqn:E; [|reflexivity]. apply Reqb_true in E. subst. contradiction.
  - apply andb_false_iff. right. destruct (mi_tmu_debug s') as [x| | |]; cbn; try reflexivity; [|contradiction]. apply Rltb_false. pose proof (HC x eq_refl). lra.
Qed.
Print Assumptions C32_second_attempt.
Lemma minimize_config m I F s init r s' : minimize m I F s init = Ok (r, s') -> mi_alt s' = mi_alt s /\ mi_rebound s' = mi_rebound s.
Proof.
  intros H. unfold minimize in H. apply bind_Ok in H as (s1 & H1 & H).
  assert (C : mi_alt s1 = mi_alt s /\ mi_rebound s1 = mi_rebound s).
  { destruct init, (mi_init s), (mi_bounds s); try (apply bind_Ok in H1 as (ib & _ & H1)); injection H1 as <-; split; reflexivity. }
  destruct C as [<- <-]. clear H1. destruct (mi_init s1) as [i|]; [|discriminate]. destruct (mi_bounds s1) as [bs|]; [|discriminate].
  apply bind_Ok in H as (cur & _ & H). apply bind_Ok in H as (fr & _ & H). apply bind_Ok in H as (x0 & _ & H). destruct (_ && _)%bool.
  - apply bind_Ok in H as ([[d p] v'] & _ & H). injection H as <- <-. split; reflexivity.
  - set (s2 := if ((1 <? length x0)%nat && String.eqb (mi_method s1) "scalar")%bool then with_method s1 "L-BFGS-B" else s1) in H.
    assert (C : mi_alt s2 = mi_alt s1 /\ mi_rebound s2 = mi_rebound s1) by (subst s2; destruct (_ && _)%bool; split; reflexivity). clearbody s2. destruct C as [<- <-].
    apply bind_Ok in H as (r0 & _ & H). apply bind_Ok in H as (s3 & H3 & H).
    assert (C : mi_alt s3 = mi_alt s2 /\ mi_rebound s3 = mi_rebound s2).
    { destruct (rev (o_evals r0)); [injection H3 as <-; split; reflexivity|]. apply bind_Ok in H3 as (h & _ & H3). apply bind_Ok in H3 as ([[d p] v'] & _ & H3). injection H3 as <-. split; reflexivity. }
    destruct C as [<- <-]. destruct (o_success r0); injection H as <- <-; split; reflexivity.
Qed.
Lemma poi_tmu_config m I F s0 hypo init t s' : poi_tmu m I F s0 hypo init = Ok (t, s') -> mi_alt s' = mi_alt s0 /\ mi_rebound s' = mi_rebound s0.
Proof.
  intros H. unfold poi_tmu in H. apply bind_Ok in H as (ib & Hib & H). apply bind_Ok in H as (hib & Hhib & H). apply bind_Ok in H as ((r1, hm) & H1 & H).
  apply bind_Ok in H as ((r2, s2) & H2 & H). destruct (mi_min_nll hm) as [h|] eqn:Eh; [|discriminate]. destruct (mi_min_nll s2) as [f|] eqn:Ef; [|discriminate]. injection H as <- <-.
  apply minimize_config in H2. exact H2.
Qed.
(** and the attempt is made when there is an alternative method *)
Theorem C32_alternative_method : forall m I F s0 hypo init s' x a, poi_tmu m I F s0 hypo init = Ok (Fin 0, s') -> mi_tmu_debug s' = Fin x -> x < 0 -> mi_alt s' = Some a -> mi_rebound s' = 0%Z ->
  opti_tmu m I F s0 hypo init = opti_tmu m I F (mkMini a (mi_niter s') (mi_floor s') 0 None (mi_numjac s') (mi_verbosity s') (mi_init s') (mi_bounds s')
                       (mi_min_nll s') (mi_min_pars s') (mi_deltas s') (mi_hypo_nll s') (mi_free_nll s') (mi_tmu_debug s') (mi_hypo_pars s') (mi_free_pars s')) hypo init.
Proof.
  intros m I F s0 hypo init s' x a H HD HX HA HR. unfold opti_tmu at 1. rewrite H. cbn [bind]. rewrite HD. cbn [eltb]. rewrite (proj2 (Reqb_true 0 0) eq_refl), (proj2 (Rltb_true x 0) HX). cbn [andb].
  rewrite HR. rewrite andb_false_r. rewrite HA. unfold opti_tmu. rewrite <- HD. clear H. destruct (poi_tmu m I F _ hypo init) as [[t2 s2]|e] eqn:E2; [|reflexivity]. cbn [bind].
  apply poi_tmu_config in E2 as [A R]. cbn in A, R. rewrite R. cbn [Z.ltb Z.compare]. rewrite !andb_false_r. rewrite A. destruct (_ && _)%bool; reflexivity.
Qed.
Print Assumptions C32_alternative_method.
Example C32_second_attempt_nonvacuous : exists I t s' s'' x, set_internal_vars ex_env (tmod (Some 0) (Some 10)) = Ok I /\
  poi_tmu (tmod (Some 0) (Some 10)) I (tfit (topt true [3])) (mini_init "scalar" 1 None 0 (Some "L-BFGS-B") false 0) [("mu", 1)] None = Ok (Fin t, s') /\ Fin t <> Fin 0 /\
  poi_tmu (tmod (Some 0) (Some 10)) I (tfit (topt true [9])) (mini_init "scalar" 1 None 0 (Some "L-BFGS-B") false 0) [("mu", 1)] None = Ok (Fin 0, s'') /\ mi_tmu_debug s'' = Fin x /\ x < 0 /\
  mi_alt s'' = Some "L-BFGS-B" /\ mi_rebound s'' = 0%Z.
Proof.
  destruct (tmod_built (Some 0) (Some 10)) as (I & H & Hp & Hr). exists I. eexists _, _, _, _. split; [exact H|].
  split; [unfold poi_tmu, set_pois_min; rewrite Hp, Hr; ev; reflexivity|]. split; [intros E; injection E; lra|].
  split; [unfold poi_tmu, set_pois_min; rewrite Hp, Hr; ev; reflexivity|]. split; [reflexivity|]. split; [lra|]. split; reflexivity.
Qed.
