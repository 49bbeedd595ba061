(** C33, C70: histories of minimizer calls, and the reported best fit. *)
From Verif Require Import Py PyFacts Base Expressions Norms Sample Channels Params ParamsFacts Core CoreFacts CoreExample NpMin PoiMin PoiMinFacts PoiMinProps.
Local Open Scope string_scope.
Local Open Scope list_scope.

(** ** C33: histories of calls *)

Definition config (s : Mini) := (mi_method s, mi_niter s, mi_floor s, mi_rebound s, mi_alt s, mi_numjac s, mi_verbosity s).
(** what a caller sees of a minimization: the returned value and the best-fit likelihood and parameters *)
Definition seen (r : res (mini_ret * Mini)) : res (mini_ret * option ext * option Params) :=
  match r with Ok (v, s) => Ok (v, mi_min_nll s, mi_min_pars s) | Err e => Err e end.
Definition seen_tmu (r : res (ext * Mini)) : res (ext * option ext * option ext * option Params) :=
  match r with Ok (v, s) => Ok (v, mi_hypo_nll s, mi_free_nll s, mi_min_pars s) | Err e => Err e end.
(** the optimization routines evaluate the objective at least once *)
Definition evaluates (F : FitEnv) : Prop := forall me obj j x0 b r, f_opt F me obj j x0 b = Ok r -> o_evals r <> [].

Lemma minimize_Some m I F s p : minimize m I F s (Some p) = (let! ib := set_pois_min m I (Some p) None None false in minimize m I F (with_pois s ib) None).
Proof. unfold minimize at 1. destruct (set_pois_min m I (Some p) None None false) as [ib|e]; cbn [bind]; [|destruct (mi_init s), (mi_bounds s); reflexivity]. reflexivity. Qed.
Definition agree (a b : res (mini_ret * Mini)) : Prop :=
  match a, b with Ok (r, t), Ok (r', t') => config t = config t' /\ mi_init t = mi_init t' /\ mi_bounds t = mi_bounds t' /\ r = r' /\ mi_min_nll t = mi_min_nll t' /\ mi_min_pars t = mi_min_pars t'
  | Err e, Err e' => e = e' | _, _ => False end.
Lemma minimize_agree m I F s s' : evaluates F -> config s = config s' -> mi_init s = mi_init s' -> mi_bounds s = mi_bounds s' -> mi_init s <> None -> mi_bounds s <> None ->
  agree (minimize m I F s None) (minimize m I F s' None).
Proof.
  intros HE HC HI HB NI NB. destruct s as [me ni fl rb al nj vb ii bb n1 n2 n3 n4 n5 n6], s' as [me' ni' fl' rb' al' nj' vb' ii' bb' n1' n2' n3' n4' n5' n6']. cbn in *.
  injection HC as <- <- <- <- <- <- <-. subst ii' bb'. destruct ii as [init|]; [|contradiction]. destruct bb as [bs|]; [|contradiction]. unfold minimize. cbn [mi_init mi_bounds bind].
  destruct (pars_clone init) as [cur|]; [|reflexivity]. cbn [bind]. destruct (free_bounds bs) as [fr|]; [|reflexivity]. cbn [bind]. destruct (mapM _ fr) as [x0|]; [|reflexivity]. cbn [bind mi_method].
  destruct (_ && _)%bool.
  - cbn [with_method mi_niter mi_floor]. destruct (f_prof F ni fl cur) as [[[d p] v]|]; cbn; [repeat split|reflexivity].
  - destruct (_ && _)%bool; cbn [with_method mi_method mi_niter mi_floor mi_numjac mi_verbosity].
    all: match goal with |- context [bind ?x _] => destruct x as [r|] eqn:Er end; [|reflexivity]; cbn [bind];
      assert (EV : o_evals r <> []) by (clear -HE Er; repeat (match type of Er with (if ?c then _ else _) = _ => destruct c | match ?c with _ => _ end = _ => destruct c end; try discriminate); try (eapply HE; eassumption));
      destruct (rev (o_evals r)) as [|x l] eqn:Ev; [exfalso; apply EV; apply (f_equal (@rev _)) in Ev; rewrite rev_involutive in Ev; exact Ev|];
      destruct (update_hypo cur (map fst fr) x) as [h|]; [|reflexivity]; cbn [bind]; destruct (f_prof F ni fl h) as [[[d p] v]|]; [|reflexivity]; cbn; destruct (o_success r); cbn; repeat split.
Qed.

Definition is_open (po : POI) : bool := match poi_min po, poi_max po with Some x, Some y => Rltb x y | _, _ => false end.
Definition nfree (m : Model) : nat := length (filter (fun kp => is_open (snd kp)) (m_pois m)).
(** the requested method applies to the number of free POIs of the model *)
Definition suitable (m : Model) (method : string) : Prop := nfree m = 1%nat \/ ((1 < nfree m)%nat /\ method <> "scalar").

Lemma free_bounds_length m fr : free_bounds (model_bounds m) = Ok fr -> length fr = nfree m.
Proof.
  unfold free_bounds, nfree, model_bounds. intros H. apply bind_Ok in H as (l & Hl & H). injection H as <-. rewrite map_length. unfold enumerate in Hl. revert l Hl.
  unfold values. rewrite map_map. cbn [snd]. rewrite map_length. generalize (m_pois m), 0%nat. intros ps. induction ps as [|[k po] ps IH]; intros n l Hl; [injection Hl as <-; reflexivity|].
  cbn [length seq map combine mapM snd] in Hl. apply bind_Ok in Hl as (x & Hx & Hl). apply bind_Ok in Hl as (l' & Hl' & Hl). injection Hl as <-. apply IH in Hl'. cbn [filter].
  apply bind_Ok in Hx as (f & Hf & Hx). injection Hx as <-. cbn [fst snd]. unfold is_free in Hf. cbn in Hf. unfold is_open at 1. cbn [snd].
  destruct (poi_min po); [|discriminate]. destruct (poi_max po); [|discriminate]. injection Hf as <-. destruct (Rltb r r0); cbn; lia.
Qed.
Lemma minimize_stable m I F s r s' : mi_bounds s = Some (model_bounds m) -> mi_init s <> None -> suitable m (mi_method s) -> minimize m I F s None = Ok (r, s') ->
  config s' = config s /\ mi_bounds s' = mi_bounds s /\ mi_hypo_nll s' = mi_hypo_nll s.
Proof.
  intros HB NI HS H. destruct s as [me ni fl rb al nj vb ii bb n1 n2 n3 n4 n5 n6]. cbn in *. subst bb. destruct ii as [init|]; [|contradiction]. unfold minimize in H. cbn [mi_init mi_bounds bind] in H.
  apply bind_Ok in H as (cur & _ & H). apply bind_Ok in H as (fr & Hfr & H). apply free_bounds_length in Hfr. apply bind_Ok in H as (x0 & Hx & H). apply mapM_Ok_length in Hx.
  rewrite <- Hx in Hfr. rewrite Hfr in H. cbn [mi_method] in H. destruct (Nat.eqb_spec (nfree m) 0) as [E|_]; [destruct HS; lia|]. cbn [andb] in H.
  assert (E : ((1 <? nfree m)%nat && String.eqb me "scalar")%bool = false).
  { destruct HS as [->|[_ HS]]; [reflexivity|]. destruct (String.eqb_spec me "scalar"); [contradiction|]. apply andb_false_r. }
  rewrite E in H. cbn [mi_method mi_niter mi_floor] in H. apply bind_Ok in H as (o & _ & H). apply bind_Ok in H as (s1 & Hs & H).
  assert (A : config s1 = (me, ni, fl, rb, al, nj, vb) /\ mi_bounds s1 = Some (model_bounds m) /\ mi_hypo_nll s1 = n4).
  { destruct (rev (o_evals o)); [injection Hs as <-; repeat split|]. apply bind_Ok in Hs as (h & _ & Hs). apply bind_Ok in Hs as ([[d p] v] & _ & Hs). injection Hs as <-. repeat split. }
  destruct (o_success o); injection H as <- <-; exact A.
Qed.

Lemma dset_same {V} k (v : V) d : dget k d = Some v -> dset k v d = d.
Proof.
  induction d as [|[k' v'] d IH]; cbn; [discriminate|]. destruct (String.eqb_spec k k') as [->|]; [intros [= ->]; reflexivity|]. intros H. rewrite IH by exact H. reflexivity.
Qed.
(** giving the bounds of the model is the same as giving none *)
Lemma own_bounds m I init hypo fx : NoDup (keys (m_pois m)) -> set_pois_min m I init (Some (values (model_bounds m))) hypo fx = set_pois_min m I init None hypo fx.
Proof.
  intros N. unfold set_pois_min, all_bounds.
  assert (E : fold_left (fun d b => dset (pb_par b) (mkPB (pb_par b) (pb_min b) (pb_max b)) d) (values (model_bounds m)) (model_bounds m) = model_bounds m).
  { pose proof (keyed_model m N) as [K1 K2]. set (d := model_bounds m) in *. assert (S : forall k b, In (k, b) d -> dget k d = Some b) by (intros; apply In_dget; assumption).
    assert (G : forall l, (forall x, In x l -> In x d) -> fold_left (fun d b => dset (pb_par b) (mkPB (pb_par b) (pb_min b) (pb_max b)) d) (map snd l) d = d).
    { induction l as [|[k b] l IH]; intros Hl; [reflexivity|]. cbn. replace (mkPB (pb_par b) (pb_min b) (pb_max b)) with b by (destruct b; reflexivity).
      pose proof (Hl (k, b) (or_introl eq_refl)) as Hk. rewrite (dset_same (pb_par b) b d); [apply IH; intros; apply Hl; right; assumption|]. rewrite (K2 k b Hk). apply S, Hk. }
    apply G. auto. }
  rewrite E. reflexivity.
Qed.

(** The calls of a history: a minimization from a given point, or a t_mu computation, each with its own dataset *)
Inductive call := CMin (F : FitEnv) (p : Params) | CTmu (F : FitEnv) (hypo : dict R) (init : option Params).
Definition do_call (m : Model) (I : Internal) (s : Mini) (c : call) : res Mini :=
  match c with
  | CMin F p => let! (_, s') := minimize m I F s (Some p) in Ok s'
  | CTmu F h i => let! (_, s') := opti_tmu m I F s h i in Ok s'
  end.
(** the state a history leaves: the configuration and possibly the bounds of the model *)
Definition neutral (m : Model) (s0 s : Mini) : Prop := config s = config s0 /\ (mi_bounds s = None \/ mi_bounds s = Some (model_bounds m)).

Lemma set_pois_bounds m I init hypo ib : set_pois_min m I init None hypo false = Ok ib -> snd ib = model_bounds m.
Proof.
  unfold set_pois_min. intros H. apply bind_Ok in H as (p0 & _ & H). apply bind_Ok in H as (p1 & _ & H). apply bind_Ok in H as (bs & Hb & H). injection Hb as <-. apply bind_Ok in H as (p2 & _ & H).
  injection H as <-. reflexivity.
Qed.
Lemma neutral_set_pois m I init hypo fx s : NoDup (keys (m_pois m)) -> (mi_bounds s = None \/ mi_bounds s = Some (model_bounds m)) ->
  set_pois_min m I init (option_map values (mi_bounds s)) hypo fx = set_pois_min m I init None hypo fx.
Proof. intros N [-> | ->]; [reflexivity|]. apply own_bounds, N. Qed.
Lemma config_method s s' : config s = config s' -> mi_method s = mi_method s'.
Proof. unfold config. congruence. Qed.
Lemma config_clone s s' : config s = config s' -> mini_clone s = mini_clone s'.
Proof. unfold config, mini_clone. intros H. injection H as -> -> -> -> -> _ _. reflexivity. Qed.

Lemma poi_tmu_agree m I F s s' h i : NoDup (keys (m_pois m)) -> evaluates F -> suitable m (mi_method s) -> config s = config s' ->
  (mi_bounds s = None \/ mi_bounds s = Some (model_bounds m)) -> (mi_bounds s' = None \/ mi_bounds s' = Some (model_bounds m)) ->
  match poi_tmu m I F s h i, poi_tmu m I F s' h i with
  | Ok (t, u), Ok (t', u') => t = t' /\ config u = config s /\ config u' = config s' /\ mi_bounds u = Some (model_bounds m) /\ mi_bounds u' = Some (model_bounds m) /\
       mi_hypo_nll u = mi_hypo_nll u' /\ mi_free_nll u = mi_free_nll u' /\ mi_min_pars u = mi_min_pars u'
  | Err e, Err e' => e = e'
  | _, _ => False
  end.
Proof.
  intros N HE HS HC HB HB'. unfold poi_tmu. rewrite (neutral_set_pois m I i (Some h) false s N HB), (neutral_set_pois m I i (Some h) false s' N HB').
  destruct (set_pois_min m I i None (Some h) false) as [ib|] eqn:Eib; [|reflexivity]. pose proof (set_pois_bounds _ _ _ _ _ Eib) as Bib. cbn [bind]. cbn [with_pois mi_bounds option_map].
  rewrite Bib, own_bounds by exact N. destruct (set_pois_min m I i None (Some h) true) as [hib|]; [|reflexivity]. cbn [bind]. rewrite (config_clone s s' HC).
  destruct (minimize m I F (with_pois (mini_clone s') hib) None) as [[r1 hm]|]; [|reflexivity]. cbn [bind].
  set (a := with_tmu (with_pois s ib) _ _ _). set (b := with_tmu (with_pois s' ib) _ _ _).
  assert (Ba : mi_bounds a = Some (model_bounds m)) by (cbn; rewrite Bib; reflexivity). assert (Bb : mi_bounds b = Some (model_bounds m)) by (cbn; rewrite Bib; reflexivity).
  pose proof (minimize_agree m I F a b HE) as A. specialize (A HC eq_refl (eq_trans Ba (eq_sym Bb))). assert (Na : mi_init a <> None) by discriminate. assert (Nb : mi_init b <> None) by discriminate.
  specialize (A Na). rewrite Ba in A. specialize (A ltac:(discriminate)).
  destruct (minimize m I F a None) as [[r2 u]|e] eqn:Ea, (minimize m I F b None) as [[r2' u']|e'] eqn:Eb; cbn [agree] in A; try contradiction; cbn [bind]; [|exact A].
  destruct A as (Cu & _ & Bu & _ & Lu & Pu).
  destruct (minimize_stable m I F a r2 u Ba Na HS Ea) as (Ca & Bau & _). assert (HS' : suitable m (mi_method b)) by (cbn; rewrite <- (config_method s s' HC); exact HS).
  destruct (minimize_stable m I F b r2' u' Bb Nb HS' Eb) as (Cb & Bbu & _). rewrite <- Lu. destruct (mi_min_nll hm) as [x|]; [|reflexivity]. destruct (mi_min_nll u) as [y|]; [|reflexivity].
  split; [reflexivity|]. split; [exact Ca|]. split; [exact Cb|]. split; [cbn; congruence|]. split; [cbn; congruence|]. repeat split. exact Pu.
Qed.
Lemma opti_tmu_plain m I F s h i : mi_rebound s = 0%Z -> mi_alt s = None -> (forall t u, poi_tmu m I F s h i = Ok (t, u) -> config u = config s) -> opti_tmu m I F s h i = poi_tmu m I F s h i.
Proof.
  intros Hr Ha Hc. unfold opti_tmu. destruct (poi_tmu m I F s h i) as [[t u]|]; [|reflexivity]. cbn [bind]. specialize (Hc t u eq_refl). unfold config in Hc. injection Hc as E1 E2 E3 E4 E5 E6 E7.
  rewrite E4, Hr, E5, Ha. cbn. rewrite andb_false_r. destruct (_ && _)%bool; reflexivity.
Qed.

(** With the default settings (no rebound, no alternative method) and a method that suits the number of free POIs, the
    outcome of a call after any history of successful calls is that of the same call on a fresh minimizer *)
Theorem C33_history : forall m I s0 history s, NoDup (keys (m_pois m)) -> mi_bounds s0 = None -> mi_rebound s0 = 0%Z -> mi_alt s0 = None -> suitable m (mi_method s0) ->
  (forall c, In c history -> match c with CMin F _ | CTmu F _ _ => evaluates F end) -> foldM (do_call m I) history s0 = Ok s ->
  forall F, evaluates F -> (forall p, seen (minimize m I F s (Some p)) = seen (minimize m I F s0 (Some p))) /\
    (forall h i, seen_tmu (opti_tmu m I F s h i) = seen_tmu (opti_tmu m I F s0 h i)).
Proof.
  intros m I s0 history s N B0 R0 A0 HS HH HF.
  assert (ST : forall s F h i t u, neutral m s0 s -> evaluates F -> poi_tmu m I F s h i = Ok (t, u) -> neutral m s0 u /\ config u = config s).
  { intros s1 F h i t u [C1 B1] HE Hu. pose proof (poi_tmu_agree m I F s1 s1 h i N HE) as P. rewrite Hu in P. destruct P as (_ & C & _ & B & _); auto; [rewrite (config_method _ _ C1); exact HS|].
    split; [split; [congruence|right; exact B]|exact C]. }
  assert (PL : forall s F h i, neutral m s0 s -> evaluates F -> opti_tmu m I F s h i = poi_tmu m I F s h i).
  { intros s1 F h i N1 HE. apply opti_tmu_plain; [| |intros t u Hu; apply (ST s1 F h i t u N1 HE Hu)]; destruct N1 as [C1 _]; unfold config in C1; congruence. }
  assert (NS : neutral m s0 s).
  { clear -HF HH ST PL N HS B0. revert HF. assert (G : forall h s1, (forall c, In c h -> In c history) -> neutral m s0 s1 -> foldM (do_call m I) h s1 = Ok s -> neutral m s0 s).
    { induction h as [|c h IH]; intros s1 Hh N1 H; cbn [foldM] in H; [injection H as <-; exact N1|]. apply bind_Ok in H as (s2 & H2 & H). apply (IH s2); [intros; apply Hh; right; assumption| |exact H].
      pose proof (HH c (Hh c (or_introl eq_refl))) as HE. destruct c as [F p|F hy i]; cbn [do_call] in H2.
      - rewrite minimize_Some in H2. destruct (set_pois_min m I (Some p) None None false) as [ib|] eqn:Eb; [|discriminate]. cbn [bind] in H2. apply bind_Ok in H2 as ((r, s3) & H2 & E). injection E as <-.
        destruct N1 as [C1 B1]. pose proof (set_pois_bounds _ _ _ _ _ Eb) as Bib. destruct (minimize_stable m I F (with_pois s1 ib) r s3) as (Ca & Ba & _); [cbn; rewrite Bib; reflexivity|discriminate| |exact H2|].
        + cbn. rewrite (config_method _ _ C1). exact HS.
        + split; [rewrite Ca; exact C1|]. right. rewrite Ba. cbn. rewrite Bib. reflexivity.
      - apply bind_Ok in H2 as ((t, s3) & H2 & E). injection E as <-. rewrite (PL s1 F hy i N1 HE) in H2. apply (ST s1 F hy i t s3 N1 HE H2). }
    intros HF. apply (G history s0); auto. split; [reflexivity|left; exact B0]. }
  assert (N0 : neutral m s0 s0) by (split; [reflexivity|left; exact B0]). intros F HE. split.
  - intros p. rewrite !minimize_Some. destruct (set_pois_min m I (Some p) None None false) as [ib|]; [|reflexivity]. cbn [bind].
    pose proof (minimize_agree m I F (with_pois s ib) (with_pois s0 ib) HE (proj1 NS) eq_refl eq_refl) as A. specialize (A ltac:(discriminate) ltac:(discriminate)).
    destruct (minimize m I F (with_pois s ib) None) as [[r u]|e], (minimize m I F (with_pois s0 ib) None) as [[r' u']|e']; cbn in *; try contradiction; [|congruence].
    destruct A as (_ & _ & _ & -> & -> & ->). reflexivity.
  - intros h i. rewrite (PL s F h i NS HE), (PL s0 F h i N0 HE). destruct NS as [C B]. pose proof (poi_tmu_agree m I F s s0 h i N HE) as A. rewrite (config_method _ _ C) in A. specialize (A HS C B (or_introl B0)).
    destruct (poi_tmu m I F s h i) as [[t u]|], (poi_tmu m I F s0 h i) as [[t' u']|]; cbn; try contradiction; [|congruence]. destruct A as (-> & _ & _ & _ & _ & -> & -> & ->). reflexivity.
Qed.
Print Assumptions C33_history.
Lemma topt_evaluates b l : evaluates (tfit (topt b l)).
Proof.
  intros me obj j x0 bd r H. cbn in H. unfold topt in H. destruct l as [|x l]; [discriminate|]. apply bind_Ok in H as ([|v vs] & _ & H); [discriminate|]. injection H as <-. discriminate.
Qed.
Example C33_nonvacuous : exists I s, set_internal_vars ex_env (tmod (Some 0) (Some 10)) = Ok I /\ NoDup (keys (m_pois (tmod (Some 0) (Some 10)))) /\ suitable (tmod (Some 0) (Some 10)) "scalar" /\
  evaluates (tfit (topt true [3])) /\
  foldM (do_call (tmod (Some 0) (Some 10)) I) [CMin (tfit (topt true [3])) (tp 5); CTmu (tfit (topt true [3])) [("mu", 1)] None] (tmini "scalar") = Ok s /\
  exists t u, opti_tmu (tmod (Some 0) (Some 10)) I (tfit (topt true [3])) s [("mu", 2)] None = Ok (t, u).
Proof.
  destruct (tmod_built (Some 0) (Some 10)) as (I & H & Hp & Hr). exists I. eexists. split; [exact H|]. split; [cbn; repeat constructor; intros []|]. split; [left; unfold nfree; cbn; unfold is_open; cbn; rdec; reflexivity|].
  split; [apply topt_evaluates|]. split.
  - cbn [foldM do_call]. unfold minimize, opti_tmu, poi_tmu, minimize, set_pois_min. rewrite Hp, Hr. ev. reflexivity.
  - eexists _, _. unfold opti_tmu, poi_tmu, set_pois_min. rewrite Hp, Hr. ev. reflexivity.
Qed.

Lemma free_none bs : free_bounds bs = Ok [] -> forall p, mapM (fun ib : nat * ParBound => pars_get p (pb_par (snd ib))) [] = Ok []. Proof. reflexivity. Qed.
(** Refuted: once a minimization was done with all POIs fixed, every later call of the same minimizer fails, whether
    POIs are free or not: the method has been replaced by an unknown one *)
Theorem C33_all_fixed_refuted : forall m I F s bs r s1, mi_init s <> None -> mi_bounds s = Some bs -> (forall k b, In (k, b) bs -> exists x y, pb_min b = Some x /\ pb_max b = Some y /\ y <= x) -> mi_method s <> "" ->
  minimize m I F s None = Ok (r, s1) -> minimize m I F s1 None = Err ValueError /\
  forall F' p ib, set_pois_min m I (Some p) None None false = Ok ib -> (exists q, free_bounds (snd ib) = Ok q) -> exists e, minimize m I F' s1 (Some p) = Err e.
Proof.
  intros m I F s bs r s1 NI HB HF HM H. destruct s as [me ni fl rb al nj vb ii bb n1 n2 n3 n4 n5 n6]. cbn in *. subst bb. destruct ii as [init|]; [|contradiction]. unfold minimize in H. cbn [mi_init mi_bounds bind] in H.
  apply bind_Ok in H as (cur & Hcur & H).
  assert (FB : free_bounds bs = Ok []).
  { unfold free_bounds. assert (G : forall n, mapM (fun ib : nat * ParBound => let! f := is_free (snd ib) in Ok (f, ib)) (combine (seq n (length (values bs))) (values bs)) = Ok (map (fun ib => (false, ib)) (combine (seq n (length (values bs))) (values bs)))).
    { clear -HF. unfold values. induction bs as [|[k b] bs IH]; intros n; [reflexivity|]. cbn [map length seq combine mapM snd]. destruct (HF k b (or_introl eq_refl)) as (x & y & Hx & Hy & L).
      unfold is_free at 1. rewrite Hx, Hy. rewrite (proj2 (Rltb_false x y)) by lra. cbn [bind]. rewrite IH; [reflexivity|]. intros k' b' Hin. apply (HF k' b'). right. exact Hin. }
    unfold enumerate. rewrite G. cbn [bind]. f_equal. generalize (combine (seq 0 (length (values bs))) (values bs)). intros l. induction l; cbn; auto. }
  rewrite FB in H. cbn [bind mapM length Nat.eqb] in H. destruct (String.eqb_spec me ""); [contradiction|]. cbn [negb andb mi_method with_method mi_niter mi_floor] in H.
  destruct (String.eqb_spec me ""); [contradiction|]. cbn [negb] in H. apply bind_Ok in H as ([[d p] v] & _ & H). injection H as <- <-. split.
  - unfold minimize. cbn [with_fit with_method mi_init mi_bounds bind]. rewrite Hcur. cbn [bind]. rewrite FB. cbn. reflexivity.
  - intros F' q ib Hib (fr & Hfr). rewrite minimize_Some, Hib. cbn [bind]. unfold minimize. cbn [with_pois with_fit with_method mi_init mi_bounds bind].
    destruct (pars_clone (fst ib)) as [c2|]; [|cbn; eauto]. cbn [bind]. rewrite Hfr. cbn [bind]. destruct (mapM _ fr) as [x0|]; [|cbn; eauto]. cbn [bind mi_method String.eqb].
    rewrite !andb_false_r. cbn [mi_method]. cbn. eauto.
Qed.
Print Assumptions C33_all_fixed_refuted.
Example C33_all_fixed_nonvacuous : exists I p bs r s1, set_internal_vars ex_env (tmod (Some 0) (Some 10)) = Ok I /\ set_pois_min (tmod (Some 0) (Some 10)) I None None (Some [("mu", 2)]) true = Ok (p, bs) /\
  (forall k b, In (k, b) bs -> exists x y, pb_min b = Some x /\ pb_max b = Some y /\ y <= x) /\ minimize (tmod (Some 0) (Some 10)) I (tfit (topt true [3])) (with_pois (tmini "scalar") (p, bs)) None = Ok (r, s1).
Proof.
  destruct (tmod_built (Some 0) (Some 10)) as (I & H & Hp & Hr). exists I. eexists _, _, _, _. split; [exact H|]. split; [unfold set_pois_min; rewrite Hp, Hr; ev; reflexivity|]. split.
  - intros k b [[= <- <-]|[]]. eexists _, _. split; [reflexivity|]. split; [reflexivity|]. lra.
  - unfold minimize. ev. reflexivity.
Qed.

(** Refuted: a single call with several free POIs replaces the scalar method for all later calls *)
Theorem C33_method_switch_refuted : forall m I F s r s1, mi_method s = "scalar" -> mi_bounds s = Some (model_bounds m) -> mi_init s <> None -> (1 < nfree m)%nat -> minimize m I F s None = Ok (r, s1) -> mi_method s1 = "L-BFGS-B".
Proof.
  intros m I F s r s' HM HB NI HS H. destruct s as [me ni fl rb al nj vb ii bb n1 n2 n3 n4 n5 n6]. cbn in *. subst bb me. destruct ii as [init|]; [|contradiction]. unfold minimize in H. cbn [mi_init mi_bounds bind] in H.
  apply bind_Ok in H as (cur & _ & H). apply bind_Ok in H as (fr & Hfr & H). apply free_bounds_length in Hfr. apply bind_Ok in H as (x0 & Hx & H). apply mapM_Ok_length in Hx.
  rewrite <- Hx in Hfr. rewrite Hfr in H. cbn [mi_method] in H. destruct (Nat.eqb_spec (nfree m) 0) as [E|_]; [lia|]. cbn [andb] in H.
  destruct (Nat.ltb_spec 1 (nfree m)) as [_|]; [|lia]. cbn [andb String.eqb] in H. rewrite String.eqb_refl in H. cbn [with_method mi_method mi_niter mi_floor] in H.
  apply bind_Ok in H as (o & _ & H). apply bind_Ok in H as (s1 & Hs & H).
  assert (A : mi_method s1 = "L-BFGS-B").
  { destruct (rev (o_evals o)); [injection Hs as <-; reflexivity|]. apply bind_Ok in Hs as (h & _ & Hs). apply bind_Ok in Hs as ([[d p] v] & _ & Hs). injection Hs as <-. reflexivity. }
  destruct (o_success o); injection H as <- <-; exact A.
Qed.
Print Assumptions C33_method_switch_refuted.
(** Refuted: the recovery of a negative t_mu by narrowing the range always fails, and the recovery by an alternative
    method changes the minimizer for all later calls *)
Theorem C33_recovery_refuted : exists I s', set_internal_vars ex_env (tmod (Some 0) (Some 10)) = Ok I /\
  opti_tmu (tmod (Some 0) (Some 10)) I (tfit (topt true [4])) (mini_init "scalar" 1 None 1 None false 0) [("mu", 3)] None = Err TypeError /\
  opti_tmu (tmod (Some 0) (Some 10)) I (tfit (topt true [4])) (mini_init "scalar" 1 None 0 (Some "L-BFGS-B") false 0) [("mu", 3)] None = Ok (Fin 0, s') /\ mi_method s' = "L-BFGS-B" /\ mi_alt s' = None.
Proof.
  destruct (tmod_built (Some 0) (Some 10)) as (I & H & Hp & Hr). exists I. eexists. split; [exact H|]. split; [|split].
  - unfold opti_tmu, poi_tmu, set_pois_min. rewrite Hp, Hr. ev. reflexivity.
  - unfold opti_tmu, poi_tmu, set_pois_min. rewrite Hp, Hr. ev. reflexivity.
  - split; reflexivity.
Qed.
Print Assumptions C33_recovery_refuted.

(** ** C70: the reported parameters are those of the reported likelihood *)

(** [at_result o]: the last point the routine evaluates is the one it returns, with its value *)
Definition at_result (o : optimizer) : Prop := forall me obj j x0 b r, o me obj j x0 b = Ok r -> (exists l, o_evals r = l ++ [o_x r]) /\ obj (o_x r) = Ok (o_fun r).
(** If profiling reports the likelihood of the parameters it returns, and the optimization ends at its result, the
    best-fit likelihood is that of the best-fit parameters *)
Theorem C70_parameters_match_likelihood : forall m I F nllf s init v s', (forall k fl h d p x, f_prof F k fl h = Ok (d, p, x) -> nllf p = x) -> at_result (f_opt F) ->
  minimize m I F s init = Ok (RNll v, s') -> exists p, mi_min_pars s' = Some p /\ nllf p = v /\ mi_min_nll s' = Some v.
Proof.
  intros m I F nllf s init v s' HP HO H. unfold minimize in H. apply bind_Ok in H as (s1 & _ & H). destruct (mi_init s1) as [ini|]; [|discriminate]. destruct (mi_bounds s1) as [bs|]; [|discriminate].
  apply bind_Ok in H as (cur & _ & H). apply bind_Ok in H as (fr & _ & H). apply bind_Ok in H as (x0 & _ & H). destruct (_ && _)%bool.
  - apply bind_Ok in H as ([[d p] v'] & Hf & H). injection H as <- <-. exists p. split; [reflexivity|]. split; [apply (HP _ _ _ _ _ _ Hf)|reflexivity].
  - apply bind_Ok in H as (r & Hr & H). apply bind_Ok in H as (s3 & Hs & H). destruct (o_success r); [|discriminate]. injection H as <- <-.
    match type of Hs with context [mi_niter ?x] => set (sx := x) in * end.
    assert (G : (exists l, o_evals r = l ++ [o_x r]) /\ (let! h := update_hypo cur (map fst fr) (o_x r) in let! (d, p, v) := f_prof F (mi_niter sx) (mi_floor sx) h in Ok v) = Ok (o_fun r)).
    { clear -Hr HO. repeat (match type of Hr with (if ?c then _ else _) = _ => destruct c | match ?c with _ => _ end = _ => destruct c end; try discriminate); exact (HO _ _ _ _ _ _ Hr). }
    destruct G as ((l & El) & Eo). rewrite El, rev_app_distr in Hs. cbn [rev app] in Hs.  apply bind_Ok in Hs as (h & Hh & Hs). rewrite Hh in Eo. cbn [bind] in Eo.
    apply bind_Ok in Hs as ([[d p] x] & Hf & Hs). rewrite Hf in Eo. cbn [bind] in Eo. injection Eo as Eo. injection Hs as <-. exists p. cbn. split; [reflexivity|]. split; [|reflexivity].
    rewrite <- Eo. apply (HP _ _ _ _ _ _ Hf).
Qed.
Print Assumptions C70_parameters_match_likelihood.
Example C70_nonvacuous : exists I v s', set_internal_vars ex_env (tmod (Some 0) (Some 10)) = Ok I /\ at_result (f_opt (tfit (topt true [3]))) /\
  minimize (tmod (Some 0) (Some 10)) I (tfit (topt true [3])) (tmini "scalar") None = Ok (RNll v, s').
Proof.
  destruct (tmod_built (Some 0) (Some 10)) as (I & H & Hp & Hr). exists I. eexists _, _. split; [exact H|]. split.
  - intros me obj j x0 b r E. cbn in E. unfold topt in E. cbn [mapM] in E. destruct (obj [3]) as [v|] eqn:Eo; [|discriminate]. cbn in E. injection E as <-. cbn. split; [exists []; reflexivity|exact Eo].
  - unfold minimize, set_pois_min. rewrite Hp, Hr. ev. reflexivity.
Qed.
(** Refuted: when the routine evaluates another point after the one it returns (as a numerical gradient or a bracketing
    search does), the best-fit parameters are those of that other point *)
Theorem C70_last_evaluation_refuted : exists I v s' p x, set_internal_vars ex_env (tmod (Some 0) (Some 10)) = Ok I /\
  minimize (tmod (Some 0) (Some 10)) I (tfit (topt true [3; 9])) (tmini "scalar") None = Ok (RNll (Fin v), s') /\ v = 0 /\ mi_min_pars s' = Some p /\ pois p = [9] /\
  f_prof (tfit (topt true [3; 9])) 1 None p = Ok (None, p, Fin x) /\ x <> v.
Proof.
  destruct (tmod_built (Some 0) (Some 10)) as (I & H & Hp & Hr). exists I. eexists _, _, _, _. split; [exact H|]. split; [unfold minimize, set_pois_min; rewrite Hp, Hr; ev; reflexivity|].
  split; [ring|]. split; [reflexivity|]. split; [reflexivity|]. split; [reflexivity|]. cbn. lra.
Qed.
Print Assumptions C70_last_evaluation_refuted.
(** Refuted: the conjugate-gradient method cannot be used with a positive verbosity *)
Theorem C70_cg_verbose_refuted : exists I, set_internal_vars ex_env (tmod (Some 0) (Some 10)) = Ok I /\ forall F, minimize (tmod (Some 0) (Some 10)) I F (mini_init "CG" 1 None 0 None false 1) None = Err UnboundLocalError.
Proof.
  destruct (tmod_built (Some 0) (Some 10)) as (I & H & Hp & Hr). exists I. split; [exact H|]. intros F. unfold minimize, set_pois_min. rewrite Hp, Hr. ev. reflexivity.
Qed.
Print Assumptions C70_cg_verbose_refuted.
