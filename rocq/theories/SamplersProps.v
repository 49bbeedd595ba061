(** C47, C71: production of pseudo-experiments. *)
From Verif Require Import Py PyFacts Base Expressions Norms Sample Channels Params ParamsFacts Core CoreFacts CoreExample NpMin NpMinFacts NpMinProps PoiMin PoiMinFacts Samplers.
Local Open Scope string_scope.
Local Open Scope list_scope.

(** the values of the first [n] computations that succeeded *)
Definition successes (out : stream) (n : nat) : list R := flat_map (fun k => match out k with Some r => [r] | None => [] end) (seq 0 n).
Lemma successes_S out n : successes out (S n) = successes out n ++ match out n with Some r => [r] | None => [] end.
Proof. unfold successes. rewrite seq_S, flat_map_app. cbn. rewrite app_nil_r. reflexivity. Qed.

Lemma attempts_spec fuel out mt : forall tries total r t, attempts fuel out mt tries total = Some (r, t) -> (total < t)%nat /\ successes out t = successes out total ++ [r] /\ out (pred t) = Some r.
Proof.
  induction fuel as [|f IH]; intros tries total r t H; [discriminate|]. cbn [attempts] in H. destruct (out total) as [x|] eqn:E.
  - injection H as <- <-. split; [lia|]. rewrite successes_S, E. auto.
  - assert (H' : attempts f out mt (S tries) (S total) = Some (r, t)) by (destruct (S tries <? mt)%nat; exact H). destruct (IH _ _ _ _ H') as (A & B & C). split; [lia|].
    rewrite successes_S, E, app_nil_r in B. auto.
Qed.
Lemma toys_spec fuel out mt n : forall total l t, toys fuel out mt n total = Some (l, t) -> length l = n /\ (total <= t)%nat /\ successes out t = successes out total ++ l /\ (n = 0%nat -> t = total) /\ (n <> 0%nat -> out (pred t) <> None).
Proof.
  induction n as [|n IH]; intros total l t H; cbn in H; [injection H as <- <-; rewrite app_nil_r; repeat split; auto; intros; congruence|].
  destruct (attempts fuel out mt 0 total) as [[r t1]|] eqn:E; [|discriminate]. destruct (toys fuel out mt n t1) as [[l' t']|] eqn:E2; [|discriminate]. injection H as <- <-.
  destruct (attempts_spec _ _ _ _ _ _ _ E) as (A & B & C). destruct (IH _ _ _ E2) as (D & F & G & H1 & H2). split; [cbn; lia|]. split; [lia|]. split; [rewrite G, B, <- app_assoc; reflexivity|].
  split; [intros; lia|]. intros _. destruct n as [|n]; [rewrite H1 by reflexivity; congruence|apply H2; lia].
Qed.

(** A run that ends gives exactly the requested number of values: the results of the first successful computations, in
    order, none dropped or repeated, and it stops at the last of them *)
Theorem C47_values_are_the_first_successes : forall fuel s out n l t, generate fuel s out n = Ok (Some (l, t)) -> length l = n /\ successes out t = l /\ (forall k, (k < t)%nat -> n <> 0%nat -> (length (successes out k) < n)%nat).
Proof.
  intros fuel s out n l t H. unfold generate in H. destruct (_ && _)%bool; [discriminate|]. injection H as H. destruct (toys_spec _ _ _ _ _ _ _ H) as (A & B & C & D & E). cbn in C. split; [exact A|]. split; [exact C|].
  intros k Hk Hn. assert (L : forall a b, (a <= b)%nat -> (length (successes out a) <= length (successes out b))%nat).
  { intros a b Hab. induction Hab; [lia|]. rewrite successes_S, app_length. lia. }
  pose proof (L k (pred t) ltac:(lia)) as L1. specialize (E Hn). assert (T : t = S (pred t)) by lia. rewrite T, successes_S in C. destruct (out (pred t)); [|contradiction].
  apply (f_equal (@length R)) in C. rewrite app_length in C. cbn in C. lia.
Qed.
Print Assumptions C47_values_are_the_first_successes.

Lemma attempts_total out mt : forall d tries total, out (total + d)%nat <> None -> exists r t, forall fuel, (d < fuel)%nat -> attempts fuel out mt tries total = Some (r, t) /\ (t <= S (total + d))%nat.
Proof.
  induction d as [|d IH]; intros tries total H.
  - rewrite Nat.add_0_r in H. destruct (out total) as [r|] eqn:E; [|contradiction]. exists r, (S total). intros [|f] Hf; [lia|]. cbn. rewrite E. split; [reflexivity|lia].
  - destruct (out total) as [r|] eqn:E.
    + exists r, (S total). intros [|f] Hf; [lia|]. cbn. rewrite E. split; [reflexivity|lia].
    + destruct (IH (S tries) (S total)) as (r & t & Hr); [rewrite Nat.add_succ_comm; exact H|]. exists r, t. intros [|f] Hf; [lia|]. cbn [attempts]. rewrite E. destruct (Hr f) as (A & B); [lia|].
      split; [destruct (S tries <? mt)%nat; exact A|lia].
Qed.
Lemma toys_total out mt n : forall total T, (length (successes out T) >= length (successes out total) + n)%nat -> (total <= T)%nat -> exists l t, toys (S T) out mt n total = Some (l, t) /\ (t <= T)%nat.
Proof.
  induction n as [|n IH]; intros total T HT L; [cbn; eauto|].
  assert (X : exists d, (total + d < T)%nat /\ out (total + d)%nat <> None /\ forall j, (j < d)%nat -> out (total + j)%nat = None).
  { clear IH. remember (T - total)%nat as k eqn:Ek. revert total L HT Ek. induction k as [|k IHk]; intros total L HT Ek; [assert (T = total) by lia; subst; lia|].
    destruct (out total) as [r|] eqn:E; [exists 0%nat; rewrite Nat.add_0_r, E; repeat split; try discriminate; intros; lia|].
    destruct (IHk (S total)) as (d & A & B & C); [lia|rewrite successes_S, E, app_nil_r; exact HT|lia|]. exists (S d). rewrite <- Nat.add_succ_comm. split; [exact A|]. split; [exact B|].
    intros [|j] Hj; [rewrite Nat.add_0_r; exact E|]. rewrite <- Nat.add_succ_comm. apply C. lia. }
  destruct X as (d & A & B & C). destruct (attempts_total out mt d 0 total B) as (r & t & Hr). destruct (Hr (S T)) as (E & F); [lia|]. cbn [toys]. rewrite E. destruct (attempts_spec _ _ _ _ _ _ _ E) as (G & H & _).
  destruct (IH t T) as (l & t' & E2 & L2); [rewrite H, app_length; cbn; lia|lia|]. rewrite E2. eauto.
Qed.
(** Failed computations are retried as long as needed: the run ends as soon as the requested number of successes has
    occurred *)
Theorem C47_terminates_with_enough_successes : forall s out n T, sm_has_debug s = true -> (n <= length (successes out T))%nat -> exists fuel l t, generate fuel s out n = Ok (Some (l, t)) /\ (t <= T)%nat.
Proof.
  intros s out n T Hd H. exists (S T). unfold generate. rewrite Hd. cbn [negb]. rewrite andb_false_r. destruct (toys_total out (sm_max_tries s) n 0 T) as (l & t & E & L); [cbn; lia|lia|]. rewrite E. eauto.
Qed.
Print Assumptions C47_terminates_with_enough_successes.
Example C47_nonvacuous : exists l t, generate 5 (opti_sampler 3) (fun k => match k with 1%nat => Some (1/2) | 4%nat => Some (1/3) | _ => None end) 2 = Ok (Some (l, t)) /\ l = [1/2; 1/3] /\ t = 5%nat.
Proof. eexists _, _. split; [reflexivity|]. split; reflexivity. Qed.

(** Refuted: the maximum number of tries is ignored.  Whatever it is, when the computations keep failing before the
    requested number of successes, no amount of time is enough. *)
Theorem C47_gives_up_refuted : forall mt s out n, sm_max_tries s = mt -> sm_has_debug s = true -> (forall T, (length (successes out T) < n)%nat) -> forall fuel, generate fuel s out n = Ok None.
Proof.
  intros mt s out n _ Hd H fuel. unfold generate. rewrite Hd. cbn [negb]. rewrite andb_false_r. f_equal. destruct (toys fuel out (sm_max_tries s) n 0) as [[l t]|] eqn:E; [|reflexivity].
  destruct (toys_spec _ _ _ _ _ _ _ E) as (A & _ & B & _). cbn in B. specialize (H t). rewrite B, A in H. lia.
Qed.
Print Assumptions C47_gives_up_refuted.
Example C47_gives_up_nonvacuous : (forall T, (length (successes (fun _ => None) T) < 1)%nat) /\ sm_has_debug (opti_sampler 2) = true.
Proof. split; [|reflexivity]. intros T. unfold successes. induction (seq 0 T); cbn; auto. Qed.
(** Refuted: the maximum given to the optimizing sampler is not even stored, and the two other samplers always fail *)
Theorem C47_samplers_refuted : (forall k, sm_max_tries (opti_sampler k) = 20%nat) /\ forall fuel out n, generate fuel scan_sampler out (S n) = Err AttributeError /\ generate fuel limit_sampler out (S n) = Err AttributeError.
Proof. split; [reflexivity|]. intros; split; reflexivity. Qed.
Print Assumptions C47_samplers_refuted.

(** ** C71: bounds on the best-fit parameters *)

(** A toy is kept exactly when the profile likelihood ratio is not negative and every bound accepts both sets of values
    it is given *)
Definition passes (b : ParBound) (p : Params) : Prop := match pars_get p (pb_par b) with Ok v => within b v | Err KeyError => True | Err _ => False end.
Theorem C71_kept_toys_pass_the_tests : forall bounds pv tmu fd hd r, opti_compute bounds pv tmu fd hd = Ok (Some r) -> pv tmu = Ok r /\ (forall x, tmu = Fin x -> 0 <= x) /\ forall b, In b bounds -> passes b fd /\ passes b hd.
Proof.
  intros bounds pv tmu fd hd r H. unfold opti_compute in H. destruct (eltb tmu 0) eqn:E; [discriminate|]. apply bind_Ok in H as (ok & Hb & H). destruct ok; [|discriminate]. apply bind_Ok in H as (p & Hp & H). injection H as <-.
  split; [exact Hp|]. split; [intros x ->; cbn in E; apply Rltb_false in E; exact E|].
  assert (PT : forall b p, pb_test b p = Ok true -> passes b p).
  { intros b q Hq. unfold pb_test in Hq. unfold passes. destruct (pars_get q (pb_par b)) as [v|[]]; try discriminate; auto. injection Hq as Hq. apply test_value_within, Hq. }
  clear -Hb PT. induction bounds as [|c l IH]; intros b Hin; [destruct Hin|]. cbn in Hb. apply bind_Ok in Hb as (x & Hx & Hb). destruct x; [|discriminate]. cbn in Hb. apply bind_Ok in Hb as (y & Hy & Hb). destruct y; [|discriminate]. cbn in Hb.
  destruct Hin as [->|Hin]; [split; apply PT; assumption|apply IH; assumption].
Qed.
Print Assumptions C71_kept_toys_pass_the_tests.
Theorem C71_failing_toys_are_dropped : forall bounds pv tmu fd hd b, In b bounds -> (forall c, In c bounds -> exists x y, pars_get fd (pb_par c) = Ok x /\ pars_get hd (pb_par c) = Ok y) ->
  (~ passes b fd \/ ~ passes b hd) -> opti_compute bounds pv tmu fd hd = Ok None.
Proof.
  intros bounds pv tmu fd hd b Hb HG Hn. unfold opti_compute. destruct (eltb tmu 0); [reflexivity|].
  assert (G : test_bounds bounds fd hd = Ok false).
  { induction bounds as [|c l IH]; [destruct Hb|]. cbn. destruct (HG c (or_introl eq_refl)) as (x & y & Hx & Hy). unfold pb_test. rewrite Hx. cbn [bind]. destruct (test_value c x) eqn:E1; cbn [negb]; [|reflexivity].
    rewrite Hy. cbn [bind]. destruct (test_value c y) eqn:E2; cbn [negb]; [|reflexivity]. destruct Hb as [->|Hb].
    - exfalso. apply test_value_within in E1, E2. unfold passes in Hn. rewrite Hx, Hy in Hn. tauto.
    - apply IH; [exact Hb|intros; apply HG; right; assumption]. }
  rewrite G. reflexivity.
Qed.
Print Assumptions C71_failing_toys_are_dropped.

(** Refuted: what is tested is not the best fit but the shift of the NPs, with the opposite sign: a best-fit value 1 is
    rejected by the bound [0, 2] and accepted by [-2, 0] *)
Theorem C71_bounds_test_the_shifts_refuted : exists I dl mp, set_internal_vars ex_env (gmod false true 1 (Some 1)) = Ok I /\ profile gsolve (gmod false true 1 (Some 1)) I gdata (HPars (ghypo 0)) = Ok (dl, mp) /\
  pars_get mp "a" = Ok 1 /\ (forall pv tmu, opti_compute [mkPB "a" (Some 0) (Some 2)] pv tmu dl dl = Ok None) /\
  (forall pv x, 0 <= x -> opti_compute [mkPB "a" (Some (-2)) (Some 0)] pv (Fin x) dl dl = (let! p := pv (Fin x) in Ok (Some p))).
Proof.
  destruct (gmod_built false true 1 (Some 1) (or_intror eq_refl)) as (I & H & _ & _ & _ & Hp & _). destruct (g_profile false 1 (Some 1) I 0 (or_intror eq_refl) H) as (dl & mp & Hpr & Hpo & Hm).
  rewrite (proj2 (Rltb_false _ _)) in Hm by (cbn [gcons]; rewrite Rabs_right; lra). cbn [gcons] in Hm. replace (0 - _) with 1 in Hm by field.
  assert (Hl : length (nps (ghypo 0)) = length (pm_nps (i_pm I))) by (rewrite Hp; reflexivity).
  destruct (C30_profile_keeps_pois _ _ _ _ _ _ _ Hl Hpr) as (_ & _ & _ & D). specialize (D 0%nat ltac:(cbn; lia)). rewrite Hm in D. cbn in D.
  destruct (profile_inv gsolve (gmod false true 1 (Some 1)) I gdata (ghypo 0) dl mp Hl Hpr) as (_ & _ & _ & _ & _ & _ & _ & Lm & Ld & Em & Ed & _).
  assert (Gd : pars_get dl "a" = Ok (-1)).
  { unfold pars_get. rewrite Ed, Hp. cbn. unfold lget. rewrite Hp in Ld. cbn in Ld. destruct (nps dl) as [|z [|? ?]]; cbn in Ld; try lia. cbn in D. cbn. f_equal. lra. }
  exists I, dl, mp. split; [exact H|]. split; [exact Hpr|]. split; [|split].
  - unfold pars_get. rewrite Em, Hp. cbn. rewrite Hm. reflexivity.
  - intros pv tmu. apply (C71_failing_toys_are_dropped _ _ _ _ _ (mkPB "a" (Some 0) (Some 2))); [left; reflexivity| |].
    + intros c [<-|[]]. exists (-1), (-1). auto.
    + left. unfold passes. cbn [pb_par]. rewrite Gd. intros [W _]. specialize (W 0 eq_refl). lra.
  - intros pv x Hx. unfold opti_compute. cbn [eltb]. rewrite (proj2 (Rltb_false x 0)) by lra. cbn [test_bounds]. unfold pb_test. cbn [pb_par]. rewrite Gd. cbn [bind]. unfold test_value. cbn [pb_min pb_max]. rdec. reflexivity.
Qed.
Print Assumptions C71_bounds_test_the_shifts_refuted.
