(** Property theorems about parameter vectors: C25, C26. *)
From Verif Require Import Py PyFacts Base BaseFacts ChannelFacts Params ParamsFacts.
Local Open Scope string_scope.
Local Open Scope list_scope.

Definition ex_pm : PModel := mkPM ["mu"; "nu"] [("a", 1, 2); ("b", 0, 1 / 2)].
Definition ex_pars : Params := mkPars [1; 2] [3; 4] (Some ex_pm).
Example ex_pars_built : pars_init (PIDict [("nu", Some 2); ("other", Some 7); ("mu", Some 1)]) (NIArr [3; 4]) (Some ex_pm) = Ok ex_pars.
Proof. reflexivity. Qed.

(** C25: whatever the inputs, a parameter vector built for a model has the sizes of the model *)
Theorem C25_built_vectors_have_model_sizes : forall p n m q, pars_init p n (Some m) = Ok q ->
  pmod q = Some m /\ length (pois q) = length (pm_pois m) /\ length (nps q) = length (pm_nps m).
Proof. exact pars_init_sizes. Qed.
Print Assumptions C25_built_vectors_have_model_sizes.

(** C25: built from a dictionary, every POI has the value given for it (in any order, other keys are ignored), and the
    NPs are zero when they are not given *)
Theorem C25_built_from_dict : forall d m, NoDup (pm_pois m) -> NoDup (keys d) ->
  ((forall n, In n (pm_pois m) -> exists x, dget n d = Some (Some x)) ->
   exists q, pars_init (PIDict d) NINone (Some m) = Ok q /\ nps q = repeat 0 (length (pm_nps m)) /\
     forall n x, In n (pm_pois m) -> dget n d = Some (Some x) -> pars_get q n = Ok x) /\
  ((exists n, In n (pm_pois m) /\ (dget n d = None \/ dget n d = Some None)) -> forall nn,
     pars_init (PIDict d) nn (Some m) = Err ValueError).
Proof.
  intros d m HN HK.
  assert (forall i n, nth_error (pm_pois m) i = Some n ->
     nth i (fill_arr (pm_pois m) d (repeat None (length (pm_pois m)))) None = match dget n d with Some v => v | None => None end) as HF.
  { intros i n Hn. rewrite (fill_arr_nth _ d HN HK _ i n) by (auto; apply repeat_length). destruct (dget n d); [reflexivity|]. apply nth_repeat. }
  pose proof (all_some_spec (fill_arr (pm_pois m) d (repeat None (length (pm_pois m))))) as HS.
  pose proof (fill_arr_length (pm_pois m) d (repeat None (length (pm_pois m)))) as HL. rewrite repeat_length in HL.
  split.
  - intros Hall. unfold pars_init, pois_from_dict. fold (fill_arr (pm_pois m) d (repeat None (length (pm_pois m)))).
    destruct (all_some _) as [r|].
    + assert (length r = length (pm_pois m)) as Hr by (rewrite HS, map_length in HL; exact HL).
      cbn [bind]. rewrite (proj2 (Nat.eqb_eq _ _) Hr). cbn [bind]. rewrite repeat_length, Nat.eqb_refl. cbn [bind].
      eexists; split; [reflexivity|]. split; [reflexivity|]. intros n x Hin Hx.
      unfold pars_get; cbn [pmod pois]. destruct (proj2 (index_In n _) Hin) as [i Hi]. rewrite Hi. unfold lget.
      specialize (HF i n (index_nth _ _ _ Hi)). rewrite Hx, HS in HF.
      assert (i < length r)%nat as Hlt by (apply index_lt in Hi; lia).
      rewrite (nth_map_lt Some r i 0) in HF by exact Hlt. rewrite (nth_error_nth' r 0 Hlt). congruence.
    + exfalso. apply (In_nth _ _ None) in HS as (i & Hi & He). rewrite HL in Hi.
      destruct (nth_error_length _ _ Hi) as [n Hn]. rewrite (HF i n Hn) in He.
      destruct (Hall n (nth_error_In _ _ Hn)) as [x Hx]. rewrite Hx in He. discriminate.
  - intros (n & Hin & Hbad) nn. unfold pars_init, pois_from_dict. fold (fill_arr (pm_pois m) d (repeat None (length (pm_pois m)))).
    destruct (all_some _) as [r|]; [exfalso|reflexivity].
    destruct (proj2 (index_In n _) Hin) as [i Hi]. specialize (HF i n (index_nth _ _ _ Hi)).
    rewrite HS in HF, HL. rewrite map_length in HL. assert (i < length r)%nat as Hlt by (apply index_lt in Hi; lia).
    rewrite (nth_map_lt Some r i 0) in HF by exact Hlt. destruct Hbad as [-> | ->] in HF; discriminate.
Qed.
Print Assumptions C25_built_from_dict.

(** C25: setting a known parameter always works, is read back unchanged, and changes no other parameter *)
Theorem C25_set_get : forall p m par v, wf p m -> In par (pm_pois m ++ np_names m) ->
  exists q, pars_set p par v false = Ok q /\ wf q m /\ pars_get q par = Ok v /\
    forall other, other <> par -> pars_get q other = pars_get p other.
Proof.
  intros p m par v Hw Hin. pose proof (pars_set_spec p m par v false Hw) as S.
  assert (stored m par v false = Ok v) as E; [|rewrite E in S; exact S].
  unfold stored. destruct (index par (pm_pois m)) eqn:Hi; [reflexivity|].
  destruct (index par (np_names m)) as [i|] eqn:Hj; [destruct (nth i (pm_nps m) _) as [[? ?] ?]; reflexivity|].
  apply index_None in Hi, Hj. apply in_app_or in Hin as [F|F]; contradiction.
Qed.
Print Assumptions C25_set_get.

Example C25_nonvacuous : wf ex_pars ex_pm /\ In "b" (pm_pois ex_pm ++ np_names ex_pm).
Proof. split; [repeat split|cbn; tauto]. Qed.

(** C25: an NP given by its physical value is read back as that physical value *)
Theorem C25_set_get_unscaled : forall p m par v i nom var, wf p m -> ~ In par (pm_pois m) -> index par (np_names m) = Some i ->
  nth_error (pm_nps m) i = Some (par, nom, var) -> var <> 0 ->
  exists q, pars_set p par v true = Ok q /\ wf q m /\ pars_unscaled q par = Ok v /\
    forall other, other <> par -> pars_get q other = pars_get p other.
Proof.
  intros p m par v i nom var Hw Hnp Hi Hnth Hv. pose proof (pars_set_spec p m par v true Hw) as S.
  unfold stored in S. rewrite (proj2 (index_None _ _) Hnp), Hi, (nth_error_nth _ _ ("", 0, 0) Hnth) in S.
  destruct (scaled_value nom var v) as [x|e] eqn:E.
  - destruct S as (q & Hs & Hq & Hg & Ho). exists q. split; [exact Hs|]. split; [exact Hq|]. split; [|exact Ho].
    unfold pars_unscaled. rewrite (proj1 Hq), Hi, (nth_error_nth _ _ ("", 0, 0) Hnth), Hg. cbn [bind]. f_equal. eapply unscaled_scaled; eauto.
  - unfold scaled_value in E. rewrite (proj2 (Reqb_false _ _) Hv) in E. discriminate.
Qed.
Print Assumptions C25_set_get_unscaled.

(** C25: NPs that are not given are 0, and those given are taken as they are *)
Theorem C25_missing_nps_are_zero : forall p n m q, pars_init p n (Some m) = Ok q ->
  ((n = NINone \/ n = NIArr []) -> nps q = repeat 0%R (length (pm_nps m))) /\ (forall x l, n = NIArr (x :: l) -> nps q = x :: l) /\
  (forall l, p = PIList l -> pois q = l) /\ (forall x, p = PINum x -> pois q = repeat x (length (pm_pois m))).
Proof.
  intros p n m q H. unfold pars_init in H. apply bind_Ok in H as (ps & Hp & H). apply bind_Ok in H as (u1 & _ & H). apply bind_Ok in H as (ns & Hn & H). apply bind_Ok in H as (u2 & _ & H).
  inversion H; subst q; clear H. cbn [nps pois]. split; [|split; [|split]].
  - intros [-> | ->]; now inversion Hn.
  - intros x l ->. now inversion Hn.
  - intros l ->. now inversion Hp.
  - intros x ->. now inversion Hp.
Qed.
Print Assumptions C25_missing_nps_are_zero.
Example C25_missing_nps_nonvacuous : exists q, pars_init (PINum 2%R) NINone (Some ex_pm) = Ok q /\ (0 < length (nps q))%nat.
Proof. eexists. split; [reflexivity|]. cbn. lia. Qed.

(** C25: the membership test answers yes for the POIs and the NPs of the model, and only for them *)
Theorem C25_contains : forall p m par, pmod p = Some m -> exists b, pars_contains p par = Ok b /\ (b = true <-> In par (pm_pois m ++ np_names m)).
Proof.
  intros p m par H. unfold pars_contains. rewrite H. eexists. split; [reflexivity|]. rewrite orb_true_iff, in_app_iff, !existsb_exists.
  assert (X : forall l, (exists x, In x l /\ String.eqb par x = true) <-> In par l).
  { intros l. split; [intros (x & Hx & E); apply String.eqb_eq in E; now subst|]. intros Hi. exists par. split; [exact Hi|apply String.eqb_refl]. }
  now rewrite !X.
Qed.
Print Assumptions C25_contains.

(** C25: unknown names are rejected, for reading and for writing *)
Theorem C25_unknown_rejected : forall p m par v u, wf p m -> ~ In par (pm_pois m ++ np_names m) ->
  pars_get p par = Err KeyError /\ pars_set p par v u = Err KeyError.
Proof.
  intros p m par v u (Hm & _) H. rewrite in_app_iff in H.
  assert (index par (pm_pois m) = None) as H1 by (apply index_None; tauto).
  assert (index par (np_names m) = None) as H2 by (apply index_None; tauto).
  unfold pars_get, pars_set. rewrite Hm, H1, H2. split; reflexivity.
Qed.
Print Assumptions C25_unknown_rejected.

(** C25 for every history of assignments: the value of a parameter is the last one assigned to it, or the original one *)
Fixpoint last_assigned (par : string) (ops : list (string * R)) (x : option R) : option R :=
  match ops with [] => x | (k, v) :: ops' => last_assigned par ops' (if String.eqb par k then Some v else x) end.
Theorem C25_any_assignment_history : forall ops p m, wf p m ->
  (forall k v, In (k, v) ops -> In k (pm_pois m ++ np_names m)) ->
  exists q, foldM (fun s kv => pars_set s (fst kv) (snd kv) false) ops p = Ok q /\ wf q m /\
    forall par, pars_get q par = match last_assigned par ops None with Some v => Ok v | None => pars_get p par end.
Proof.
  assert (forall ops par x, last_assigned par ops x = match last_assigned par ops None with Some v => Some v | None => x end) as HL.
  { induction ops as [|[k v] ops IH]; intros par x; cbn; [reflexivity|]. rewrite IH. rewrite (IH par (if String.eqb par k then Some v else None)).
    destruct (last_assigned par ops None), (String.eqb par k); reflexivity. }
  induction ops as [|[k v] ops IH]; intros p m Hw H; cbn [foldM fst snd].
  - exists p. auto.
  - destruct (C25_set_get p m k v Hw (H k v (or_introl eq_refl))) as (q & -> & Hq & Hg & Ho). cbn [bind].
    destruct (IH q m Hq) as (r & Hr & Hwr & Hget); [intros; eapply H; right; eauto|].
    exists r. split; [exact Hr|]. split; [exact Hwr|]. intros par. rewrite Hget. cbn [last_assigned].
    rewrite (HL ops par (if String.eqb par k then Some v else None)). destruct (last_assigned par ops None); [reflexivity|].
    destruct (String.eqb_spec par k) as [->|Hne]; [exact Hg|now apply Ho].
Qed.
Print Assumptions C25_any_assignment_history.

(** A copy has the same values and its own storage (values are immutable in the model) *)
Theorem C25_clone : forall p m, wf p m -> pars_clone p = Ok p.
Proof.
  intros [ps ns pm] m (Hm & Hp & Hn). cbn in *. subst pm. unfold pars_clone, pars_init; cbn [pois nps pmod].
  cbn [bind]. rewrite (proj2 (Nat.eqb_eq _ _) Hp). cbn [bind]. destruct ns as [|x ns]; cbn [bind].
  - destruct (pm_nps m); [reflexivity|discriminate].
  - rewrite (proj2 (Nat.eqb_eq _ _) Hn). reflexivity.
Qed.
Print Assumptions C25_clone.

(** The documentation says NPs can be given as a single number: with a model this always fails *)
Theorem C25_np_number_refuted : forall ps x m, length ps = length (pm_pois m) ->
  pars_init (PIList ps) (NINum x) (Some m) = Err AttributeError.
Proof. intros ps x m H. unfold pars_init. cbn [bind]. rewrite (proj2 (Nat.eqb_eq _ _) H). reflexivity. Qed.
Print Assumptions C25_np_number_refuted.

(** C26: writing parameters to a dictionary and setting another vector from it with the same scaling convention gives
    the same parameters, for scaled and for physical NP values *)
Theorem C26_dict_roundtrip : forall p q m unscaled, wf p m -> wf q m -> NoDup (pm_pois m ++ np_names m) ->
  (unscaled = true -> forall nm nom var, In (nm, nom, var) (pm_nps m) -> var <> 0) ->
  exists d, pars_dict p false unscaled false = Ok d /\ set_from_dict q d unscaled = Ok p.
Proof.
  intros p q m u Hp Hq HN Hv. eexists; split; [unfold pars_dict; rewrite (proj1 Hp); reflexivity|].
  now apply dict_set_roundtrip.
Qed.
Print Assumptions C26_dict_roundtrip.

Example C26_nonvacuous : exists d, pars_dict ex_pars false true false = Ok d /\
  set_from_dict (mkPars [0; 0] [0; 0] (Some ex_pm)) d true = Ok ex_pars.
Proof.
  apply (C26_dict_roundtrip _ _ ex_pm).
  - repeat split.
  - repeat split.
  - cbn. repeat constructor; cbn; intuition discriminate.
  - intros _ nm nom var [[= <- <- <-]|[[= <- <- <-]|[]]]; lra.
Qed.

(** C26: what the dictionary holds: POI values as they are, NP values in the requested scale, zero pulls (nominal
    values) when nominal NPs are requested *)
Theorem C26_dict_values : forall p m par, wf p m -> NoDup (pm_pois m ++ np_names m) -> In par (pm_pois m ++ np_names m) ->
  (exists d x, pars_dict p false false false = Ok d /\ pars_get p par = Ok x /\ dget par d = Some x) /\
  (forall i nom var x, index par (np_names m) = Some i -> nth_error (pm_nps m) i = Some (par, nom, var) -> pars_get p par = Ok x ->
     (exists d, pars_dict p false true false = Ok d /\ dget par d = Some (nom + x * var)) /\
     (exists d, pars_dict p true true false = Ok d /\ dget par d = Some nom)) /\
  (forall x, In par (pm_pois m) -> pars_get p par = Ok x -> exists d, pars_dict p true true false = Ok d /\ dget par d = Some x).
Proof.
  intros p m par Hw HN Hin. split; [|split].
  - destruct (pars_dict_plain_get p m false par Hw HN Hin) as (v & x & A & B & C & _).
    exists (pars_dict_plain m (pois p) (nps p) false false), x. unfold pars_dict. rewrite (proj1 Hw).
    repeat split; auto. now rewrite <- (C eq_refl).
  - intros i nom var x Hi Hnp Hx. split.
    + destruct (pars_dict_plain_get p m true par Hw HN Hin) as (v & x' & A & B & _ & C).
      destruct (C eq_refl) as [_ D]. eexists. unfold pars_dict. rewrite (proj1 Hw). split; [reflexivity|].
      rewrite A. f_equal. rewrite (D i nom var Hi Hnp). unfold unscaled_value. congruence.
    + unfold pars_dict. rewrite (proj1 Hw).
      set (q := mkPars (pois p) (repeat 0 (length (pm_nps m))) (Some m)).
      assert (pars_init (PIList (pois p)) NINone (Some m) = Ok q) as ->.
      { unfold pars_init. cbn [bind]. rewrite (proj2 (Nat.eqb_eq _ _)) by apply Hw. cbn [bind]. rewrite repeat_length, Nat.eqb_refl. reflexivity. }
      cbn [bind]. eexists; split; [reflexivity|].
      assert (wf q m) as Hq by (repeat split; cbn; [apply Hw|apply repeat_length]).
      destruct (pars_dict_plain_get q m true par Hq HN Hin) as (v & x' & A & B & _ & C).
      destruct (C eq_refl) as [_ D]. rewrite A. f_equal. rewrite (D i nom var Hi Hnp).
      assert (x' = 0) as ->; [|unfold unscaled_value; lra].
      unfold pars_get in B; cbn in B. destruct (index par (pm_pois m)) eqn:F.
      { exfalso. apply (NoDup_app_disj _ _ par HN); apply index_In; eauto. }
      rewrite Hi in B. unfold lget in B. destruct (nth_error (repeat 0 (length (pm_nps m))) i) eqn:G; [|discriminate].
      injection B as <-. apply nth_error_In in G. now apply repeat_spec in G.
  - intros x Hpoi Hx. unfold pars_dict. rewrite (proj1 Hw).
      set (q := mkPars (pois p) (repeat 0 (length (pm_nps m))) (Some m)).
      assert (pars_init (PIList (pois p)) NINone (Some m) = Ok q) as ->.
      { unfold pars_init. cbn [bind]. rewrite (proj2 (Nat.eqb_eq _ _)) by apply Hw. cbn [bind]. rewrite repeat_length, Nat.eqb_refl. reflexivity. }
      cbn [bind]. eexists; split; [reflexivity|].
      assert (wf q m) as Hq by (repeat split; cbn; [apply Hw|apply repeat_length]).
      destruct (pars_dict_plain_get q m true par Hq HN Hin) as (v & x' & A & B & _ & C).
      destruct (C eq_refl) as [D _]. rewrite A, (D Hpoi). f_equal.
      unfold pars_get in B, Hx; cbn in B. rewrite (proj1 Hw) in Hx. destruct (index par (pm_pois m)) eqn:F; [congruence|].
      apply index_None in F. contradiction.
Qed.
Print Assumptions C26_dict_values.

(** C26: setting from a dictionary that lacks a parameter is rejected *)
Theorem C26_missing_parameter_rejected : forall p m d par u, wf p m -> In par (pm_pois m ++ np_names m) -> dget par d = None ->
  exists e, set_from_dict p d u = Err e.
Proof.
  intros p m d par u Hw Hin Hd. unfold set_from_dict. rewrite (proj1 Hw).
  remember (pm_pois m ++ np_names m) as L. clear HeqL Hw. revert p Hin.
  induction L as [|a L IH]; intros p; [intros []|]. intros [->|Hin]; cbn [foldM].
  - unfold dgetE. rewrite Hd. cbn. eauto.
  - unfold dgetE. destruct (dget a d); cbn [bind]; [|eauto]. destruct (pars_set p a r u); cbn [bind]; [|eauto]. apply IH. exact Hin.
Qed.
Print Assumptions C26_missing_parameter_rejected.

(** C26 fails with the default arguments: dict() writes physical NP values and set_from_dict reads scaled ones *)
Theorem C26_default_arguments_refuted : exists p m d q, wf p m /\ pars_dict p false true false = Ok d /\
  set_from_dict p d false = Ok q /\ q <> p.
Proof.
  exists ex_pars, ex_pm. do 2 eexists. split; [repeat split|]. split; [reflexivity|]. split; [reflexivity|].
  unfold ex_pars, unscaled_value. cbn. intros [= H _]. lra.
Qed.
Print Assumptions C26_default_arguments_refuted.

(** C26: partial dictionaries and setting NPs from the auxiliary observables always fail *)
Theorem C26_partial_dict_refuted : forall p m n names, pmod p = Some m -> partial_dict p (n :: names) = Err NameError.
Proof. intros p m n names H. unfold partial_dict. rewrite H. reflexivity. Qed.
Print Assumptions C26_partial_dict_refuted.
Theorem C26_set_from_aux_refuted : forall p m, pmod p = Some m -> set_from_aux p = Err AttributeError.
Proof. intros p m H. unfold set_from_aux. rewrite H. reflexivity. Qed.
Print Assumptions C26_set_from_aux_refuted.

(** Requesting nominal NPs and POIs only returns the NPs as well *)
Theorem C26_nominal_pois_only_refuted : exists p m d, wf p m /\ pars_dict p true true true = Ok d /\ dget "a" d <> None /\ ~ In "a" (pm_pois m).
Proof.
  exists ex_pars, ex_pm. eexists. split; [repeat split|]. split; [reflexivity|]. split; [discriminate|cbn; intuition discriminate].
Qed.
Print Assumptions C26_nominal_pois_only_refuted.
