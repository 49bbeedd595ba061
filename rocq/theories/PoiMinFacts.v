(** Lemmas about the POI minimizers. *)
From Verif Require Import Py PyFacts Base Expressions Norms Sample Channels Params ParamsFacts Core CoreFacts NpMin PoiMin.
Local Open Scope string_scope.
Local Open Scope list_scope.

(** a value satisfies a bound *)
Definition within (b : ParBound) (v : R) : Prop := (forall x, pb_min b = Some x -> x <= v) /\ (forall y, pb_max b = Some y -> v <= y).
Lemma test_value_within b v : test_value b v = true <-> within b v.
Proof.
  unfold test_value, within. rewrite andb_true_iff. destruct (pb_min b) as [x|], (pb_max b) as [y|]; rewrite ?Rleb_true; split; intros [H1 H2]; split; intros; auto; try congruence;
  try (injection H as <-; assumption).
Qed.
(** the range is not empty *)
Definition proper (b : ParBound) : Prop := forall x y, pb_min b = Some x -> pb_max b = Some y -> x <= y.

Lemma repair_spec pm p b q : wf p pm -> repair p b = Ok q -> wf q pm /\
  (exists v0 v, pars_get p (pb_par b) = Ok v0 /\ pars_get q (pb_par b) = Ok v /\ ((within b v0 /\ v = v0) \/ (~ within b v0 /\ middle b = Ok v))) /\
  forall k, k <> pb_par b -> pars_get q k = pars_get p k.
Proof.
  intros W H. unfold repair in H. apply bind_Ok in H as (v0 & H0 & H). destruct (test_value b v0) eqn:T.
  - injection H as <-. apply test_value_within in T. split; [exact W|]. split; [exists v0, v0; auto|reflexivity].
  - apply bind_Ok in H as (x & Hx & H). pose proof (pars_set_spec p pm (pb_par b) x false W) as S.
    destruct (stored pm (pb_par b) x false) as [y|e] eqn:E; [|rewrite S in H; discriminate]. destruct S as (q' & Hq & W' & Hg & Ho). rewrite Hq in H. injection H as <-.
    assert (y = x).
    { unfold stored in E. destruct (index (pb_par b) (pm_pois pm)); [congruence|]. destruct (index (pb_par b) (np_names pm)); [|discriminate].
      destruct (nth n (pm_nps pm) ("", 0, 0)) as [[? ?] ?]. congruence. }
    subst y. split; [exact W'|]. split; [|exact Ho]. exists v0, x. split; [exact H0|]. split; [exact Hg|]. right. split; [|exact Hx]. rewrite <- test_value_within. congruence.
Qed.
Lemma repair_all pm l : forall p q, wf p pm -> NoDup (map pb_par l) -> foldM repair l p = Ok q -> wf q pm /\
  (forall b, In b l -> exists v0 v, pars_get p (pb_par b) = Ok v0 /\ pars_get q (pb_par b) = Ok v /\ ((within b v0 /\ v = v0) \/ (~ within b v0 /\ middle b = Ok v))) /\
  forall k, ~ In k (map pb_par l) -> pars_get q k = pars_get p k.
Proof.
  induction l as [|b l IH]; intros p q W ND H; cbn [foldM] in H.
  - injection H as <-. split; [exact W|]. split; [intros b []|reflexivity].
  - apply bind_Ok in H as (p1 & H1 & H). inversion ND as [|? ? Hni ND']; subst. destruct (repair_spec _ _ _ _ W H1) as (W1 & Hb & Ho).
    destruct (IH p1 q W1 ND' H) as (Wq & Hl & Hr). split; [exact Wq|]. split.
    + intros c [<-|Hc].
      * destruct Hb as (v0 & v & A & B & C). exists v0, v. split; [exact A|]. split; [rewrite Hr by exact Hni; exact B|exact C].
      * destruct (Hl c Hc) as (v0 & v & A & B & C). exists v0, v. split; [|auto]. rewrite <- A. symmetry. apply Ho. intros E. apply Hni. rewrite <- E. apply in_map, Hc.
    + intros k Hk. cbn in Hk. rewrite Hr by tauto. apply Ho. intros ->. apply Hk. left. reflexivity.
Qed.

(** bounds dictionaries whose keys are the names of the bounds *)
Definition keyed (d : dict ParBound) : Prop := NoDup (keys d) /\ forall k b, In (k, b) d -> pb_par b = k.
Lemma In_dset {V} k (v : V) d x : In x (dset k v d) -> x = (k, v) \/ In x d.
Proof.
  induction d as [|[k' v'] d IH]; cbn; [intros [<-|[]]; auto|]. destruct (String.eqb_spec k k') as [->|]; cbn; [intros [<-|H]; auto|].
  intros [<-|H]; [auto|]. destruct (IH H); auto.
Qed.
Lemma keyed_dset d b : keyed d -> keyed (dset (pb_par b) b d).
Proof.
  intros [N H]. split; [apply NoDup_keys_dset, N|]. intros k c Hc. apply In_dset in Hc as [E|Hc]; [inversion E; reflexivity|apply H, Hc].
Qed.
Lemma keyed_model m : NoDup (keys (m_pois m)) -> keyed (model_bounds m).
Proof.
  intros N. unfold model_bounds. split.
  - unfold keys. rewrite map_map. cbn. exact N.
  - intros k b H. apply in_map_iff in H as ([k' p] & E & _). inversion E; reflexivity.
Qed.
Lemma keyed_fold {A} (f : A -> ParBound) l : forall d, keyed d -> keyed (fold_left (fun d a => dset (pb_par (f a)) (f a) d) l d).
Proof. induction l as [|a l IH]; intros d H; cbn; [exact H|]. apply IH, keyed_dset, H. Qed.
Lemma all_bounds_keyed m bounds hypo fx bs : NoDup (keys (m_pois m)) -> all_bounds m bounds hypo fx = Ok bs -> keyed bs.
Proof.
  intros N H. unfold all_bounds in H.
  set (d1 := match bounds with None => _ | Some _ => _ end) in H.
  assert (K : keyed d1).
  { subst d1. destruct bounds as [l|]; [|apply keyed_model, N]. apply (keyed_fold (fun b => mkPB (pb_par b) (pb_min b) (pb_max b)) l). apply keyed_model, N. }
  destruct fx; [|injection H as <-; exact K]. destruct hypo as [h|]; [|discriminate]. injection H as <-.
  apply (keyed_fold (fun kv => mkPB (fst kv) (Some (snd kv)) (Some (snd kv))) h), K.
Qed.
Lemma keyed_pars d : keyed d -> map pb_par (values d) = keys d.
Proof.
  intros [_ H]. unfold values, keys. rewrite map_map. apply map_ext_in. intros [k b] Hin. apply H, Hin.
Qed.
(** last write wins *)
Lemma fold_dset_get {A V} (key : A -> string) (f : A -> V) l : forall d k, ~ In k (map key l) -> dget k (fold_left (fun d a => dset (key a) (f a) d) l d) = dget k d.
Proof.
  induction l as [|a l IH]; intros d k Hk; cbn; [reflexivity|]. cbn in Hk. rewrite IH by tauto. apply dget_dset_neq. intros ->. tauto.
Qed.
Lemma fold_dset_in {A V} (key : A -> string) (f : A -> V) l : forall d a, NoDup (map key l) -> In a l -> dget (key a) (fold_left (fun d a => dset (key a) (f a) d) l d) = Some (f a).
Proof.
  induction l as [|x l IH]; intros d a N Ha; [destruct Ha|]. cbn in *. inversion N; subst. destruct Ha as [->|Ha]; [|apply IH; assumption].
  rewrite fold_dset_get by assumption. apply dget_dset_eq.
Qed.

(** values set one by one *)
Lemma set_each pm h : forall p q, wf p pm -> NoDup (keys h) -> foldM (fun p kv => pars_set p (fst kv) (snd kv) false) h p = Ok q ->
  wf q pm /\ (forall k v, In (k, v) h -> pars_get q k = Ok v) /\ forall k, ~ In k (keys h) -> pars_get q k = pars_get p k.
Proof.
  induction h as [|[k v] h IH]; intros p q W N H; cbn [foldM] in H; [injection H as <-; split; [exact W|]; split; [intros ? ? []|reflexivity]|].
  apply bind_Ok in H as (p1 & H1 & H). cbn [fst snd] in *. inversion N as [|? ? Hni N']; subst. pose proof (pars_set_spec p pm k v false W) as S.
  destruct (stored pm k v false) as [y|e] eqn:E; [|rewrite S in H1; discriminate]. destruct S as (q' & Hq & W' & Hg & Ho). rewrite Hq in H1. injection H1 as <-.
  assert (y = v).
  { unfold stored in E. destruct (index k (pm_pois pm)); [congruence|]. destruct (index k (np_names pm)); [|discriminate].
    destruct (nth n (pm_nps pm) ("", 0, 0)) as [[? ?] ?]. congruence. }
  subst y. destruct (IH _ _ W' N' H) as (Wq & A & B). split; [exact Wq|]. split.
  - intros k' v' [E'|Hin]; [inversion E'; subst; rewrite B by exact Hni; exact Hg|apply A, Hin].
  - intros k' Hk'. cbn in Hk'. rewrite B by tauto. apply Ho. intros ->. tauto.
Qed.

Lemma pars_clone_wf p pm : wf p pm -> pars_clone p = Ok p.
Proof.
  intros (Hm & Hp & Hn). destruct p as [ps ns md]. cbn in *. subst md. unfold pars_clone, pars_init. cbn [pois nps pmod bind]. rewrite Hp, Nat.eqb_refl. cbn [bind].
  destruct ns as [|x ns]; cbn [bind].
  - cbn in Hn. rewrite <- Hn. reflexivity.
  - rewrite Hn, Nat.eqb_refl. reflexivity.
Qed.

(** decomposition of set_pois *)
Lemma set_pois_inv m I init bounds hypo fx p bs : match init with Some q => wf q (i_pm I) | None => True end -> set_pois_min m I init bounds hypo fx = Ok (p, bs) ->
  exists p0 p1, wf p0 (i_pm I) /\ (match init with Some q => p0 = q | None => pois p0 = i_ref_pois I end) /\
    match hypo with None => p1 = p0 | Some h => foldM (fun p kv => pars_set p (fst kv) (snd kv) false) h p0 = Ok p1 end /\
    all_bounds m bounds hypo fx = Ok bs /\ foldM repair (values bs) p1 = Ok p.
Proof.
  intros Hi H. unfold set_pois_min in H. apply bind_Ok in H as (p0 & H0 & H). apply bind_Ok in H as (p1 & H1 & H). apply bind_Ok in H as (bs' & Hb & H).
  apply bind_Ok in H as (p2 & H2 & H). injection H as <- <-. exists p0, p1. destruct init as [q|].
  - rewrite (pars_clone_wf q _ Hi) in H0. injection H0 as <-. repeat split; auto; try apply Hi. destruct hypo; [exact H1|congruence].
  - split; [apply (pars_init_sizes _ _ _ _ H0)|]. split; [|split; [destruct hypo; [exact H1|congruence]|split; assumption]].
    unfold pars_init in H0. apply bind_Ok in H0 as (l & E & H0). injection E as <-. apply bind_Ok in H0 as (? & _ & H0). apply bind_Ok in H0 as (? & _ & H0). apply bind_Ok in H0 as (? & _ & H0).
    injection H0 as <-. reflexivity.
Qed.
