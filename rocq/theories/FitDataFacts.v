(** Lemmas about fit results and rasters. *)
From Verif Require Import Py PyFacts Base BaseFacts ChannelFacts Params ParamsFacts PoiMin PoiMinFacts FitData.
Local Open Scope string_scope.
Local Open Scope list_scope.

(** equality of hypotheses is equality of contents *)
Lemma hypo_eqb_spec a b : NoDup (keys a) -> NoDup (keys b) -> (hypo_eqb a b = true <-> forall k, dget k a = dget k b).
Proof.
  intros Na Nb. unfold hypo_eqb. rewrite andb_true_iff, forallb_forall, Nat.eqb_eq. split.
  - intros [HL H].
    assert (S : forall k v, dget k a = Some v -> dget k b = Some v).
    { intros k v Hk. specialize (H _ (dget_In _ _ _ Hk)). cbn in H. destruct (dget k b); [|discriminate]. apply Reqb_true in H. congruence. }
    intros k. destruct (dget k a) as [v|] eqn:E; [symmetry; apply S, E|].
    destruct (dget k b) as [w|] eqn:E'; [|reflexivity]. exfalso.
    assert (incl (keys a) (keys b)) as I1.
    { intros x Hx. destruct (dget x a) as [v|] eqn:Ex; [|apply dget_None in Ex; contradiction].
      destruct (dget_None x b) as [D _]. destruct (in_dec string_dec x (keys b)) as [|Hn]; [assumption|]. apply dget_None in Hn. rewrite (S x v Ex) in Hn. discriminate. }
    assert (incl (keys b) (keys a)) as I2.
    { apply (NoDup_length_incl Na); [|exact I1]. unfold keys. rewrite !map_length. lia. }
    apply dget_None in E. apply E, I2. destruct (in_dec string_dec k (keys b)) as [|Hn]; [assumption|]. apply dget_None in Hn. congruence.
  - intros H. split.
    + assert (forall (x y : Hypo), (forall k, dget k x = dget k y) -> incl (keys x) (keys y)) as I.
      { intros x y E k Hk. destruct (in_dec string_dec k (keys y)) as [|Hn]; [assumption|]. apply dget_None in Hn. rewrite <- E in Hn. apply dget_None in Hn. contradiction. }
      pose proof (NoDup_incl_length Na (I a b H)). pose proof (NoDup_incl_length Nb (I b a (fun k => eq_sym (H k)))).
      unfold keys in *. rewrite !map_length in *. lia.
    + intros [k v] Hin. cbn. rewrite <- H, (In_dget _ _ _ Na Hin). now apply Reqb_true.
Qed.

Lemma fold_dset_map {A V} (key : A -> string) (f : A -> V) l : forall d, NoDup (keys d ++ map key l) ->
  fold_left (fun d a => dset (key a) (f a) d) l d = d ++ map (fun a => (key a, f a)) l.
Proof.
  induction l as [|a l IH]; intros d H; cbn; [symmetry; apply app_nil_r|].
  rewrite dset_app_new.
  - rewrite IH; [rewrite <- app_assoc; reflexivity|]. unfold keys in *. rewrite map_app, <- app_assoc. exact H.
  - intros F. apply (NoDup_app_disj _ _ (key a) H F). now left.
Qed.

Lemma foldM_mapM_dset {A B} (F : A -> res B) (nm : B -> string) l : forall ps d, mapM F l = Ok ps ->
  foldM (fun d a => let! p := F a in Ok (dset (nm p) p d)) l d = Ok (fold_left (fun d p => dset (nm p) p d) ps d).
Proof.
  induction l as [|a l IH]; intros ps d H; cbn in *; [injection H as <-; reflexivity|].
  apply bind_Ok in H as (b & Hb & H). apply bind_Ok in H as (bs & Hbs & H). injection H as <-. rewrite Hb. cbn. apply IH, Hbs.
Qed.

(** the entries of a fit result are stored under their own names, each once *)
Definition fit_keyed (f : FitResult) : Prop :=
  NoDup (keys (fr_pars f)) /\ forall n p, In (n, p) (fr_pars f) -> poi_name (fp_poi p) = Some n.

Lemma fit_keyed_names f : fit_keyed f -> map fp_name (values (fr_pars f)) = keys (fr_pars f).
Proof.
  intros [_ H]. unfold values, keys. rewrite map_map. apply map_ext_in. intros [n p] Hin. cbn. unfold fp_name. now rewrite (H n p Hin).
Qed.
Lemma map_keyed {V} (f : FitResult) (g : FitPar -> V) : fit_keyed f ->
  map (fun p => (fp_name p, g p)) (values (fr_pars f)) = map (fun np => (fst np, g (snd np))) (fr_pars f).
Proof.
  intros [_ H]. unfold values. rewrite map_map. apply map_ext_in. intros [n p] Hin. cbn. unfold fp_name. now rewrite (H n p Hin).
Qed.
Lemma fit_par_dict_keyed f : fit_keyed f -> fit_par_dict f = map (fun np => (fst np, fp_value (snd np))) (fr_pars f).
Proof.
  intros K. unfold fit_par_dict. rewrite fold_dset_map by (cbn; rewrite (fit_keyed_names f K); apply K). cbn. apply map_keyed, K.
Qed.
Lemma dget_map {V W} (g : V -> W) (d : dict V) k : dget k (map (fun kv => (fst kv, g (snd kv))) d) = option_map g (dget k d).
Proof. induction d as [|[k' v] d IH]; cbn; [reflexivity|]. destruct (String.eqb k k'); [reflexivity|exact IH]. Qed.
Lemma keys_map {V W} (g : V -> W) (d : dict V) : keys (map (fun kv => (fst kv, g (snd kv))) d) = keys d.
Proof. unfold keys. rewrite map_map. reflexivity. Qed.

(** Two fit results with the same values give the same parameters *)
Lemma pois_from_dict_ext names d d' : NoDup names -> NoDup (keys d) -> NoDup (keys d') -> (forall k, dget k d = dget k d') ->
  pois_from_dict names d = pois_from_dict names d'.
Proof.
  intros HN H1 H2 E. unfold pois_from_dict.
  change (match all_some (fill_arr names d (repeat None (length names))) with Some l => Ok l | None => Err ValueError end =
          match all_some (fill_arr names d' (repeat None (length names))) with Some l => Ok l | None => Err ValueError end).
  replace (fill_arr names d' (repeat None (length names))) with (fill_arr names d (repeat None (length names))); [reflexivity|].
  apply (nth_ext _ _ None None); [now rewrite !fill_arr_length|]. intros i Hi. rewrite fill_arr_length, repeat_length in Hi.
  destruct (nth_error_length _ _ Hi) as [n Hn]. rewrite !(fill_arr_nth names _ HN) with (n := n) by (auto; apply repeat_length). now rewrite E.
Qed.
Lemma foldM_ext {A S} (f g : S -> A -> res S) l : (forall s a, f s a = g s a) -> forall s, foldM f l s = foldM g l s.
Proof. intros E. induction l as [|a l IH]; intros s; cbn; [reflexivity|]. rewrite E. destruct (g s a); cbn; auto. Qed.

Lemma fit_pars_ext f f' : fit_keyed f -> fit_keyed f' -> fr_model f = fr_model f' -> (forall m, fr_model f = Some m -> NoDup (pm_pois m)) ->
  (forall n, option_map fp_value (dget n (fr_pars f)) = option_map fp_value (dget n (fr_pars f'))) -> fit_pars f = fit_pars f'.
Proof.
  intros K K' Hm HN E. unfold fit_pars. rewrite <- Hm. rewrite (fit_par_dict_keyed f K), (fit_par_dict_keyed f' K').
  set (d := map _ (fr_pars f)). set (d' := map _ (fr_pars f')).
  assert (forall k, dget k d = dget k d') as Ed by (intros k; subst d d'; rewrite !dget_map; apply E).
  assert (NoDup (keys d) /\ NoDup (keys d')) as [N1 N2] by (subst d d'; rewrite !keys_map; split; [apply K|apply K']).
  destruct (fr_model f) as [m|] eqn:Em; [|reflexivity].
  assert (pars_init (PIDict d) NINone (Some m) = pars_init (PIDict d') NINone (Some m)) as ->.
  { unfold pars_init. now rewrite (pois_from_dict_ext _ d d' (HN m eq_refl) N1 N2 Ed). }
  destruct (pars_init (PIDict d') NINone (Some m)); cbn; [|reflexivity]. apply foldM_ext. intros s a0. now rewrite Ed.
Qed.

(** markup round trip of one fit parameter *)
Definition reloaded (p : FitPar) : FitPar :=
  mkFP (mkPOI (poi_name (fp_poi p))
        (Some (match poi_min (fp_poi p) with Some x => x | None => 0 end))
        (Some (match poi_max (fp_poi p) with Some x => x | None => 0 end))
        (Some (match poi_initial (fp_poi p) with Some x => x | None => 0 end))
        (poi_unit (fp_poi p)) (poi_descr (fp_poi p))) (fp_value p) (fp_error p).
Lemma fitpar_roundtrip n0 p : fitpar_load n0 (fitpar_dump p) = Ok (reloaded p).
Proof.
  destruct p as [[nm mn mx ini un de] v e]; destruct nm, mn, mx, ini, un, de, v, e; reflexivity.
Qed.
Lemma reloaded_name p : fp_name (reloaded p) = fp_name p.
Proof. destruct p as [[[n|] ? ? ? ? ?] ? ?]; reflexivity. Qed.

Definition reload_entry (np : string * FitPar) : string * FitPar := (fst np, reloaded (snd np)).

(** loading on top of existing entries *)
Lemma fit_roundtrip f0 f : fit_keyed f -> fit_load f0 (fit_dump f) =
  Ok (mkFR (fold_left (fun d np => dset (fst np) (reloaded (snd np)) d) (fr_pars f) (fr_pars f0)) (fr_nll f) (fr_model f0)).
Proof.
  intros K. unfold fit_load, fit_dump. cbn [dgetE dget String.eqb bind Ascii.eqb Bool.eqb as_obj].
  change (dgetE "fit_pars" _) with (@Ok jv (JObj (fold_left (fun (d : dict jv) (p : FitPar) => dset (fp_name p) (JObj (fitpar_dump p)) d) (values (fr_pars f)) []))).
  change (dgetE "nll" _) with (Ok (jnum_of (fr_nll f))). cbn [bind as_obj].
  rewrite fold_dset_map by (cbn; rewrite (fit_keyed_names f K); apply K). cbn [app].
  rewrite (map_keyed f (fun p => JObj (fitpar_dump p)) K).
  rewrite (foldM_ext _ (fun d kv => let! p := (let! pd := as_obj (snd kv) in fitpar_load (Some (fst kv)) pd) in Ok (dset (fp_name p) p d)))
    by (intros s [a b]; cbn; destruct (as_obj b); reflexivity).
  rewrite (foldM_mapM_dset _ fp_name _ (map (fun np => reloaded (snd np)) (fr_pars f))).
  - cbn [bind]. destruct (fr_nll f); cbn [jnum_of as_onum jnum bind]; (do 2 f_equal).
    all: destruct K as [_ K]; revert K; generalize (fr_pars f0); induction (fr_pars f) as [|[n p] l IH]; intros d K; cbn; [reflexivity|].
    all: rewrite IH by (intros; apply K; now right); rewrite reloaded_name; unfold fp_name; rewrite (K n p (or_introl eq_refl)); reflexivity.
  - clear K. induction (fr_pars f) as [|[n p] l IH]; cbn; [reflexivity|]. rewrite fitpar_roundtrip. cbn. rewrite IH. reflexivity.
Qed.
Lemma fit_roundtrip_fresh f m : fit_keyed f -> fit_load (mkFR [] None m) (fit_dump f) = Ok (mkFR (map reload_entry (fr_pars f)) (fr_nll f) m).
Proof.
  intros K. rewrite fit_roundtrip by exact K. cbn [fr_pars fr_model]. do 2 f_equal.
  apply (fold_dset_map fst (fun np : string * FitPar => reloaded (snd np)) (fr_pars f) []). cbn. apply K.
Qed.

(** the dictionary of a fold of assignments under own names is keyed *)
Lemma fold_keyed {A} (g : A -> string) (h : A -> FitPar) l : (forall a, In a l -> poi_name (fp_poi (h a)) = Some (g a)) ->
  forall d, NoDup (keys d) -> (forall n p, In (n, p) d -> poi_name (fp_poi p) = Some n) ->
  let d' := fold_left (fun d a => dset (g a) (h a) d) l d in NoDup (keys d') /\ forall n p, In (n, p) d' -> poi_name (fp_poi p) = Some n.
Proof.
  induction l as [|a l IH]; intros H d N K; cbn; [split; assumption|].
  apply IH; [intros; apply H; now right|apply NoDup_keys_dset, N|].
  intros n p Hin. apply In_dset in Hin as [E|Hin]; [inversion E; subst; apply H; now left|apply K, Hin].
Qed.

(** the value of a known parameter *)
Definition getv (p : Params) (n : string) : R := match pars_get p n with Ok x => x | Err _ => 0 end.
Lemma getv_Ok p m n : wf p m -> In n (pm_pois m ++ np_names m) -> pars_get p n = Ok (getv p n).
Proof. intros W H. destruct (pars_get_total p m n W H) as [x Hx]. unfold getv. now rewrite Hx. Qed.

Lemma fit_new_form p m nll hypo : wf p m ->
  fit_new (Some p) nll (Some m) hypo =
  Ok (mkFR (fold_left (fun d kv => dset (fst kv) (fitpar_new (fst kv) (Some (snd kv))) d)
       (map (fun n => (n, getv p n)) (pm_pois m) ++ map (fun np => let '(n, nom, var) := np in (n, unscaled_value nom var (getv p n))) (pm_nps m)
        ++ match hypo with Some h => h | None => [] end) []) nll (Some m)).
Proof.
  intros W. unfold fit_new.
  assert (A : forall L d, incl L (pm_pois m) ->
     foldM (fun d n => let! x := pars_get p n in Ok (dset n (fitpar_new n (Some x)) d)) L d =
     Ok (fold_left (fun d kv => dset (fst kv) (fitpar_new (fst kv) (Some (snd kv))) d) (map (fun n => (n, getv p n)) L) d)).
  { induction L as [|n L IH]; intros d HL; cbn [foldM map fold_left]; [reflexivity|].
    rewrite (getv_Ok p m n W) by (apply in_or_app; left; apply HL; now left). cbn [bind]. rewrite IH by (intros ? ?; apply HL; now right). reflexivity. }
  assert (B : forall L d, incl L (pm_nps m) ->
     foldM (fun d np => let '(n, nom, var) := np in let! x := pars_get p n in Ok (dset n (fitpar_new n (Some (unscaled_value nom var x))) d)) L d =
     Ok (fold_left (fun d kv => dset (fst kv) (fitpar_new (fst kv) (Some (snd kv))) d) (map (fun np => let '(n, nom, var) := np in (n, unscaled_value nom var (getv p n))) L) d)).
  { induction L as [|[[n nom] var] L IH]; intros d HL; cbn [foldM map fold_left]; [reflexivity|].
    rewrite (getv_Ok p m n W) by (apply in_or_app; right; apply (in_map (fun p => fst (fst p)) _ (n, nom, var)); apply HL; now left).
    cbn [bind]. rewrite IH by (intros ? ?; apply HL; now right). reflexivity. }
  rewrite A by apply incl_refl. cbn [bind]. rewrite B by apply incl_refl. cbn [bind]. rewrite !fold_left_app. destruct hypo; reflexivity.
Qed.

Lemma fit_new_keyed p m nll hypo f : wf p m -> fit_new (Some p) nll (Some m) hypo = Ok f ->
  fit_keyed f /\ fr_nll f = nll /\ fr_model f = Some m.
Proof.
  intros W H. rewrite (fit_new_form p m nll hypo W) in H. injection H as <-. split; [|split; reflexivity].
  apply (fold_keyed fst (fun kv : string * R => fitpar_new (fst kv) (Some (snd kv)))); [reflexivity|constructor|intros ? ? []].
Qed.

(** last assignment wins *)
Lemma dget_fold {A V} (key : A -> string) (g : A -> V) l : forall d k, NoDup (map key l) ->
  dget k (fold_left (fun d a => dset (key a) (g a) d) l d) =
  match find (fun a => String.eqb k (key a)) l with Some a => Some (g a) | None => dget k d end.
Proof.
  induction l as [|a l IH]; intros d k N; cbn; [reflexivity|]. inversion N as [|? ? Ha N']; subst. rewrite IH by exact N'.
  destruct (String.eqb_spec k (key a)) as [->|Hne].
  - destruct (find _ l) as [b|] eqn:F; [|apply dget_dset_eq]. apply find_some in F as [Fi Fe]. apply String.eqb_eq in Fe. exfalso. apply Ha. rewrite Fe. apply in_map, Fi.
  - destruct (find _ l); [reflexivity|]. now rewrite dget_dset_neq.
Qed.

(** general form of pars(): when every parameter has a value that can be scaled *)
Lemma fit_pars_spec f m : fit_keyed f -> fr_model f = Some m -> NoDup (pm_pois m ++ np_names m) ->
  (forall n, In n (pm_pois m ++ np_names m) -> exists fp v x, dget n (fr_pars f) = Some fp /\ fp_value fp = Some v /\ stored m n v true = Ok x) ->
  exists q, fit_pars f = Ok q /\ wf q m /\
    forall n fp v x, In n (pm_pois m ++ np_names m) -> dget n (fr_pars f) = Some fp -> fp_value fp = Some v -> stored m n v true = Ok x -> pars_get q n = Ok x.
Proof.
  intros K Hm HN H. unfold fit_pars. rewrite Hm, (fit_par_dict_keyed f K). set (d := map _ (fr_pars f)).
  assert (Dd : forall n, dget n d = option_map fp_value (dget n (fr_pars f))) by (intros; apply dget_map).
  assert (exists q0, pars_init (PIDict d) NINone (Some m) = Ok q0) as [q0 Hq0].
  { unfold pars_init, pois_from_dict. fold (fill_arr (pm_pois m) d (repeat None (length (pm_pois m)))).
    pose proof (all_some_spec (fill_arr (pm_pois m) d (repeat None (length (pm_pois m))))) as S.
    pose proof (fill_arr_length (pm_pois m) d (repeat None (length (pm_pois m)))) as L. rewrite repeat_length in L.
    destruct (all_some _) as [l|].
    - cbn [bind]. rewrite S, map_length in L. rewrite (proj2 (Nat.eqb_eq _ _) L). cbn [bind]. rewrite repeat_length, Nat.eqb_refl. cbn. eauto.
    - exfalso. apply (In_nth _ _ None) in S as (i & Hi & He). rewrite L in Hi. destruct (nth_error_length _ _ Hi) as [n Hn].
      rewrite (fill_arr_nth (pm_pois m) d (NoDup_app_l _ _ HN)) with (n := n) in He; [|subst d; rewrite keys_map; apply K|apply repeat_length|exact Hn].
      destruct (H n) as (fp & v & x & A & B & C); [apply in_or_app; left; eapply nth_error_In; eauto|]. rewrite Dd, A in He. cbn in He. congruence. }
  rewrite Hq0. cbn [bind]. pose proof (pars_init_sizes _ _ _ _ Hq0) as W0.
  assert (G : forall L q, incl L (pm_pois m ++ np_names m) -> NoDup L -> wf q m ->
    exists r, foldM (fun q par => match dget par d with None => Err KeyError | Some None => Err TypeError | Some (Some v) => pars_set q par v true end) L q = Ok r /\ wf r m /\
      (forall n fp v x, In n L -> dget n (fr_pars f) = Some fp -> fp_value fp = Some v -> stored m n v true = Ok x -> pars_get r n = Ok x) /\
      (forall n, ~ In n L -> pars_get r n = pars_get q n)).
  { induction L as [|n L IH]; intros q HL NL W; cbn [foldM].
    - exists q. split; [reflexivity|]. split; [exact W|]. split; [intros ? ? ? ? []|reflexivity].
    - inversion NL as [|? ? Hn NL']; subst. destruct (H n (HL n (or_introl eq_refl))) as (fp & v & x & A & B & C).
      rewrite Dd, A. cbn [option_map]. rewrite B. pose proof (pars_set_spec q m n v true W) as S. rewrite C in S.
      destruct S as (q1 & -> & W1 & G1 & O1). cbn [bind]. destruct (IH q1) as (r & Hr & Wr & R1 & R2); auto; [intros ? ?; apply HL; now right|].
      exists r. split; [exact Hr|]. split; [exact Wr|]. split.
      + intros n' fp' v' x' [<-|Hin] A' B' C'; [|eapply R1; eauto]. rewrite R2 by exact Hn. rewrite G1. congruence.
      + intros n' Hn'. rewrite R2 by (intros F; apply Hn'; now right). apply O1. intros ->. apply Hn'. now left. }
  destruct (G (pm_pois m ++ np_names m) q0 (incl_refl _) HN W0) as (r & Hr & Wr & R1 & _). exists r. split; [exact Hr|]. split; [exact Wr|].
  intros. eapply R1; eauto.
Qed.
