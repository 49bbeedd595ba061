(** Properties of the command-line programs of src/fastprof_utils modelled in LimitTools. *)
From Verif Require Import Py PyFacts Base Expressions Norms Sample Channels Params Core PoiMin PoiMinFacts UtilTools UtilFacts UtilProps CoreExample LimitTools.
Local Open Scope string_scope.
Local Open Scope list_scope.

(** * C90: collect_results.py *)
(** Specification: the number stored under a key of a file. *)
Definition num (pf : string -> option R) (d : dict jv) (k : string) : option R :=
  match dget k d with
  | Some (JStr s) => pf s
  | Some (JBool b) => Some (if b then 1 else 0)
  | Some (JInt z) => Some (IZR z)
  | Some (JFlt x) => Some x
  | _ => None
  end.
Definition is_some {A} (o : option A) : bool := match o with Some _ => true | None => false end.
(** the result of a file: the value, and with -e the values of the positive and negative errors *)
Definition entry (pf : string -> option R) (errors : bool) (key : string) (d : dict jv) : option (list R) :=
  if errors then match num pf d key, num pf d (key ++ "_up")%string, num pf d (key ++ "_dn")%string with Some x, Some y, Some z => Some [x; y; z] | _, _, _ => None end
  else match num pf d key with Some x => Some [x] | None => None end.
(** a file with all the bands *)
Definition has_bands (pf : string -> option R) (dec : nat -> string) (n : nat) (key : string) (d : dict jv) : bool :=
  forallb (fun b => is_some (num pf d (band_key dec key b))) (band_ids n).
Definition file_ok {P} (read : P -> option (dict jv)) (f : dict jv -> bool) (p : P) : bool := match read p with Some d => f d | None => false end.

Lemma pyfloat_num pf v x d k : dget k d = Some v -> pyfloat pf v = Ok x -> num pf d k = Some x.
Proof. intros H. unfold num, pyfloat. rewrite H. destruct v; cbn; try discriminate; try congruence. destruct (pf s); congruence. Qed.
Lemma pyfloat_num_err pf v e d k : dget k d = Some v -> pyfloat pf v = Err e -> num pf d k = None.
Proof. intros H. unfold num, pyfloat. rewrite H. destruct v; cbn; try discriminate; try congruence. destruct (pf s); congruence. Qed.
Lemma present_some k d v : present k d = Some v -> dget k d = Some v.
Proof. unfold present. destruct (dget k d) as [w|]; [|discriminate]. destruct w; congruence. Qed.
Lemma present_none pf k d : present k d = None -> num pf d k = None.
Proof. unfold present, num. destruct (dget k d) as [w|]; [|reflexivity]. destruct w; congruence. Qed.
Lemma all_present_none pf ks d : all_present ks d = None -> forallb (fun k => is_some (num pf d k)) ks = false.
Proof.
  induction ks as [|k ks IH]; cbn [all_present forallb]; [discriminate|]. destruct (present k d) eqn:E.
  - destruct (all_present ks d); [discriminate|]. intros _. rewrite (IH eq_refl). apply andb_false_r.
  - intros _. rewrite (present_none pf _ _ E). reflexivity.
Qed.
Lemma append_bands_ok pf ks d : forall vs bands, all_present ks d = Some vs -> length bands = length ks ->
  snd (append_bands pf vs bands) = forallb (fun k => is_some (num pf d k)) ks.
Proof.
  induction ks as [|k ks IH]; intros vs bands H L; cbn [all_present] in H.
  - injection H as <-. destruct bands; [reflexivity|discriminate].
  - destruct (present k d) eqn:E; [|discriminate]. destruct (all_present ks d) as [ws|] eqn:E2; [|discriminate]. injection H as <-.
    destruct bands as [|b bands]; [discriminate|]. cbn [append_bands forallb]. destruct (pyfloat pf j) as [x|e] eqn:Ef.
    + rewrite (pyfloat_num pf j x d k (present_some _ _ _ E) Ef). specialize (IH ws bands eq_refl). destruct (append_bands pf ws bands) as [bs' ok]. cbn in *. apply IH. lia.
    + rewrite (pyfloat_num_err pf j e d k (present_some _ _ _ E) Ef). reflexivity.
Qed.
Lemma append_bands_length pf : forall vs bands, length (fst (append_bands pf vs bands)) = length bands.
Proof.
  induction vs as [|v vs IH]; intros [|b bands]; cbn [append_bands]; try reflexivity. destruct (pyfloat pf v); [|reflexivity].
  specialize (IH bands). destruct (append_bands pf vs bands). cbn in *. congruence.
Qed.
Lemma append_bands_value pf ks d : forall vs bands, all_present ks d = Some vs -> length bands = length ks -> forallb (fun k => is_some (num pf d k)) ks = true ->
  forall j k, nth_error ks j = Some k -> exists x, num pf d k = Some x /\ nth j (fst (append_bands pf vs bands)) [] = nth j bands [] ++ [x].
Proof.
  induction ks as [|k ks IH]; intros vs bands H L F j k' Hj; cbn [all_present] in H; [destruct j; discriminate|].
  destruct (present k d) eqn:E; [|discriminate]. destruct (all_present ks d) as [ws|] eqn:E2; [|discriminate]. injection H as <-.
  destruct bands as [|b bands]; [discriminate|]. cbn [forallb] in F. apply andb_true_iff in F as [F1 F2]. cbn [append_bands]. destruct (pyfloat pf j0) as [x|e] eqn:Ef.
  - pose proof (pyfloat_num pf j0 x d k (present_some _ _ _ E) Ef) as Hn. specialize (IH ws bands eq_refl). destruct (append_bands pf ws bands) as [bs' ok]. cbn [fst] in *.
    destruct j as [|j]; cbn [nth_error nth] in *; [injection Hj as <-; eauto|]. apply IH; auto.
  - rewrite (pyfloat_num_err pf j0 e d k (present_some _ _ _ E) Ef) in F1. discriminate.
Qed.

Definition bands_of (pf : string -> option R) (dec : nat -> string) (nb : option nat) (key : string) (d : dict jv) : bool :=
  match nb with None => true | Some n => has_bands pf dec n key d end.
Definition nb_eff (nb : option nat) : option nat := match nb with Some 0%nat => None | o => o end.
Definition n_lists (nb : option nat) : nat := match nb with None => 0 | Some n => 2 * n + 1 end.
Lemma has_bands_map pf dec n key d : forallb (fun k => is_some (num pf d k)) (map (band_key dec key) (band_ids n)) = has_bands pf dec n key d.
Proof. unfold has_bands. induction (band_ids n); cbn; congruence. Qed.
Lemma band_ids_length n : length (band_ids n) = (2 * n + 1)%nat.
Proof. unfold band_ids. now rewrite map_length, seq_length. Qed.

Lemma collect_pos_spec {P} pf dec (read : P -> option (dict jv)) nb errors key st p st' : length (co_bands st) = n_lists nb ->
  collect_pos pf dec read nb errors key st p = Ok st' ->
  length (co_bands st') = n_lists nb /\
  co_bpos st' = co_bpos st ++ (if (is_some nb && file_ok read (bands_of pf dec nb key) p)%bool then [p] else []) /\
  co_pos st' = co_pos st ++ (if file_ok read (fun d => bands_of pf dec nb key d && is_some (entry pf errors key d))%bool p then [p] else []) /\
  co_results st' = co_results st ++ match read p with Some d => if bands_of pf dec nb key d then match entry pf errors key d with Some r => [r] | None => [] end else [] | None => [] end /\
  (forall j b, nth_error (match nb with Some n => band_ids n | None => [] end) j = Some b -> file_ok read (bands_of pf dec nb key) p = true ->
     exists d x, read p = Some d /\ num pf d (band_key dec key b) = Some x /\ nth j (co_bands st') [] = nth j (co_bands st) [] ++ [x]) /\
  (file_ok read (fun d => match nb with Some n => is_some (all_present (map (band_key dec key) (band_ids n)) d) | None => false end) p = false -> co_bands st' = co_bands st).
Proof.
  intros L H. unfold collect_pos in H. unfold file_ok. destruct (read p) as [d|].
  2:{ injection H as <-. rewrite andb_false_r, !app_nil_r. repeat split; auto. discriminate. }
  set (after := fun st1 : collected P => match present key d with None => Ok st1 | Some v => if errors then
        match present (key ++ "_up")%string d, present (key ++ "_dn")%string d with
        | Some u, Some l => let! x := pyfloat pf v in let! y := pyfloat pf u in let! z := pyfloat pf l in
                            Ok (mkCol (co_bands st1) (co_bpos st1) (co_results st1 ++ [[x; y; z]]) (co_pos st1 ++ [p]))
        | _, _ => Ok st1
        end
      else let! x := pyfloat pf v in Ok (mkCol (co_bands st1) (co_bpos st1) (co_results st1 ++ [[x]]) (co_pos st1 ++ [p])) end) in *.
  assert (HA : forall st1, after st1 = Ok st' -> co_bands st' = co_bands st1 /\ co_bpos st' = co_bpos st1 /\
     co_pos st' = co_pos st1 ++ (if is_some (entry pf errors key d) then [p] else []) /\ co_results st' = co_results st1 ++ match entry pf errors key d with Some r => [r] | None => [] end).
  { intros st1 H1. unfold after in H1. unfold entry. destruct (present key d) as [v|] eqn:Ev.
    2:{ injection H1 as <-. rewrite (present_none pf _ _ Ev). destruct errors; cbn; rewrite !app_nil_r; auto. }
    destruct errors.
    - destruct (present (key ++ "_up")%string d) as [u|] eqn:Eu.
      2:{ injection H1 as <-. rewrite (present_none pf _ _ Eu). destruct (num pf d key); cbn; rewrite !app_nil_r; auto. }
      destruct (present (key ++ "_dn")%string d) as [w|] eqn:Ew.
      2:{ injection H1 as <-. rewrite (present_none pf _ _ Ew). destruct (num pf d key), (num pf d (key ++ "_up")%string); cbn; rewrite !app_nil_r; auto. }
      apply bind_Ok in H1 as (x & Hx & H1). apply bind_Ok in H1 as (y & Hy & H1). apply bind_Ok in H1 as (z & Hz & H1). injection H1 as <-.
      rewrite (pyfloat_num pf v x d _ (present_some _ _ _ Ev) Hx), (pyfloat_num pf u y d _ (present_some _ _ _ Eu) Hy), (pyfloat_num pf w z d _ (present_some _ _ _ Ew) Hz). cbn. auto.
    - apply bind_Ok in H1 as (x & Hx & H1). injection H1 as <-. rewrite (pyfloat_num pf v x d _ (present_some _ _ _ Ev) Hx). cbn. auto. }
  destruct nb as [n|].
  - destruct (all_present (map (band_key dec key) (band_ids n)) d) as [vs|] eqn:Ep.
    + assert (Lk : length (co_bands st) = length (map (band_key dec key) (band_ids n))) by (rewrite map_length, band_ids_length; exact L).
      pose proof (append_bands_ok pf _ d vs (co_bands st) Ep Lk) as Hok. rewrite has_bands_map in Hok. pose proof (append_bands_length pf vs (co_bands st)) as Hl.
      pose proof (append_bands_value pf _ d vs (co_bands st) Ep Lk) as Hval. rewrite has_bands_map in Hval.
      destruct (append_bands pf vs (co_bands st)) as [b' ok]. cbn [fst snd] in *. subst ok. cbn [bands_of is_some andb]. destruct (has_bands pf dec n key d) eqn:Hb.
      * cbn [negb] in H. apply HA in H as (H1 & H2 & H3 & H4). cbn [co_bands co_bpos co_pos co_results] in *. rewrite H1. split; [congruence|]. split; [exact H2|]. split; [exact H3|]. split; [exact H4|]. split.
        { intros j b Hj _. destruct (Hval eq_refl j (band_key dec key b)) as (x & Hx & Hn); [rewrite nth_error_map, Hj; reflexivity|]. eauto. }
        { rewrite ?Ep. discriminate. }
      * cbn [negb] in H. injection H as <-. cbn [co_bands co_bpos co_pos co_results]. rewrite !app_nil_r. split; [congruence|]. repeat split; try reflexivity; [discriminate|]. rewrite ?Ep. discriminate.
    + cbn [negb] in H. injection H as <-. apply (all_present_none pf) in Ep as Hf. rewrite has_bands_map in Hf. cbn [bands_of is_some andb]. rewrite Hf. cbn [andb]. rewrite !app_nil_r. repeat split; auto. discriminate.
  - cbn [negb] in H. apply HA in H as (H1 & H2 & H3 & H4). cbn [bands_of is_some andb]. rewrite H1, H2, app_nil_r. repeat split; auto. intros [|j] b [=].
Qed.

Lemma num_present pf k x d : num pf d k = Some x -> exists v, present k d = Some v /\ pyfloat pf v = Ok x.
Proof.
  intros Hn. unfold num, present in *. destruct (dget k d) as [v|]; [|discriminate]. exists v. destruct v; try discriminate; (split; [reflexivity|]); cbn; try congruence. now rewrite Hn.
Qed.
Lemma collect_pos_total {P} pf dec (read : P -> option (dict jv)) nb errors key st p d : read p = Some d -> present key d = None \/ (exists r, entry pf errors key d = Some r) ->
  exists st', collect_pos pf dec read nb errors key st p = Ok st'.
Proof.
  intros Hr H. unfold collect_pos. rewrite Hr. destruct (match nb with Some n => _ | None => _ end) as [st1 ok]. destruct ok; cbn [negb]; [|eauto].
  destruct H as [->|[r H]]; [eauto|]. unfold entry in H. destruct errors.
  - destruct (num pf d key) as [x|] eqn:E1; [|discriminate]. destruct (num pf d (key ++ "_up")%string) as [y|] eqn:E2; [|discriminate]. destruct (num pf d (key ++ "_dn")%string) as [z|] eqn:E3; [|discriminate].
    apply num_present in E1 as (v1 & -> & F1). apply num_present in E2 as (v2 & -> & F2). apply num_present in E3 as (v3 & -> & F3). rewrite F1. cbn [bind]. rewrite F2. cbn [bind]. rewrite F3. cbn [bind]. eauto.
  - destruct (num pf d key) as [x|] eqn:E1; [|discriminate]. apply num_present in E1 as (v1 & -> & F1). rewrite F1. cbn [bind]. eauto.
Qed.

Lemma collect_fold {P} pf dec (read : P -> option (dict jv)) nb errors key : forall ps st st', length (co_bands st) = n_lists nb ->
  foldM (collect_pos pf dec read nb errors key) ps st = Ok st' ->
  length (co_bands st') = n_lists nb /\
  co_bpos st' = co_bpos st ++ filter (fun p => is_some nb && file_ok read (bands_of pf dec nb key) p)%bool ps /\
  co_pos st' = co_pos st ++ filter (file_ok read (fun d => bands_of pf dec nb key d && is_some (entry pf errors key d))%bool) ps /\
  co_results st' = co_results st ++ flat_map (fun p => match read p with Some d => if bands_of pf dec nb key d then match entry pf errors key d with Some r => [r] | None => [] end else [] | None => [] end) ps /\
  ((forall p, In p ps -> file_ok read (fun d => match nb with Some n => is_some (all_present (map (band_key dec key) (band_ids n)) d) | None => false end) p = true -> file_ok read (bands_of pf dec nb key) p = true) ->
   forall j b, nth_error (match nb with Some n => band_ids n | None => [] end) j = Some b ->
     nth j (co_bands st') [] = nth j (co_bands st) [] ++ flat_map (fun p => match read p with Some d => if bands_of pf dec nb key d then match num pf d (band_key dec key b) with Some x => [x] | None => [] end else [] | None => [] end) ps).
Proof.
  induction ps as [|p ps IH]; intros st st' L H; cbn [foldM] in H.
  - injection H as <-. cbn. rewrite !app_nil_r. repeat split; auto. intros. now rewrite app_nil_r.
  - apply bind_Ok in H as (s1 & H1 & H). apply (collect_pos_spec pf dec read nb errors key st p s1 L) in H1 as (L1 & A1 & A2 & A3 & A4 & A5).
    destruct (IH s1 st' L1 H) as (L2 & B1 & B2 & B3 & B4). split; [exact L2|]. cbn [filter flat_map].
    split; [rewrite B1, A1, <- app_assoc; f_equal; now destruct (is_some nb && file_ok read (bands_of pf dec nb key) p)%bool|].
    split; [rewrite B2, A2, <- app_assoc; f_equal; now destruct (file_ok read (fun d => bands_of pf dec nb key d && is_some (entry pf errors key d))%bool p)|].
    split; [rewrite B3, A3, <- app_assoc; reflexivity|]. intros Hw j b Hj. rewrite (B4 (fun q Hq => Hw q (or_intror Hq)) j b Hj), app_assoc. f_equal.
    destruct (file_ok read (bands_of pf dec nb key) p) eqn:Eo.
    + destruct (A4 j b Hj eq_refl) as (d & x & Hr & Hx & Hn). rewrite Hn. unfold file_ok in Eo. rewrite Hr in *. rewrite Eo, Hx. reflexivity.
    + rewrite A5.
      * unfold file_ok in Eo. destruct (read p); [rewrite Eo|]; now rewrite app_nil_r.
      * apply not_true_is_false. intros Ea. apply Hw in Ea; [congruence|now left].
Qed.

Lemma collect_key_spec {P} pf dec (read : P -> option (dict jv)) nb errors key ps c : collect_key pf dec read nb errors ps key = Ok c ->
  let nb' := nb_eff nb in
  length (co_bands c) = n_lists nb' /\
  co_bpos c = filter (fun p => is_some nb' && file_ok read (bands_of pf dec nb' key) p)%bool ps /\
  co_pos c = filter (file_ok read (fun d => bands_of pf dec nb' key d && is_some (entry pf errors key d))%bool) ps /\
  co_results c = flat_map (fun p => match read p with Some d => if bands_of pf dec nb' key d then match entry pf errors key d with Some r => [r] | None => [] end else [] | None => [] end) ps /\
  ((forall p, In p ps -> file_ok read (fun d => match nb' with Some n => is_some (all_present (map (band_key dec key) (band_ids n)) d) | None => false end) p = true -> file_ok read (bands_of pf dec nb' key) p = true) ->
   forall j b, nth_error (match nb' with Some n => band_ids n | None => [] end) j = Some b ->
     nth j (co_bands c) [] = flat_map (fun p => match read p with Some d => if bands_of pf dec nb' key d then match num pf d (band_key dec key b) with Some x => [x] | None => [] end else [] | None => [] end) ps).
Proof.
  intros H. unfold collect_key in H. fold (nb_eff nb) in H. cbn zeta. apply collect_fold in H as (A & B & C & D & E); [|destruct (nb_eff nb); cbn [co_bands]; [apply repeat_length|reflexivity]].
  cbn [co_bands co_bpos co_pos co_results app] in *. repeat split; auto. intros Hw j b Hj. rewrite (E Hw j b Hj).
  assert (En : nth j (match nb_eff nb with Some n => repeat [] (2 * n + 1) | None => [] end) ([] : list R) = []).
  { destruct (nb_eff nb) as [n|]; [|destruct j; reflexivity]. generalize (2 * n + 1)%nat as k. clear. intros k. revert j. induction k; intros [|j]; cbn; auto. }
  cbn [co_bands]. rewrite En. reflexivity.
Qed.

Lemma filter_rows {P A} (f : P -> bool) (g : P -> list A) (r : P -> A) ps : (forall p, f p = true -> g p = [r p]) -> (forall p, f p = false -> g p = []) -> flat_map g ps = map r (filter f ps).
Proof.
  intros H1 H2. induction ps as [|p ps IH]; [reflexivity|]. cbn. destruct (f p) eqn:E; [rewrite H1 by exact E|rewrite H2 by exact E]; cbn; now rewrite IH.
Qed.

(** one group of results per key, in the order of the keys.  Within a key, the positions that are kept are exactly those whose
    file can be read and has a number for the result (and for its errors, with -e; and for all the bands, with -b, for the
    first key), in the order of the positions; and the i-th result is the one of the file of the i-th position kept. *)
Theorem C90_results : forall P pf dec (read : P -> option (dict jv)) nb errors ps keys out, collect pf dec read nb errors ps keys = Ok out ->
  map fst out = keys /\
  forall i key c, nth_error out i = Some (key, c) ->
    let bands_needed d := match i, nb with 0%nat, Some (S n) => has_bands pf dec (S n) key d | _, _ => true end in
    co_pos c = filter (file_ok read (fun d => bands_needed d && is_some (entry pf errors key d))%bool) ps /\
    Forall2 (fun p r => exists d, read p = Some d /\ entry pf errors key d = Some r) (co_pos c) (co_results c).
Proof.
  intros P pf dec read nb errors ps keys out H. unfold collect in H.
  assert (G : forall s ks out, mapM (fun ik => let! c := collect_key pf dec read (if (fst ik =? 0)%nat then nb else None) errors ps (snd ik) in Ok (snd ik, c)) (combine (seq s (length ks)) ks) = Ok out ->
     map fst out = ks /\ forall i key c, nth_error out i = Some (key, c) -> collect_key pf dec read (if (s + i =? 0)%nat then nb else None) errors ps key = Ok c).
  { clear. intros s ks. revert s. induction ks as [|k ks IH]; intros s out H; cbn [length seq combine mapM] in H.
    - injection H as <-. split; [reflexivity|]. intros [|i]; discriminate.
    - apply bind_Ok in H as (kc & H1 & H). apply bind_Ok in H1 as (c & Hc & H1). injection H1 as <-. apply bind_Ok in H as (r & Hr & H). injection H as <-. cbn [fst snd] in *.
      destruct (IH (S s) r Hr) as [E1 E2]. split; [cbn; congruence|]. intros [|i] key c' Hi; cbn in Hi; [injection Hi as <- <-; now rewrite Nat.add_0_r|].
      specialize (E2 _ _ _ Hi). now rewrite <- Nat.add_succ_comm. }
  destruct (G 0%nat keys out H) as [E1 E2]. split; [exact E1|]. intros i key c Hi. specialize (E2 i key c Hi). cbn [Nat.add] in E2. apply collect_key_spec in E2 as (_ & _ & Hp & Hr & _).
  cbn zeta. set (nb' := nb_eff (if (i =? 0)%nat then nb else None)) in *.
  assert (Eb : forall d, bands_of pf dec nb' key d = match i, nb with 0%nat, Some (S n) => has_bands pf dec (S n) key d | _, _ => true end).
  { intros d. unfold nb'. destruct i as [|i]; cbn [Nat.eqb]; [destruct nb as [[|n]|]; reflexivity|reflexivity]. }
  split.
  - rewrite Hp. apply filter_ext. intros p. unfold file_ok. destruct (read p); [now rewrite Eb|reflexivity].
  - rewrite (filter_rows (file_ok read (fun d => bands_of pf dec nb' key d && is_some (entry pf errors key d))%bool) _ (fun p => match read p with Some d => match entry pf errors key d with Some r => r | None => [] end | None => [] end)) in Hr.
    + rewrite Hr, Hp. clear. induction ps as [|p ps IH]; cbn [filter map]; [constructor|].
      destruct (file_ok read (fun d => bands_of pf dec nb' key d && is_some (entry pf errors key d))%bool p) eqn:E; [|exact IH]. cbn [map]. constructor; [|exact IH].
      unfold file_ok in E. destruct (read p) as [d|]; [|discriminate]. exists d. split; [reflexivity|].
      apply andb_true_iff in E as [_ E]. destruct (entry pf errors key d); [reflexivity|discriminate].
    + intros p E. unfold file_ok in E. destruct (read p) as [d|]; [|discriminate]. apply andb_true_iff in E as [E1' E2']. rewrite E1'. destruct (entry pf errors key d); [reflexivity|discriminate].
    + intros p E. unfold file_ok in E. destruct (read p) as [d|]; [|reflexivity]. destruct (bands_of pf dec nb' key d); [|reflexivity]. destruct (entry pf errors key d); [discriminate|reflexivity].
Qed.
Print Assumptions C90_results.

(** the bands: when every file that has all the bands has numbers for them and a result (with its errors), each band has one
    value per position kept, the one of the file of that position *)
Theorem C90_bands : forall P pf dec (read : P -> option (dict jv)) n errors ps key c, collect_key pf dec read (Some (S n)) errors ps key = Ok c ->
  (forall p d, In p ps -> read p = Some d -> (forall b, In b (band_ids (S n)) -> exists v, dget (band_key dec key b) d = Some v /\ v <> JNull) ->
     has_bands pf dec (S n) key d = true /\ is_some (entry pf errors key d) = true) ->
  forall j b, nth_error (band_ids (S n)) j = Some b ->
    Forall2 (fun p x => exists d, read p = Some d /\ num pf d (band_key dec key b) = Some x) (co_pos c) (nth j (co_bands c) []).
Proof.
  intros P pf dec read n errors ps key c H Hw j b Hj. apply collect_key_spec in H as (_ & _ & Hp & _ & HB). cbn [nb_eff bands_of] in *.
  assert (Hall : forall p d, In p ps -> read p = Some d -> is_some (all_present (map (band_key dec key) (band_ids (S n))) d) = true -> has_bands pf dec (S n) key d = true /\ is_some (entry pf errors key d) = true).
  { intros p d Hin Hr Ha. apply (Hw p d Hin Hr). intros b' Hb'. revert Ha Hb'. clear. induction (band_ids (S n)) as [|a l IH]; [contradiction|]. cbn [map all_present].
    destruct (present (band_key dec key a) d) as [v|] eqn:E; [|discriminate]. destruct (all_present (map (band_key dec key) l) d); [|discriminate]. intros _ [<-|Hb'].
    - exists v. split; [now apply present_some|]. intros ->. unfold present in E. destruct (dget (band_key dec key a) d) as [[]|]; discriminate.
    - apply IH; [reflexivity|exact Hb']. }
  assert (Hsome : forall d, has_bands pf dec (S n) key d = true -> is_some (all_present (map (band_key dec key) (band_ids (S n))) d) = true).
  { intros d Hb. destruct (all_present _ d) eqn:E; [reflexivity|]. apply (all_present_none pf) in E. rewrite has_bands_map in E. congruence. }
  rewrite (HB (fun p Hin Ha => ltac:(unfold file_ok in *; destruct (read p) as [d|] eqn:Er; [exact (proj1 (Hall p d Hin Er Ha))|discriminate])) j b Hj). rewrite Hp.
  apply nth_error_In in Hj. clear HB Hp Hw. induction ps as [|p ps IH]; cbn [filter flat_map]; [constructor|].
  assert (IH' := IH (fun q d Hin => Hall q d (or_intror Hin))). unfold file_ok at 1. destruct (read p) as [d|] eqn:Er; [|exact IH'].
  destruct (has_bands pf dec (S n) key d) eqn:Hb; [|exact IH']. destruct (Hall p d (or_introl eq_refl) Er (Hsome d Hb)) as [_ Hen]. rewrite Hen. cbn [andb].
  unfold has_bands in Hb. rewrite forallb_forall in Hb. specialize (Hb b Hj). destruct (num pf d (band_key dec key b)) as [x|] eqn:Ex; [|discriminate]. cbn [app]. constructor; [eauto|exact IH'].
Qed.
Print Assumptions C90_bands.

(** the bands are written without positions of their own: a file with bands but without result shifts all the following values
    against the positions *)
Theorem C90_bands_misaligned_refuted : forall P pf dec (read : P -> option (dict jv)) key p q dp dq errors rq,
  read p = Some dp -> read q = Some dq -> has_bands pf dec 1 key dp = true -> has_bands pf dec 1 key dq = true ->
  dget key dp = None -> entry pf errors key dq = Some rq ->
  exists c, collect_key pf dec read (Some 1%nat) errors [p; q] key = Ok c /\ co_pos c = [q] /\ co_results c = [rq] /\
    forall j b, nth_error (band_ids 1) j = Some b -> exists x y, num pf dp (band_key dec key b) = Some x /\ num pf dq (band_key dec key b) = Some y /\ nth j (co_bands c) [] = [x; y].
Proof.
  intros P pf dec read key p q dp dq errors rq Hp Hq Bp Bq Np Eq.
  assert (Nn : num pf dp key = None) by (unfold num; now rewrite Np).
  assert (Pn : present key dp = None) by (unfold present; now rewrite Np).
  assert (Ep : entry pf errors key dp = None) by (unfold entry; rewrite Nn; destruct errors; reflexivity).
  assert (Hc : exists c, collect_key pf dec read (Some 1%nat) errors [p; q] key = Ok c).
  { unfold collect_key. cbn [foldM].
    match goal with |- context [collect_pos pf dec read (Some 1%nat) errors key ?st p] => destruct (collect_pos_total pf dec read (Some 1%nat) errors key st p dp Hp (or_introl Pn)) as [s1 H1] end. rewrite H1. cbn [bind].
    destruct (collect_pos_total pf dec read (Some 1%nat) errors key s1 q dq Hq (or_intror (ex_intro _ rq Eq))) as [s2 H2]. rewrite H2. cbn [bind]. eauto. }
  destruct Hc as [c Hc]. exists c. split; [exact Hc|]. apply collect_key_spec in Hc as (_ & _ & C & D & E). cbn [nb_eff bands_of filter flat_map] in *. unfold file_ok in C. rewrite Hp, Hq in C, D. rewrite Bp, Bq, Ep, Eq in C, D. cbn in C, D.
  split; [exact C|]. split; [exact D|]. intros j b Hj. assert (Hin := nth_error_In _ _ Hj).
  assert (NB : forall d, has_bands pf dec 1 key d = true -> exists x, num pf d (band_key dec key b) = Some x).
  { intros d Hb. unfold has_bands in Hb. rewrite forallb_forall in Hb. specialize (Hb b Hin). destruct (num pf d (band_key dec key b)); [eauto|discriminate]. }
  destruct (NB dp Bp) as [x Hx]. destruct (NB dq Bq) as [y Hy]. exists x, y. split; [exact Hx|]. split; [exact Hy|]. rewrite (E ltac:(intros r [<-|[<-|[]]] _; unfold file_ok; [rewrite Hp|rewrite Hq]; assumption) j b Hj). rewrite Hp, Hq, Bp, Bq, Hx, Hy. reflexivity.
Qed.
Print Assumptions C90_bands_misaligned_refuted.

Definition c_dec (n : nat) : string := match n with 0%nat => "0" | 1%nat => "1" | _ => "?" end.
Definition c_files (p : string) : option (dict jv) :=
  if String.eqb p "100" then Some [("r_expected_band_-1", JFlt 1); ("r_expected_band_+0", JFlt 2); ("r_expected_band_+1", JInt 3)]
  else if String.eqb p "200" then Some [("r", JFlt 5); ("r_expected_band_-1", JFlt 4); ("r_expected_band_+0", JFlt 5); ("r_expected_band_+1", JFlt 6)]
  else None.
Example C90_nonvacuous : exists out c, collect (fun _ => None) c_dec c_files (Some 1%nat) false ["100"; "150"; "200"] ["r"] = Ok out /\ nth_error out 0 = Some ("r", c) /\
  co_pos c = ["200"] /\ co_results c = [[5%R]] /\ co_bands c = [[1%R; 4%R]; [2%R; 5%R]; [3%R; 6%R]].
Proof. eexists _, _. split; [reflexivity|]. split; [reflexivity|]. repeat split. Qed.
Example C90_bands_nonvacuous : exists c, collect_key (fun _ => None) c_dec c_files (Some 1%nat) false ["150"; "200"] "r" = Ok c /\ co_bands c = [[4%R]; [5%R]; [6%R]] /\ co_pos c = ["200"] /\
  (forall p d, In p ["150"; "200"] -> c_files p = Some d -> has_bands (fun _ => None) c_dec 1 "r" d = true /\ is_some (entry (fun _ => None) false "r" d) = true).
Proof. eexists. split; [reflexivity|]. split; [reflexivity|]. split; [reflexivity|]. intros p d [<-|[<-|[]]] H; [discriminate|]. injection H as <-. split; reflexivity. Qed.
