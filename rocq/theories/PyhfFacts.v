(** Lemmas on the conversion of pyhf files. *)
From Verif Require Import Py PyFacts Base Expressions Norms Sample Channels Params Core ModelIO ModelIOFacts PyhfConvert.
Local Open Scope string_scope.
Local Open Scope list_scope.

Lemma imp_eq (a b : imp) : fst a = fst b -> snd a = snd b -> a = b.
Proof. destruct a, b; cbn; congruence. Qed.
Lemma add_imp_assoc a b c : add_imp (add_imp a b) c = add_imp a (add_imp b c).
Proof. apply imp_eq; cbn; ring. Qed.
Lemma add_imp_0_r a : add_imp a (0, 0)%R = a.
Proof. apply imp_eq; cbn; ring. Qed.
Lemma add_imp_0_l a : add_imp (0, 0)%R a = a.
Proof. apply imp_eq; cbn; ring. Qed.

(** the value of a call, and of a stored impact, in a bin *)
Definition call_at (c : string * list imp) (b : nat) : imp := match snd c with [i] => i | l => nth b l (0, 0)%R end.
Definition at_bin (p : pimpact) (b : nat) : imp := match p with One i => i | Many l => nth b l (0, 0)%R end.
Definition csum (q : string) (b : nat) (l : list (string * list imp)) : imp :=
  fold_right (fun c acc => if String.eqb q (fst c) then add_imp (call_at c b) acc else acc) (0, 0)%R l.
Lemma csum_app q b l m : csum q b (l ++ m) = add_imp (csum q b l) (csum q b m).
Proof.
  induction l as [|c l IH]; cbn [app csum fold_right]; [now rewrite add_imp_0_l|]. fold (csum q b (l ++ m)). fold (csum q b l). rewrite IH.
  destruct (String.eqb q (fst c)); [now rewrite add_imp_assoc|reflexivity].
Qed.
Lemma collapse_at l b : at_bin (collapse l) b = call_at ("", l) b.
Proof. destruct l as [|i [|j l]]; reflexivity. Qed.

(** what is needed of a list of calls for the sums to be right *)
Definition calls_ok (nb : nat) (calls : list (string * list imp)) : Prop :=
  (forall c, In c calls -> (length (snd c) = 1%nat \/ length (snd c) = nb) /\ same_sign (snd c) = false) /\
  ((2 < nb)%nat -> forall pre c post, calls = pre ++ c :: post -> length (snd c) = 1%nat -> forall c', In c' pre -> fst c' = fst c -> length (snd c') = 1%nat).

Definition Inv (nb : nat) (calls : list (string * list imp)) (imps : dict pimpact) : Prop :=
  forall q, match dget q imps with
            | None => forall c, In c calls -> fst c <> q
            | Some p => (exists c, In c calls /\ fst c = q) /\ (forall b, (b < nb)%nat -> at_bin p b = csum q b calls) /\
                        match p with One _ => True | Many l => length l = nb /\ exists c, In c calls /\ fst c = q /\ length (snd c) <> 1%nat end
            end.

Lemma nth_zip (l l' : list imp) b : (b < length l)%nat -> (b < length l')%nat -> nth b (zipwith add_imp l l') (0, 0)%R = add_imp (nth b l (0, 0)%R) (nth b l' (0, 0)%R).
Proof. revert l' b. induction l as [|x l IH]; intros [|y l'] b Ha Hb; cbn in *; try lia. destruct b; [reflexivity|]. apply IH; lia. Qed.
Lemma nth_rep (p : imp) n b : (b < n)%nat -> nth b (repeat p n) (0, 0)%R = p.
Proof. revert b. induction n; intros [|b] H; cbn; try lia; auto. apply IHn. lia. Qed.

Lemma Inv_step nb calls imps c nps keep poi : Inv nb calls imps -> (length (snd c) = 1%nat \/ length (snd c) = nb) -> same_sign (snd c) = false ->
  ((2 < nb)%nat -> length (snd c) = 1%nat -> forall c', In c' calls -> fst c' = fst c -> length (snd c') = 1%nat) ->
  Inv nb (calls ++ [c]) (snd (add_impact keep poi (nps, imps) c)).
Proof.
  intros HI Hl Hs Ho. destruct c as (n & l). unfold add_impact. cbn [fst snd] in *. unfold fix_signs. rewrite Hs. intros q. destruct (String.eqb q n) eqn:E.
  - apply String.eqb_eq in E. subst q. rewrite dget_dset_eq. split; [exists (n, l); split; [apply in_or_app; right; now left|reflexivity]|].
    assert (HS : forall b, csum n b (calls ++ [(n, l)]) = add_imp (csum n b calls) (call_at (n, l) b)).
    { intros b. rewrite csum_app. f_equal. cbn [csum fold_right fst]. now rewrite String.eqb_refl, add_imp_0_r. }
    specialize (HI n). destruct (dget n imps) as [prev|].
    + destruct HI as (_ & Hat & Hm). destruct prev as [p|lp]; destruct l as [|i [|j l]]; cbn [collapse combine_impacts].
      * split; [|split; [destruct Hl as [Hl|Hl]; cbn in Hl; [discriminate|cbn; exact Hl]|exists (n, []); repeat split; [apply in_or_app; right; now left|discriminate]]].
        intros b Hb. destruct Hl as [Hl|Hl]; cbn in Hl; [discriminate|lia].
      * split; [|exact Logic.I]. intros b Hb. rewrite HS, <- Hat by exact Hb. reflexivity.
      * assert (L : length (i :: j :: l) = nb) by (destruct Hl as [Hl|Hl]; [discriminate|exact Hl]). split.
        -- intros b Hb. cbn [at_bin]. rewrite nth_zip by (rewrite ?repeat_length; lia). rewrite nth_rep by lia. rewrite HS, <- Hat by exact Hb. reflexivity.
        -- split; [rewrite zipwith_length, repeat_length; lia|]. exists (n, i :: j :: l). repeat split; [apply in_or_app; right; now left|discriminate].
      * destruct Hl as [Hl|Hl]; cbn in Hl; [discriminate|]. destruct Hm as (Lp & c & Hc & En & Hc1). split; [intros b Hb; lia|]. split; [destruct lp; cbn in *; lia|]. exists c. repeat split; auto. apply in_or_app. now left.
      * destruct Hm as (Lp & c & Hc & En & Hc1). assert (N2 : (nb <= 2)%nat). { destruct (Nat.le_gt_cases nb 2); [assumption|]. exfalso. apply Hc1. apply Ho; auto. }
        split.
        -- intros b Hb. cbn [at_bin]. rewrite nth_zip by (rewrite ?repeat_length; lia). rewrite nth_rep by lia. rewrite HS, <- Hat by exact Hb. reflexivity.
        -- split; [rewrite zipwith_length, repeat_length; lia|]. exists c. repeat split; auto. apply in_or_app. now left.
      * assert (L : length (i :: j :: l) = nb) by (destruct Hl as [Hl|Hl]; [discriminate|exact Hl]). destruct Hm as (Lp & _). split.
        -- intros b Hb. cbn [at_bin]. rewrite nth_zip by lia. rewrite HS, <- Hat by exact Hb. reflexivity.
        -- split; [rewrite zipwith_length; lia|]. exists (n, i :: j :: l). repeat split; [apply in_or_app; right; now left|discriminate].
    + assert (Z : forall b, csum n b calls = (0, 0)%R).
      { intros b. clear -HI. induction calls as [|c calls IH]; [reflexivity|]. cbn [csum fold_right]. fold (csum n b calls). destruct (String.eqb n (fst c)) eqn:E.
        - apply String.eqb_eq in E. exfalso. apply (HI c (or_introl eq_refl)). now symmetry.
        - apply IH. intros; apply HI; now right. }
      split.
      * intros b Hb. rewrite HS, Z, add_imp_0_l, collapse_at. reflexivity.
      * destruct l as [|i [|j l]]; cbn [collapse]; [|exact Logic.I|]; (split; [destruct Hl as [Hl|Hl]; [discriminate|exact Hl]|]); eexists; (split; [apply in_or_app; right; now left|]); split; try reflexivity; discriminate.
  - pose proof E as E'. apply String.eqb_neq in E. rewrite dget_dset_neq by exact E. specialize (HI q). destruct (dget q imps) as [p|].
    + destruct HI as ((c & Hc & En) & Hat & Hm). split; [exists c; split; [apply in_or_app; now left|exact En]|]. split.
      * intros b Hb. rewrite csum_app. cbn [csum fold_right fst]. rewrite E', add_imp_0_r. now apply Hat.
      * destruct p; [exact Logic.I|]. destruct Hm as (A & c1 & B & C & D). split; [exact A|]. exists c1. split; [apply in_or_app; now left|auto].
    + intros c Hc. apply in_app_or in Hc as [Hc|[<-|[]]]; [now apply HI|]. cbn. congruence.
Qed.
Lemma fold_calls nb keep poi calls : forall done st, calls_ok nb (done ++ calls) -> Inv nb done (snd st) ->
  Inv nb (done ++ calls) (snd (fold_left (add_impact keep poi) calls st)).
Proof.
  induction calls as [|c calls IH]; intros done (nps & imps) Hok HI; cbn [fold_left]; [now rewrite app_nil_r|].
  replace (done ++ c :: calls) with ((done ++ [c]) ++ calls) in * by (rewrite <- app_assoc; reflexivity).
  apply IH; [exact Hok|]. cbn [snd] in HI. destruct Hok as (H1 & H2). destruct (H1 c) as (A & B); [apply in_or_app; left; apply in_or_app; right; now left|].
  apply Inv_step; auto. intros N L c' Hc' En. eapply (H2 N done c calls); eauto. rewrite <- app_assoc. reflexivity.
Qed.
Lemma Inv_nil nb : Inv nb [] [].
Proof. intros q. cbn. intros c []. Qed.

(** * NPs *)
Lemma fold_nps keep poi calls : forall st, fst (fold_left (add_impact keep poi) calls st) = fold_left (fun d c => declare poi (fst c) d) calls (fst st).
Proof. induction calls as [|c calls IH]; intros st; cbn [fold_left]; [reflexivity|]. rewrite IH. reflexivity. Qed.
Definition default_np (n : string) : NSpec := mkNSpec n 0%R None (Some 1%R).
(** NPs extended by the parameters of a list of names *)
Definition grown (poi : string) (names : list string) (d d' : dict NSpec) : Prop :=
  (NoDup (keys d) -> NoDup (keys d')) /\ (~ In poi (keys d) -> ~ In poi (keys d')) /\
  (forall n s, dget n d = Some s -> dget n d' = Some s) /\ (forall n, In n names -> n = poi \/ In n (keys d')) /\
  (forall n, ~ In n (keys d) -> In n (keys d') -> In n names /\ dget n d' = Some (default_np n)).
Lemma declare_grown poi n d : grown poi [n] d (declare poi n d).
Proof.
  unfold declare. destruct (dmem n d) eqn:E; cbn [negb andb].
  - apply dmem_spec in E. repeat split; auto; [intros x [<-|[]]; now right| |]; intros; contradiction.
  - assert (Hn : ~ In n (keys d)) by (intros X; apply dmem_spec in X; congruence).
    destruct (String.eqb n poi) eqn:Ep; cbn [negb].
    + apply String.eqb_eq in Ep. subst. repeat split; auto; [intros x [<-|[]]; now left| |]; intros; contradiction.
    + apply String.eqb_neq in Ep. assert (K : keys (dset n (default_np n) d) = keys d ++ [n]) by (rewrite dset_app_new by exact Hn; unfold keys; now rewrite map_app).
      unfold grown. fold (default_np n). rewrite K. split; [intros ND; rewrite <- K; now apply NoDup_keys_dset|]. split; [intros A X; apply in_app_or in X as [X|[X|[]]]; auto|].
      split; [intros x s Hx; rewrite dget_dset_neq; [exact Hx|]; intros ->; apply Hn; apply dget_In in Hx; apply in_map_iff; exists (n, s); auto|].
      split; [intros x [<-|[]]; right; apply in_or_app; right; now left|].
      intros x Hx X. apply in_app_or in X as [X|[X|[]]]; [contradiction|]. subst x. split; [now left|]. now rewrite dget_dset_eq.
Qed.
Lemma grown_trans poi n1 n2 d1 d2 d3 : grown poi n1 d1 d2 -> grown poi n2 d2 d3 -> grown poi (n1 ++ n2) d1 d3.
Proof.
  intros (A1 & A2 & A3 & A4 & A5) (B1 & B2 & B3 & B4 & B5). split; [auto|]. split; [auto|]. split; [auto|].
  assert (K : forall n, In n (keys d2) -> In n (keys d3)).
  { intros n Hn. destruct (dget n d2) as [s|] eqn:E; [|apply dget_None in E; contradiction]. apply B3 in E. apply dget_In in E. apply in_map_iff. exists (n, s). auto. }
  split.
  - intros n Hn. apply in_app_or in Hn as [Hn|Hn]; [destruct (A4 n Hn); auto|auto].
  - intros n Hn H3. destruct (in_dec string_dec n (keys d2)) as [H2|H2].
    + destruct (A5 n Hn H2) as (X & Y). split; [apply in_or_app; now left|now apply B3].
    + destruct (B5 n H2 H3) as (X & Y). split; [apply in_or_app; now right|exact Y].
Qed.
Lemma grown_nil poi d : grown poi [] d d.
Proof. repeat split; auto; intros; contradiction. Qed.
Lemma calls_grown poi calls : forall d, grown poi (map fst calls) d (fold_left (fun d (c : string * list imp) => declare poi (fst c) d) calls d).
Proof.
  induction calls as [|c calls IH]; intros d; cbn [map fold_left]; [apply grown_nil|]. change (fst c :: map fst calls) with ([fst c] ++ map fst calls).
  eapply grown_trans; [apply declare_grown|apply IH].
Qed.

(** * samples *)
Definition skipped (s : PSample) (m : modifier) : bool := existsb (String.eqb (mod_name m)) (normfactors (ps_mods s)).
(** all the calls made for a sample *)
Definition sample_calls (meas : list PPar) (s : PSample) : res (list (string * list imp)) :=
  let! l := mapM (mod_calls meas (ps_data s)) (filter (fun m => negb (skipped s m)) (ps_mods s)) in Ok (concat l).
Lemma sample_fold keep meas poi s calls : sample_calls meas s = Ok calls -> forall st,
  foldM (fun st m => if skipped s m then Ok st else let! c := mod_calls meas (ps_data s) m in Ok (fold_left (add_impact keep poi) c st)) (ps_mods s) st
  = Ok (fold_left (add_impact keep poi) calls st).
Proof.
  unfold sample_calls. intros H. apply bind_Ok in H as (l & Hl & H). inversion H; subst calls; clear H. revert l Hl. generalize (ps_mods s). intros ms.
  induction ms as [|m ms IH]; intros l Hl st; cbn [filter foldM mapM] in *; [inversion Hl; subst; reflexivity|].
  destruct (skipped s m); cbn [negb] in Hl; [cbn [bind]; now apply IH|]. cbn [mapM] in Hl. apply bind_Ok in Hl as (c & Hc & Hl). apply bind_Ok in Hl as (l' & Hl' & Hl). inversion Hl; subst l; clear Hl.
  rewrite Hc. cbn [bind concat]. rewrite fold_left_app. now apply IH.
Qed.
Lemma convert_sample_ok keep meas poi nps s calls : sample_calls meas s = Ok calls -> (length (normfactors (ps_mods s)) <= 1)%nat ->
  calls_ok (length (ps_data s)) calls ->
  exists nps' imps, convert_sample keep meas poi nps s = Ok (nps', mkOSample (ps_name s) (ps_data s) (hd_error (normfactors (ps_mods s))) imps) /\
    grown poi (map fst calls) nps nps' /\ Inv (length (ps_data s)) calls imps.
Proof.
  intros Hc Hn Hok. exists (fold_left (fun d c => declare poi (fst c) d) calls nps), (snd (fold_left (add_impact keep poi) calls (nps, []))).
  split; [|split; [apply calls_grown|]].
  - unfold convert_sample. assert (E : match normfactors (ps_mods s) with [] => Ok None | [n] => Ok (Some n) | _ => Err KeyError end = Ok (hd_error (normfactors (ps_mods s)))).
    { destruct (normfactors (ps_mods s)) as [|a [|b l]]; cbn in *; try reflexivity. lia. }
    rewrite E. cbn [bind]. change (fun (st : dict NSpec * dict pimpact) (m : modifier) => if existsb (String.eqb (mod_name m)) (normfactors (ps_mods s)) then Ok st else let! calls0 := mod_calls meas (ps_data s) m in Ok (fold_left (add_impact keep poi) calls0 st))
      with (fun (st : dict NSpec * dict pimpact) (m : modifier) => if skipped s m then Ok st else let! c := mod_calls meas (ps_data s) m in Ok (fold_left (add_impact keep poi) c st)).
    rewrite (sample_fold keep meas poi s calls Hc). cbn [bind]. now rewrite fold_nps.
  - apply (fold_calls _ keep poi calls [] (nps, [])); [exact Hok|]. apply Inv_nil.
Qed.

(** * reading the output back *)
Definition loaded_sample (s : OSample) : Sample :=
  mkSample (os_name s) (match os_norm s with Some n => ExprNorm n | None => NumberNorm (Some 1%R) end)
    (match os_norm s with Some _ => Some 1%R | None => None end) (Some (os_yields s)) (map (fun kp => (fst kp, j_impact (snd kp))) (os_impacts s)).
Lemma np_array_flt l : np_array (map JFlt l) = Ok l.
Proof. induction l as [|x l IH]; cbn; [reflexivity|]. now rewrite IH. Qed.
Lemma sample_loads float_of s d : (forall n, os_norm s = Some n -> float_of n = None) -> j_sample s = JObj d -> sample_load float_of d = Ok (loaded_sample s).
Proof.
  intros Hn H. unfold j_sample in H. injection H as <-. unfold sample_load, loaded_sample. destruct s as [nm ys [n|] im]; cbn [os_name os_yields os_norm os_impacts app] in *.
  - specialize (Hn n eq_refl). cbn. rewrite Hn. cbn. rewrite np_array_flt. cbn. reflexivity.
  - cbn. rewrite np_array_flt. cbn. reflexivity.
Qed.
Definition loaded_channel (c : OChannel) : Channel :=
  mkChannel (oc_name c) (match oc_bins c with None => KSingle | Some b => KMulti b end) (map (fun s => (os_name s, loaded_sample s)) (oc_samples c)).
Lemma samples_loads float_of l : (forall s, In s l -> forall n, os_norm s = Some n -> float_of n = None) -> forall acc, NoDup (keys acc ++ map os_name l) ->
  foldM (fun acc v => match v with JObj d => let! s := sample_load float_of d in Ok (dset (s_name s) s acc) | _ => Err TypeError end) (map j_sample l) acc
  = Ok (acc ++ map (fun s => (os_name s, loaded_sample s)) l).
Proof.
  induction l as [|s l IH]; intros Hf acc ND; cbn [map foldM]; [now rewrite app_nil_r|].
  destruct (j_sample s) as [| | | | | |d] eqn:E; try discriminate. rewrite (sample_loads float_of s d (Hf s (or_introl eq_refl)) E). cbn [bind].
  assert (X : ~ In (os_name s) (keys acc)). { cbn [map] in ND. apply NoDup_mid in ND. exact ND. }
  change (s_name (loaded_sample s)) with (os_name s). rewrite dset_app_new by exact X. rewrite IH.
  - now rewrite <- app_assoc.
  - intros; eapply Hf; eauto. now right.
  - unfold keys in *. rewrite map_app, <- app_assoc. exact ND.
Qed.
Lemma mapM_jstr l : mapM jstr (map JStr l) = Ok l.
Proof. induction l as [|x l IH]; cbn; [reflexivity|]. now rewrite IH. Qed.
Lemma channel_loads float_of inv c d : (forall s, In s (oc_samples c) -> forall n, os_norm s = Some n -> float_of n = None) -> NoDup (map os_name (oc_samples c)) ->
  j_channel c = JObj d -> channel_load float_of inv d = Ok (loaded_channel c).
Proof.
  intros Hf ND H. unfold j_channel in H. injection H as <-. unfold channel_load, loaded_channel, samples_load. pose proof (samples_loads float_of (oc_samples c) Hf [] ND) as L.
  destruct c as [nm [b|] sm]; cbn [oc_name oc_bins oc_samples app] in *.
  - cbn [dget String.eqb Ascii.eqb Bool.eqb dgetE bind jstr jlist]. unfold dgetE. cbn [dget String.eqb Ascii.eqb Bool.eqb bind jlist]. rewrite L. cbn [bind fst snd jlist]. rewrite mapM_jstr. reflexivity.
  - cbn [dget String.eqb Ascii.eqb Bool.eqb dgetE bind jstr jlist]. unfold dgetE. cbn [dget String.eqb Ascii.eqb Bool.eqb bind jlist jstr]. rewrite L. reflexivity.
Qed.
Definition loaded_np (n : NSpec) : NP :=
  mkNP (Some (ns_name n)) (Some (ns_nominal n)) (match ns_variation n with Some v => v | None => match ns_constraint n with Some c => c | None => 1%R end end)
    (ns_constraint n) (match ns_constraint n with Some _ => Some (aux_of (ns_name n)) | None => None end) None None.
Lemma np_loads n d : j_np n = JObj d -> np_load None d = Ok (loaded_np n).
Proof. intros H. unfold j_np in H. injection H as <-. destruct n as [nm x [v|] [c|]]; reflexivity. Qed.
Lemma nps_load l : forall acc aux, NoDup (keys acc ++ map ns_name l) ->
  exists aux', foldM (fun st v => load_np v st) (map j_np l) (acc, aux) = Ok (acc ++ map (fun n => (ns_name n, loaded_np n)) l, aux') /\
    (forall n, In n l -> ns_constraint n <> None -> In (aux_of (ns_name n)) (keys aux')) /\ (forall a, In a (keys aux) -> In a (keys aux')).
Proof.
  induction l as [|n l IH]; intros acc aux ND; cbn [map foldM]; [exists aux; rewrite app_nil_r; repeat split; auto; contradiction|].
  destruct (j_np n) as [| | | | | |d] eqn:E; try discriminate. cbn [load_np]. rewrite (np_loads n d E). cbn [bind]. 
  assert (X : ~ In (ns_name n) (keys acc)). { cbn [map] in ND. apply NoDup_mid in ND. exact ND. }
  assert (Em : dmem (ns_name n) acc = false) by (destruct (dmem (ns_name n) acc) eqn:Y; [apply dmem_spec in Y; contradiction|reflexivity]).
  change (name_of (np_name (loaded_np n))) with (Ok (ns_name n)). cbn [bind fst snd]. rewrite Em. cbn [bind]. rewrite dset_app_new by exact X.
  match goal with |- context [foldM _ _ (_, ?a)] => set (aux1 := a) end.
  destruct (IH (acc ++ [(ns_name n, loaded_np n)]) aux1) as (aux' & A & B & C).
  { unfold keys in *. rewrite map_app, <- app_assoc. exact ND. }
  exists aux'. rewrite A. split; [rewrite <- app_assoc; reflexivity|]. split.
  - intros m [<-|Hm] Hc; [|now apply B]. apply C. subst aux1. unfold loaded_np at 1. cbn [np_aux_obs]. destruct (ns_constraint n) as [c|]; [|contradiction].
    destruct (dmem (aux_of (ns_name n)) aux) eqn:Y; [now apply dmem_spec|]. rewrite dset_app_new by (intros Z; apply dmem_spec in Z; congruence). unfold keys. rewrite map_app. apply in_or_app. right. now left.
  - intros a Ha. apply C. subst aux1. destruct (np_aux_obs (loaded_np n)) as [a0|]; [|exact Ha]. destruct (dmem a0 aux) eqn:Y; [exact Ha|]. rewrite dset_app_new by (intros Z; apply dmem_spec in Z; congruence). unfold keys in *. rewrite map_app. apply in_or_app. now left.
Qed.
Lemma channels_load E l : (forall c, In c l -> (forall s, In s (oc_samples c) -> (forall n, os_norm s = Some n -> e_float E n = None) /\ length (os_yields s) = nbins (loaded_channel c)) /\ NoDup (map os_name (oc_samples c))) ->
  forall acc, NoDup (keys acc ++ map oc_name l) ->
  foldM (fun acc v => load_named (load_channel E) (fun c => Ok (ch_name c)) v acc) (map j_channel l) acc = Ok (acc ++ map (fun c => (oc_name c, loaded_channel c)) l).
Proof.
  induction l as [|c l IH]; intros Hc acc ND; cbn [map foldM]; [now rewrite app_nil_r|]. destruct (Hc c (or_introl eq_refl)) as (A & B).
  destruct (j_channel c) as [| | | | | |d] eqn:E0; try discriminate. cbn [load_named]. unfold load_channel at 1. rewrite (channel_loads (e_float E) (e_inv E) c d); [|intros s Hs; apply A, Hs|exact B|exact E0]. cbn [bind].
  assert (F : forallb (fun s => match s_yields s with Some y => (length y =? nbins (loaded_channel c))%nat | None => true end) (values (ch_samples (loaded_channel c))) = true).
  { apply forallb_forall. intros s Hs. unfold values, loaded_channel in Hs. cbn [ch_samples] in Hs. rewrite map_map in Hs. apply in_map_iff in Hs as (s0 & <- & Hs0). cbn [snd loaded_sample s_yields]. apply Nat.eqb_eq. now apply A. }
  rewrite F. cbn [bind]. change (ch_name (loaded_channel c)) with (oc_name c).
  assert (X : ~ In (oc_name c) (keys acc)). { cbn [map] in ND. apply NoDup_mid in ND. exact ND. }
  assert (Em : dmem (oc_name c) acc = false) by (destruct (dmem (oc_name c) acc) eqn:Y; [apply dmem_spec in Y; contradiction|reflexivity]). rewrite Em. cbn [bind]. rewrite dset_app_new by exact X. rewrite IH.
  - now rewrite <- app_assoc.
  - intros; apply Hc; now right.
  - unfold keys in *. rewrite map_app, <- app_assoc. exact ND.
Qed.
(** the whole document *)
Lemma document_loads E m0 poi nps chs rest : m_exprs m0 = [] -> NoDup (map ns_name nps) -> NoDup (map oc_name chs) ->
  (forall c, In c chs -> (forall s, In s (oc_samples c) -> (forall n, os_norm s = Some n -> e_float E n = None) /\ length (os_yields s) = nbins (loaded_channel c)) /\ NoDup (map os_name (oc_samples c))) ->
  exists aux, model_read E m0 (("model", JObj [("POIs", JList [j_poi poi]); ("NPs", JList (map j_np nps)); ("channels", JList (map j_channel chs))]) :: rest)
    = Ok (mkModel "" None [(poi, mkPOI (Some poi) (Some 0%R) (Some 1%R) (Some 0%R) None None)] (map (fun n => (ns_name n, loaded_np n)) nps) aux
            (map (fun c => (oc_name c, loaded_channel c)) chs) [] (m_asym m0) (m_linear m0) (m_simple_sym m0) (m_lognormal m0) (m_cutoff m0)) /\
    (forall n, In n nps -> ns_constraint n <> None -> In (aux_of (ns_name n)) (keys aux)).
Proof.
  intros Hex N1 N2 Hc. destruct (nps_load nps [] [] N1) as (aux & A & B & _). exists aux. split; [|exact B].
  unfold model_read, dgetE. cbn [dget String.eqb Ascii.eqb Bool.eqb bind]. unfold section. cbn [dget String.eqb Ascii.eqb Bool.eqb bind jlist foldM].
  cbn [load_field dget String.eqb Ascii.eqb Bool.eqb bind as_str as_ostr].
  change (load_named (poi_load None) (fun p => name_of (poi_name p)) (j_poi poi) []) with (Ok [(poi, mkPOI (Some poi) (Some 0%R) (Some 1%R) (Some 0%R) None None)]). cbn [bind].
  unfold dict in *. rewrite A. cbn [bind app fst snd]. pose proof (channels_load E chs Hc [] N2) as K. unfold dict in K. rewrite K. cbn [bind app]. now rewrite Hex.
Qed.
