(** C98: a workspace channel that is converted (convert_ws.py) and loaded as a model of fastprof (sample.py) gives the yields of the workspace. *)
From Verif Require Import Py PyFacts Base BaseFacts Expressions Norms RSort Vander Sample SampleFacts SampleProps ConvertWs ConvertWsFacts ConvertWsSpec ConvertWsProps ConvertPackProps.
Local Open Scope string_scope.
Local Open Scope list_scope.
Local Open Scope R_scope.

(** * Specification *)
(** relative change of a yield; none if there is no yield *)
Definition change (y0 y : R) : R := if Reqb y0 0 then 0 else y / y0 - 1.
(** how far an impact may be from the one of the workspace because of packing *)
Definition packing_error (ptol : option R) (delta x : R) : R := match ptol with None => 0 | Some tol => tol + tol / (1 - delta) + delta * Rabs x end.
Definition packing_ok (ptol : option R) (delta : R) (otrim : option (R -> R)) : Prop :=
  match ptol with None => True | Some tol => 0 <= tol /\ otrim_ok delta otrim end.

(** * Facts *)
Lemma imp_value_one y0 y : imp_value 1 y0 y = Ok (change y0 y).
Proof.
  unfold imp_value, change. destruct (Reqb y0 0); [reflexivity|]. assert (Reqb 1 0 = false) as -> by (apply Reqb_false; lra).
  unfold py_pow. assert (Reqb (1 / 1) 1 = true) as -> by (apply Reqb_true; lra). reflexivity.
Qed.
Definition kept (r : packed) : option packed := match r with PNone => None | _ => Some r end.
Lemma pack_impacts_ok tol otrim d : (forall k t, In (k, t) d -> exists r, pack tol otrim t = Ok r) -> NoDup (keys d) ->
  exists res, pack_impacts tol otrim d = Ok res /\ (forall k, ~ In k (keys d) -> dget k res = None) /\ forall k t r, In (k, t) d -> pack tol otrim t = Ok r -> dget k res = kept r.
Proof.
  unfold pack_impacts. induction d as [|(k, t) d IH] using rev_ind; intros H ND.
  - exists []. split; [reflexivity|]. split; [reflexivity|intros k t r []].
  - unfold keys in ND. rewrite map_app in ND. cbn in ND. apply NoDup_remove in ND. rewrite app_nil_r in ND. destruct ND as (ND & Hni).
    destruct (IH (fun k t Hin => H k t (in_or_app _ _ _ (or_introl Hin))) ND) as (res & E & G1 & G2).
    destruct (H k t) as (r & Er); [apply in_or_app; right; now left|].
    rewrite foldM_snoc, E. cbn [bind fst snd]. rewrite Er. cbn [bind].
    exists (match kept r with None => res | Some r => dset k r res end). split; [destruct r; reflexivity|]. split.
    + intros q Hq. unfold keys in Hq. rewrite map_app, in_app_iff in Hq. cbn in Hq. destruct (kept r); [rewrite dget_dset_ne by (intros ->; apply Hq; right; now left)|]; apply G1; intros X; apply Hq; now left.
    + intros q t' r' Hin Er'. apply in_app_or in Hin. destruct Hin as [Hin|[X|[]]].
      * assert (q <> k) by (intros ->; apply Hni; apply (in_map fst) in Hin; exact Hin). destruct (kept r); [rewrite dget_dset_ne by assumption|]; eapply G2; eassumption.
      * injection X as <- <-. rewrite Er in Er'. injection Er' as <-. destruct (kept r) as [r'|] eqn:Ek; [apply dget_dset_eq|]. apply G1. exact Hni.
Qed.
Lemma dget_in_pair {V} k (d : dict V) t : dget k d = Some t -> In (k, t) d.
Proof. induction d as [|[a v] d IH]; intros H; [discriminate|]. cbn in H. destruct (String.eqb k a) eqn:E; [apply String.eqb_eq in E; injection H as <-; subst; now left|right; now apply IH]. Qed.
Lemma dget_map_snd {V W} (f : V -> W) k (d : dict V) : dget k (map (fun kv => (fst kv, f (snd kv))) d) = option_map f (dget k d).
Proof. induction d as [|[a v] d IH]; [reflexivity|]. cbn. destruct (String.eqb k a); [reflexivity|exact IH]. Qed.
(** the result of packing, with its error *)
Lemma packing_value ptol otrim delta ks d : packing_ok ptol delta otrim -> NoDup (keys d) -> (forall k t, In (k, t) d -> t <> [] /\ same_keys ks t) ->
  exists res, packing ptol otrim d = Ok res /\ forall p t, dget p d = Some t -> exists r, dget p res = kept r /\
    (forall l, r = PMany l -> length l = length t) /\
    forall b k, (b < length t)%nat -> In k ks -> exists y, packed_value r b k = Some y /\ Rabs (y - value k (nth b t [])) <= packing_error ptol delta (value k (nth b t [])).
Proof.
  intros HP ND HD. unfold packing. destruct ptol as [tol|].
  - destruct HP as (Ht & Ho). destruct (pack_impacts_ok tol otrim d) as (res & E & _ & G); [|exact ND|].
    + intros k t Hin. destruct (HD k t Hin) as (H1 & H2). destruct (C97_packed_within_tolerance tol otrim delta ks t Ht Ho H1 H2) as (r & E & _). eauto.
    + exists res. split; [exact E|]. intros p t Hp. apply dget_in_pair in Hp. destruct (HD p t Hp) as (H1 & H2).
      destruct (C97_packed_within_tolerance tol otrim delta ks t Ht Ho H1 H2) as (r & Er & B). exists r. split; [eapply G; eassumption|]. split.
      * intros l ->. pose proof (C97_packing_rule tol otrim ks t (PMany l) H1 H2 Er) as Q. cbv zeta in Q. apply Q.
      * intros b k Hb Hk. destruct (B b k Hb Hk) as (y & Y1 & Y2). exists y. split; [exact Y1|]. cbv zeta in Y2. set (x := value k (nth b t [])) in *.
        destruct Ho as (Hd & _). unfold packing_error. assert (0 <= delta * Rabs x) by (apply Rmult_le_pos; [lra|apply Rabs_pos]).
        assert (tol <= tol / (1 - delta)). { apply (Rmult_le_reg_r (1 - delta)); [lra|]. unfold Rdiv. rewrite Rmult_assoc, Rinv_l by lra. rewrite Rmult_1_r. assert (0 <= tol * delta) by (apply Rmult_le_pos; lra). lra. }
        destruct r.
        -- destruct Y2 as (-> & Y2). rewrite Rminus_0_l, Rabs_Ropp. lra.
        -- assert (delta * tol <= tol) by (rewrite <- (Rmult_1_l tol) at 2; apply Rmult_le_compat_r; lra). lra.
        -- lra.
  - exists (map (fun kv => (fst kv, PMany (snd kv))) d). split; [reflexivity|]. intros p t Hp. exists (PMany t). split; [rewrite (dget_map_snd PMany); rewrite Hp; reflexivity|].
    split; [intros l E; injection E as <-; reflexivity|]. intros b k Hb Hk. exists (value k (nth b t [])). split.
    + cbn. eapply value_some; [|exact Hk]. destruct (HD p t (dget_in_pair _ _ _ Hp)) as (_ & (_ & H)). apply H, nth_In, Hb.
    + rewrite Rminus_diag_eq by reflexivity. rewrite Rabs_R0. cbn. lra.
Qed.
Lemma mapM_table key l : (forall d, In d l -> exists x, dget key d = Some x) -> exists im, mapM (table_entry key) (map j_table l) = Ok im /\ length im = length l /\
  forall b, (b < length l)%nat -> dget key (nth b l []) = Some (nth b im 0).
Proof.
  induction l as [|d l IH]; intros H; [exists []; repeat split; cbn; intros; lia|]. destruct (IH (fun d Hd => H d (or_intror Hd))) as (im & E & L & B). destruct (H d (or_introl eq_refl)) as (x & Hx).
  exists (x :: im). cbn [map mapM]. unfold table_entry at 1, j_table at 1, dgetE. rewrite dget_map_snd, Hx. cbn [option_map bind jnum]. rewrite E. cbn [bind].
  split; [reflexivity|]. split; [cbn; now rewrite L|]. intros [|b] Hb; [exact Hx|]. cbn. apply B. cbn in Hb. lia.
Qed.
(** looking up an impact in the loaded sample *)
Lemma impact_lookup fmt S par v r ys imps : s_yields S = Some ys -> s_impacts S = map (fun kv => (fst kv, j_packed (snd kv))) imps -> dget par imps = kept r ->
  (forall l, r = PMany l -> length l = length ys) ->
  (forall b, (b < length ys)%nat -> exists y, packed_value r b (fmt v) = Some y) -> (0 < length ys)%nat ->
  exists im, impact fmt S par v = Ok (Some im) /\ length im = length ys /\ forall b, (b < length ys)%nat -> packed_value r b (fmt v) = Some (nth b im 0).
Proof.
  intros HY HI HD HL HV Hn. unfold impact, nyields. rewrite HI, dget_map_snd, HD, HY. destruct r as [|d|l]; cbn [kept option_map j_packed].
  - eexists. split; [reflexivity|]. split; [apply repeat_length|]. intros b Hb. cbn. now rewrite nth_repeat.
  - destruct (HV 0%nat Hn) as (y & Hy). cbn in Hy. unfold j_table, table_entry, dgetE. rewrite dget_map_snd, Hy. cbn [option_map bind jnum]. eexists. split; [reflexivity|]. split; [apply repeat_length|].
    intros b Hb. cbn. rewrite Hy. f_equal. clear -Hb. revert b Hb. induction (length ys) as [|n IH]; intros b Hb; [lia|]. destruct b; [reflexivity|]. cbn. apply IH. lia.
  - specialize (HL l eq_refl). destruct (mapM_table (fmt v) l) as (im & E & L & B).
    + intros d Hd. destruct (In_nth l d [] Hd) as (b & Hb & <-). apply (HV b). lia.
    + rewrite E. cbn [bind]. exists im. split; [reflexivity|]. split; [lia|]. intros b Hb. cbn. apply B. lia.
Qed.
Lemma load_spec float_of is_par imps s : (forall n, w_norm s = Some n -> is_par n = true -> float_of n = None) ->
  sample_load float_of (sample_spec is_par imps s) =
  Ok (mkSample (w_name s) (match w_norm s with Some n => if is_par n then ExprNorm n else NumberNorm (Some 1) | None => NumberNorm (Some 1) end)
        (match w_norm s with Some n => if is_par n then Some (w_nn s) else None | None => None end) (Some (w_nom s)) (map (fun kv => (fst kv, j_packed (snd kv))) imps)).
Proof.
  intros HF. unfold sample_load, sample_spec, norm_instantiate, load_field.
  destruct (w_norm s) as [n|] eqn:En; [destruct (is_par n) eqn:Ep|]; cbn -[np_array]; rewrite ?(HF n eq_refl Ep); cbn -[np_array]; rewrite np_array_JFlt; reflexivity.
Qed.

(** * C98 *)

(** Conversion, packing and loading succeed; the loaded sample has the yields of the workspace, the normalization parameter at its nominal
    value, and as impacts the relative changes of the yields, up to the packing error. *)
Theorem C98_converted_sample rng fmt trim I nbins dflt pars variations valid samples e ptol otrim delta is_par float_of k s :
  inputs_ok rng e samples pars -> (0 < nbins)%nat -> NoDup (map fmt variations) -> packing_ok ptol delta otrim ->
  nth_error samples k = Some s -> (forall n, w_norm s = Some n -> is_par n = true -> float_of n = None) ->
  exists l' e' s' imps S,
    fill_channel_yields rng fmt trim 1 I nbins dflt pars variations valid samples e = Ok (l', e') /\
    nth_error l' k = Some s' /\ packing ptol otrim (w_imps s') = Ok imps /\ sample_load float_of (sample_spec is_par imps s') = Ok S /\
    let Y b := sep (norms samples) (I b) dflt k (w_norm s) in
    s_name S = w_name s /\ s_yields S = Some (map (fun b => trim (Y b e)) (seq 0 nbins)) /\
    (s_norm S, s_nominal_norm S) = match w_norm s with Some n => if is_par n then (ExprNorm n, Some (e n)) else (NumberNorm (Some 1), None) | None => (NumberNorm (Some 1), None) end /\
    (forall p v, In p pars -> In v variations -> exists im, impact fmt S (p_name p) v = Ok (Some im) /\ length im = nbins /\
      forall b, (b < nbins)%nat -> let x := change (Y b e) (Y b (shifted rng p v e)) in Rabs (nth b im 0 - x) <= packing_error ptol delta x) /\
    (forall p, In p pars -> ptol = None -> forall vs, mapM (variation_key float_of) (map fmt variations) = Ok vs -> available_variations float_of S (p_name p) = Ok vs).
Proof.
  intros HI Hn NDv HP Hk HF. destruct (C96_no_failure rng fmt trim I nbins dflt pars variations valid samples e) as (l' & e' & E).
  destruct (C96_tabulated_yields _ _ _ _ _ _ _ _ _ _ _ _ _ _ HI E) as (_ & _ & P). destruct (P k s Hk) as (s' & S1 & S2 & S3 & S4 & S5 & S6 & S7). clear P.
  pose proof HI as (_ & NDp & _).
  assert (HT : forall q t, In (q, t) (w_imps s') -> exists p, In p pars /\ p_name p = q /\ dget q (w_imps s') = Some t).
  { intros q t Hin. assert (Hq : In q (keys (w_imps s'))) by (apply (in_map fst) in Hin; exact Hin). rewrite S6 in Hq. apply in_map_iff in Hq. destruct Hq as (p & <- & Hp). exists p. split; [exact Hp|]. split; [reflexivity|].
    rewrite <- S6 in NDp. clear -Hin NDp. induction (w_imps s') as [|[a v] d IH]; [contradiction|]. cbn in *. inversion NDp; subst. destruct Hin as [X|Hin]; [injection X as -> ->; now rewrite String.eqb_refl|].
    destruct (String.eqb (p_name p) a) eqn:Ea; [|now apply IH]. apply String.eqb_eq in Ea. subst. exfalso. apply H1. apply (in_map fst) in Hin. exact Hin. }
  assert (HS : forall q t, In (q, t) (w_imps s') -> t <> [] /\ same_keys (map fmt variations) t).
  { intros q t Hin. destruct (HT q t Hin) as (p & Hp & <- & Hd). destruct (S7 p Hp) as ((tables & T1 & T2 & T3) & _). rewrite Hd in T1. injection T1 as <-. split; [intros ->; cbn in T2; lia|]. split; [exact NDv|].
    intros d Hin'. destruct (In_nth t d [] Hin') as (b & Hb & <-). apply (T3 b ltac:(lia)). exact NDv. }
  destruct (packing_value ptol otrim delta (map fmt variations) (w_imps s') HP ltac:(rewrite S6; exact NDp) HS) as (imps & E1 & G).
  exists l', e', s', imps. eexists. split; [exact E|]. split; [exact S1|]. split; [exact E1|]. split; [apply load_spec; rewrite S3; exact HF|].
  cbn [s_name s_yields s_norm s_nominal_norm]. rewrite S3. split; [exact S2|]. split; [now rewrite S5|]. split.
  { destruct (w_norm s) as [n|]; [|reflexivity]. rewrite (S4 n eq_refl). destruct (is_par n); reflexivity. }
  split.
  - intros p v Hp Hv. destruct (S7 p Hp) as ((tables & T1 & T2 & T3) & _). destruct (G _ _ T1) as (r & R1 & R2 & R3).
    assert (Hinj : forall v', In v' variations -> fmt v' = fmt v -> v' = v).
    { intros v' Hv' Ef. clear -NDv Hv Hv' Ef. induction variations as [|a l IH]; [contradiction|]. cbn in NDv. inversion NDv; subst. destruct Hv as [->|Hv], Hv' as [->|Hv']; [reflexivity| | |now apply IH].
      - exfalso. apply H1. rewrite <- Ef. now apply in_map.
      - exfalso. apply H1. rewrite Ef. now apply in_map. }
    match goal with |- exists im, impact fmt ?SS _ _ = _ /\ _ => set (S := SS) end.
    assert (LY : length (w_nom s') = nbins) by (rewrite S5, map_length, seq_length; reflexivity).
    destruct (impact_lookup fmt S (p_name p) v r (w_nom s') imps eq_refl eq_refl R1) as (im & I1 & I2 & I3).
    + intros l El. rewrite LY. rewrite (R2 l El). exact T2.
    + intros b Hb. rewrite LY in Hb. destruct (R3 b (fmt v)) as (y & Hy & _); [lia|now apply in_map|eauto].
    + rewrite LY. exact Hn.
    + exists im. split; [exact I1|]. split; [lia|]. intros b Hb. cbv zeta. rewrite LY in I3. specialize (I3 b Hb). destruct (R3 b (fmt v)) as (y & Hy & Hb2); [lia|now apply in_map|].
      rewrite Hy in I3. injection I3 as <-. destruct (T3 b Hb) as (_ & T4). destruct (T4 v Hv Hinj) as (x & X1 & X2). rewrite imp_value_one in X2. injection X2 as <-.
      rewrite Rmult_1_r in X1. unfold value in Hb2. rewrite X1 in Hb2. exact Hb2.
  - intros p Hp -> vs Hvs. destruct (S7 p Hp) as ((tables & T1 & T2 & T3) & _). unfold packing in E1. injection E1 as <-. unfold available_variations. cbn [s_impacts].
    rewrite map_map. cbn [fst snd]. assert (ED : dget (p_name p) (map (fun kv => (fst kv, j_packed (PMany (snd kv)))) (w_imps s')) = Some (JList (map j_table tables))).
    { rewrite (dget_map_snd (fun t => j_packed (PMany t))). rewrite T1. reflexivity. }
    rewrite ED. destruct tables as [|t0 tables]; [cbn in T2; lia|]. cbn [map]. unfold j_table at 1. assert (K : keys t0 = map fmt variations) by (apply (T3 0%nat Hn); exact NDv).
    replace (keys (map (fun kv => (fst kv, JFlt (snd kv))) t0)) with (map fmt variations); [exact Hvs|]. rewrite <- K. unfold keys. rewrite map_map. reflexivity.
Qed.
Print Assumptions C98_converted_sample.

(** Without packing, the yields that fastprof interpolates from the tables are those of the workspace at each variation. *)
Lemma balanced vs : (forall v, In v vs -> 0 < v) -> length (filter (fun v => Rltb 0 v) (variation_list vs)) = length (filter (fun v => Rltb v 0) (variation_list vs)).
Proof.
  induction vs as [|v vs IH]; intros H; [reflexivity|]. specialize (IH (fun x Hx => H x (or_intror Hx))). pose proof (H v (or_introl eq_refl)).
  unfold variation_list in *. cbn [flat_map app filter].
  assert (Rltb 0 v = true) as -> by now apply Rltb_true. assert (Rltb 0 (- v) = false) as -> by (apply Rltb_false; lra).
  assert (Rltb v 0 = false) as -> by (apply Rltb_false; lra). assert (Rltb (- v) 0 = true) as -> by (apply Rltb_true; lra). cbn. now rewrite IH.
Qed.
Lemma variation_nonzero vs v : (forall v, In v vs -> 0 < v) -> In v (variation_list vs) -> v <> 0.
Proof. intros H Hv. unfold variation_list in Hv. apply in_flat_map in Hv. destruct Hv as (x & Hx & [<-|[<-|[]]]); specialize (H x Hx); lra. Qed.
Lemma mapM_key float_of fmt l : (forall v, In v l -> float_of (fmt v) = Some v /\ fmt v <> "pos" /\ fmt v <> "neg") -> mapM (variation_key float_of) (map fmt l) = Ok l.
Proof.
  induction l as [|v l IH]; intros H; [reflexivity|]. destruct (H v (or_introl eq_refl)) as (H1 & H2 & H3). cbn [map mapM]. unfold variation_key at 1.
  apply String.eqb_neq in H2, H3. rewrite H2, H3, H1. cbn [bind]. rewrite IH by (intros; apply H; now right). reflexivity.
Qed.
Theorem C98_interpolated_yields rng fmt trim I nbins dflt pars vs valid samples e otrim is_par float_of inv is_log k s p :
  inputs_ok rng e samples pars -> (0 < nbins)%nat -> NoDup (map fmt (variation_list vs)) -> vs <> [] -> (forall v, In v vs -> 0 < v) ->
  (forall v, In v (variation_list vs) -> float_of (fmt v) = Some v /\ fmt v <> "pos" /\ fmt v <> "neg") -> inv_ok inv ->
  nth_error samples k = Some s -> (forall n, w_norm s = Some n -> is_par n = true -> float_of n = None) -> In p pars ->
  exists l' e' s' imps S pc nc,
    fill_channel_yields rng fmt trim 1 I nbins dflt pars (variation_list vs) valid samples e = Ok (l', e') /\
    nth_error l' k = Some s' /\ packing None otrim (w_imps s') = Ok imps /\ sample_load float_of (sample_spec is_par imps s') = Ok S /\
    impact_coefficients float_of fmt inv S (p_name p) is_log = Ok (pc, nc) /\
    forall v b, In v (variation_list vs) -> (b < nbins)%nat ->
      let Y := sep (norms samples) (I b) dflt k (w_norm s) in
      let c := poly (if Rltb 0 v then pc else nc) b v in
      Y e <> 0 ->
      (is_log = false -> Y e * (1 + c) = Y (shifted rng p v e)) /\
      (is_log = true -> 1 / 100 <= Y (shifted rng p v e) / Y e <= 100 -> Y e * exp c = Y (shifted rng p v e)).
Proof.
  intros HI Hn NDv Hvs Hpos HF Hinv Hk HFn Hp.
  destruct (C98_converted_sample rng fmt trim I nbins dflt pars (variation_list vs) valid samples e None otrim 0 is_par float_of k s HI Hn NDv Logic.I Hk HFn)
    as (l' & e' & s' & imps & S & E & S1 & E1 & E2 & _ & HY & _ & HIm & HA).
  specialize (HA p Hp eq_refl _ (mapM_key float_of fmt _ HF)). 
  assert (HIm' : forall v, In v (variation_list vs) -> v <> 0 -> exists im, impact fmt S (p_name p) v = Ok (Some im)) by (intros v Hv _; destruct (HIm p v Hp Hv) as (im & ? & _); eauto).
  destruct (C10_interpolation_exact float_of fmt inv S (p_name p) is_log (variation_list vs) Hinv HA) as (pc & nc & EC & _ & HC).
  - apply (NoDup_map_inv fmt). exact NDv.
  - now apply balanced.
  - destruct vs as [|v vs]; [contradiction|]. exists v. split; [unfold variation_list; cbn; now left|]. specialize (Hpos v (or_introl eq_refl)). lra.
  - exact HIm'.
  - exists l', e', s', imps, S, pc, nc. split; [exact E|]. split; [exact S1|]. split; [exact E1|]. split; [exact E2|]. split; [exact EC|]. intros v b Hv Hb. cbv zeta. intros HY0.
    destruct (HIm p v Hp Hv) as (im & I1 & I2 & I3). specialize (HC v im b Hv (variation_nonzero _ _ Hpos Hv) I1 ltac:(lia)). cbv zeta in HC, I3. destruct HC as (HC1 & HC2).
    specialize (I3 b Hb). cbn [packing_error] in I3. set (y0 := sep _ _ _ _ _ e) in *. set (y := sep _ _ _ _ _ (shifted rng p v e)) in *.
    assert (EX : nth b im 0 = y / y0 - 1).
    { assert (X : Rabs (nth b im 0 - change y0 y) = 0) by (pose proof (Rabs_pos (nth b im 0 - change y0 y)); lra). unfold change in X. rewrite (proj2 (Reqb_false y0 0) HY0) in X.
      destruct (Req_dec (nth b im 0 - (y / y0 - 1)) 0) as [Z|Z]; [lra|]. apply Rabs_no_R0 in Z. contradiction. }
    split.
    + intros Hl. rewrite HC1 by exact Hl. rewrite EX. field. exact HY0.
    + intros Hl Hr. rewrite HC2; [rewrite EX; field; exact HY0|exact Hl|]. rewrite EX. lra.
Qed.
Print Assumptions C98_interpolated_yields.

(** Scaling with the normalization: the sample of a parameter that multiplies its term follows the workspace for any value of the
    parameter, if it is not the default sample. *)
Theorem C98_normalization_scaling S y n e0n x rv c : s_norm S = ExprNorm n -> n <> "" -> s_nominal_norm S = Some e0n -> e0n <> 0 -> s_yields S = Some y -> dget n rv = Some x ->
  (forall b, (b < length y)%nat -> nth b y 0 = c b * e0n) ->
  exists l, sample_yields S rv = Ok l /\ length l = length y /\ forall b, (b < length y)%nat -> nth b l 0 = c b * x.
Proof.
  intros HN Hne HNN Hz HY Hx Hc. unfold sample_yields, normalization, norm_value, dgetE. rewrite HN, HNN, HY. apply String.eqb_neq in Hne. rewrite Hne, Hx. cbn [bind].
  rewrite (proj2 (Reqb_false e0n 0) Hz). cbn [bind]. eexists. split; [reflexivity|]. split; [apply map_length|]. intros b Hb.
  rewrite (nth_indep _ 0 (x / e0n * 0)) by now rewrite map_length. rewrite (map_nth (Rmult (x / e0n))). rewrite Hc by exact Hb. field. exact Hz.
Qed.
Print Assumptions C98_normalization_scaling.

(** A sample with its normalization parameter at zero when the workspace is converted has no yields, and is left out of the model. *)
Lemma only_zero ns n e : In n ns -> e n = 0 -> only ns n e = off ns e.
Proof.
  intros Hn Hz. apply FunctionalExtensionality.functional_extensionality. intros x. unfold only, off. destruct (String.eqb x n) eqn:E; [|reflexivity]. apply String.eqb_eq in E. subst.
  apply mem_true in Hn. rewrite Hn. exact Hz.
Qed.
Theorem C98_zero_norm_sample_dropped rng fmt trim eps I nbins dflt pars variations valid samples e l' e' k s s' n is_par imps :
  inputs_ok rng e samples pars -> fill_channel_yields rng fmt trim eps I nbins dflt pars variations valid samples e = Ok (l', e') ->
  nth_error samples k = Some s -> nth_error l' k = Some s' -> w_norm s = Some n -> e n = 0 -> k <> dflt -> trim 0 = 0 ->
  all_zero s' = true /\ forall pre post, l' = pre ++ s' :: post -> sample_specs is_par imps l' = sample_specs is_par imps pre ++ sample_specs is_par imps post.
Proof.
  intros HI E Hk Hk' Hn Hz Hd Ht. destruct (C96_tabulated_yields _ _ _ _ _ _ _ _ _ _ _ _ _ _ HI E) as (_ & _ & P). destruct (P k s Hk) as (s2 & S1 & _ & _ & _ & S5 & _).
  rewrite Hk' in S1. injection S1 as <-. assert (A : all_zero s' = true).
  { unfold all_zero. rewrite S5. apply forallb_forall. intros x Hx. apply in_map_iff in Hx. destruct Hx as (b & <- & _). apply Reqb_true. transitivity (trim 0); [f_equal|exact Ht].
    unfold sep. rewrite Hn, (only_zero _ _ _ (in_norms s n samples (nth_error_In _ _ Hk) Hn) Hz). apply Nat.eqb_neq in Hd. rewrite Hd. ring. }
  split; [exact A|]. intros pre post ->. unfold sample_specs. rewrite filter_app, map_app. cbn [filter]. rewrite A. reflexivity.
Qed.
Print Assumptions C98_zero_norm_sample_dropped.

(** The samples with a yield in some bin are those of the model, in order. *)
Theorem C98_samples_with_yields is_par imps l :
  (forall s, In s l -> (exists b, (b < length (w_nom s))%nat /\ nth b (w_nom s) 0 <> 0) -> In (sample_spec is_par (imps s) s) (sample_specs is_par imps l)) /\
  ((forall s, In s l -> exists b, (b < length (w_nom s))%nat /\ nth b (w_nom s) 0 <> 0) -> sample_specs is_par imps l = map (fun s => sample_spec is_par (imps s) s) l).
Proof.
  assert (Z : forall s, (exists b, (b < length (w_nom s))%nat /\ nth b (w_nom s) 0 <> 0) -> negb (all_zero s) = true).
  { intros s (b & Hb & Hne). apply negb_true_iff. apply not_true_iff_false. intros A. unfold all_zero in A. rewrite forallb_forall in A. apply Hne, Reqb_true, A, nth_In, Hb. }
  split.
  - intros s Hs H. unfold sample_specs. apply (in_map (fun s => sample_spec is_par (imps s) s)). apply filter_In. split; [exact Hs|now apply Z].
  - intros H. unfold sample_specs. f_equal. induction l as [|s l IH]; [reflexivity|]. cbn. rewrite (Z s (H s (or_introl eq_refl))). f_equal. apply IH. intros; apply H; now right.
Qed.
Print Assumptions C98_samples_with_yields.

(** The default sample with a normalization parameter: its yields hold the remainder of the channel too, which then scales with the parameter. *)
Theorem C98_default_sample_scaling_refuted : exists e x, let I (e : env) := 5 + 10 * e "mu" in
  let s := mkSample "s" (ExprNorm "mu") (Some (e "mu")) (Some [sep ["mu"] I 0 0 (Some "mu") e]) [] in
  exists l, sample_yields s [("mu", x)] = Ok l /\ nth 0 l 0 = 45 /\ I (put "mu" x e) = 35.
Proof.
  exists (fun _ => 1), 3. cbv zeta. unfold sample_yields, normalization. cbn [s_norm s_nominal_norm s_yields norm_value dgetE dget String.eqb Ascii.eqb Bool.eqb bind].
  rewrite (proj2 (Reqb_false 1 0)) by lra. cbn [bind]. eexists. split; [reflexivity|]. cbn [map nth]. unfold sep, only, off, put, mem. cbn -[Rplus Rmult Rdiv Rminus]. split; lra.
Qed.
Print Assumptions C98_default_sample_scaling_refuted.

Definition px_fmt : R -> string := fun v => if Rltb 0 v then "+1" else "-1".
Definition px_float : string -> option R := fun s => if String.eqb s "+1" then Some 1 else if String.eqb s "-1" then Some (-1) else None.
Example C98_nonvacuous : inputs_ok rx_rng rx_env rx_samples [mkWPar "np1" 0 (1/2)] /\ NoDup (map px_fmt (variation_list [1])) /\
  (forall v, In v (variation_list [1]) -> px_float (px_fmt v) = Some v /\ px_fmt v <> "pos" /\ px_fmt v <> "neg") /\
  packing_ok (Some (1/1000)) (1/100) (Some (fun x => x)) /\ px_float "mu" = None /\
  (let e := fun x => if String.eqb x "mu" then 0 else 0 in inputs_ok rx_rng e rx_samples [mkWPar "np1" 0 1] /\ e "mu" = 0).
Proof.
  assert (Q1 : Rltb 0 1 = true) by (apply Rltb_true; lra). assert (Q2 : Rltb 0 (- (1)) = false) by (apply Rltb_false; lra).
  split; [|split; [|split; [|split; [|split]]]].
  - split; [intros n [<-|[]]; cbn; split; apply rx_in; lra|]. split; [repeat constructor; intros []|]. intros p [<-|[]]. cbn. split; [reflexivity|apply rx_in; lra].
  - unfold variation_list, px_fmt. cbn [flat_map app map]. rewrite Q1, Q2. repeat constructor; cbn; intuition discriminate.
  - intros v [<-|[<-|[]]]; unfold px_fmt; rewrite ?Q1, ?Q2; cbn; repeat split; try discriminate.
  - cbn. split; [lra|]. split; [lra|]. intros x. cbn. rewrite Rminus_diag_eq by reflexivity. rewrite Rabs_R0. apply Rmult_le_pos; [lra|apply Rabs_pos].
  - reflexivity.
  - cbv zeta. split; [|reflexivity]. split; [intros n [<-|[]]; cbn; split; apply rx_in; lra|]. split; [repeat constructor; intros []|]. intros p [<-|[]]. cbn. split; [reflexivity|apply rx_in; lra].
Qed.
