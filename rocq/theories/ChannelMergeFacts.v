(** Facts about ChannelMerger, used for C58. *)
From Verif Require Import Py PyFacts Base Expressions ExprSpec ExprFacts Norms RSort Sample SampleFacts Channels ChannelFacts Params ParamsFacts Core CoreFacts CoreSpec CoreCoefs CoreYields ModelIO ModelIOFacts ModelIOProps ModelTools ModelToolsFacts ReparamFacts NPPruneFacts.
Local Open Scope string_scope.
Local Open Scope list_scope.
Local Open Scope R_scope.

(** * tables of impacts with the variations +1 and -1 *)
(** the entry of one bin is {"+1": x, "-1": y} *)
Definition simple_entry (v : jv) : Prop :=
  exists d x y, v = JObj d /\ (keys d = ["+1"; "-1"] \/ keys d = ["-1"; "+1"]) /\
    dget "+1" d = Some x /\ jnum x <> None /\ dget "-1" d = Some y /\ jnum y <> None.
(** one entry for all the bins, or a list of entries *)
Definition simple_impact (v : jv) : Prop :=
  match v with JList l => forall e, In e l -> simple_entry e | _ => simple_entry v end.
(** how Python formats and reads the numbers 1 and -1 *)
Record signs (E : Env) : Prop := mkSigns {
  sg_fp : e_fmt E 1 = "+1"; sg_fm : e_fmt E (-1) = "-1"; sg_rp : e_float E "+1" = Some 1; sg_rm : e_float E "-1" = Some (-1) }.

Definition entry (k : string) (v : jv) : R := match table_entry k v with Ok x => x | Err _ => 0 end.
Lemma simple_entry_table v : simple_entry v -> table_entry "+1" v = Ok (entry "+1" v) /\ table_entry "-1" v = Ok (entry "-1" v).
Proof.
  intros (d & x & y & -> & _ & Hx & Nx & Hy & Ny). unfold entry, table_entry, dgetE. rewrite Hx, Hy. cbn [bind].
  destruct (jnum x); [|congruence]. destruct (jnum y); [|congruence]. auto.
Qed.
Lemma simple_entries l : (forall e, In e l -> simple_entry e) ->
  mapM (table_entry "+1") l = Ok (map (entry "+1") l) /\ mapM (table_entry "-1") l = Ok (map (entry "-1") l).
Proof.
  induction l as [|e l IH]; intros H; [split; reflexivity|]. destruct (simple_entry_table e (H e (or_introl eq_refl))) as (A & B).
  destruct IH as (C & D); [intros; apply H; now right|]. cbn [mapM map]. rewrite A, B, C, D. split; reflexivity.
Qed.
Lemma simple_variations E (d : dict jv) : signs E -> keys d = ["+1"; "-1"] \/ keys d = ["-1"; "+1"] ->
  exists av, mapM (variation_key (e_float E)) (keys d) = Ok av /\ filter (fun v => Rltb 0 v) av = [1] /\ filter (fun v => Rltb v 0) av = [-1].
Proof.
  intros [_ _ Hp Hm] Hk.
  assert (T1 : Rltb 0 1 = true) by (apply Rltb_true; lra). assert (T2 : Rltb 0 (-1) = false) by (apply Rltb_false; lra).
  assert (T3 : Rltb 1 0 = false) by (apply Rltb_false; lra). assert (T4 : Rltb (-1) 0 = true) by (apply Rltb_true; lra).
  destruct Hk as [-> | ->]; cbn [mapM]; unfold variation_key; cbn [String.eqb Ascii.eqb Bool.eqb]; rewrite Hp, Hm; cbn [bind];
    eexists; (split; [reflexivity|]); cbn [filter]; rewrite T1, T2, T3, T4; auto.
Qed.
(** the effect of an entry *)
Definition entry_effect (m : Model) (v : jv) (x : R) : R :=
  if m_asym m then (if Rltb 0 x then impact_scale (negb (m_linear m)) (entry "+1" v) / 1 * x ^ 1
                    else impact_scale (negb (m_linear m)) (entry "-1" v) / -1 * x ^ 1)
  else if m_linear m then 1 / 2 * (entry "+1" v - entry "-1" v) * x else ln (1 + 1 / 2 * (entry "+1" v - entry "-1" v)) * x.
Lemma zipwith_minus_map {A} (f g : A -> R) l : zipwith Rminus (map f l) (map g l) = map (fun e => f e - g e) l.
Proof. induction l as [|x l IH]; cbn; [reflexivity|]. now rewrite IH. Qed.

(** the effect is determined by the impacts at +1 and -1 *)
Lemma effect_of_impacts E m s n b x (l : list jv) av : signs E -> available_variations (e_float E) s n = Ok av ->
  filter (fun v => Rltb 0 v) av = [1] -> filter (fun v => Rltb v 0) av = [-1] ->
  impact (e_fmt E) s n 1 = Ok (Some (map (entry "+1") l)) -> impact (e_fmt E) s n (-1) = Ok (Some (map (entry "-1") l)) -> (b < length l)%nat ->
  effect E m s b n x = entry_effect m (nth b l JNull) x.
Proof.
  intros Sg Hav F1 F2 I1 I2 Hb. unfold effect, entry_effect. destruct (m_asym m).
  - unfold np_effect, impact_coefficients. rewrite Hav. cbn [bind]. rewrite F1, F2. cbn [rsort rinsert mapM]. rewrite I1, I2. cbn [bind length Nat.eqb side_coefficients].
    unfold poly. cbn [length rsum Nat.add nth]. rewrite !map_map. destruct (Rltb 0 x); rewrite (nth_map_lt _ _ _ JNull) by exact Hb; ring.
  - unfold sym_effect, sym_impact. rewrite I1, I2. cbn [bind]. unfold np_sub. rewrite !map_length, Nat.eqb_refl. cbn [bind].
    rewrite zipwith_minus_map, map_map. rewrite (nth_map_lt _ _ _ JNull) by exact Hb. destruct (m_linear m); reflexivity.
Qed.
Lemma effect_list E m s n b x l : signs E -> dget n (s_impacts s) = Some (JList l) -> (forall e, In e l -> simple_entry e) -> (b < length l)%nat ->
  effect E m s b n x = entry_effect m (nth b l JNull) x.
Proof.
  intros Sg Hd Hs Hb. destruct (simple_entries l Hs) as (A & B).
  destruct l as [|e0 l]; [cbn in Hb; lia|]. destruct (Hs e0 (or_introl eq_refl)) as (d & x0 & y0 & E0 & Hk & _).
  destruct (simple_variations E d Sg Hk) as (av & Hav & F1 & F2).
  apply (effect_of_impacts E m s n b x (e0 :: l) av Sg); auto; unfold available_variations, impact; rewrite Hd.
  - subst e0. exact Hav.
  - rewrite (sg_fp _ Sg), A. reflexivity.
  - rewrite (sg_fm _ Sg), B. reflexivity.
Qed.
Lemma map_repeat {A B} (f : A -> B) x n : map f (repeat x n) = repeat (f x) n.
Proof. induction n; cbn; congruence. Qed.
Lemma nth_repeat_in {A} (x d : A) n b : (b < n)%nat -> nth b (repeat x n) d = x.
Proof. revert b; induction n; intros [|b] H; cbn; try lia; auto. apply IHn. lia. Qed.
Lemma effect_one E m s n b x d y : signs E -> dget n (s_impacts s) = Some (JObj d) -> simple_entry (JObj d) -> s_yields s = Some y -> (b < length y)%nat ->
  effect E m s b n x = entry_effect m (JObj d) x.
Proof.
  intros Sg Hd Hs Hy Hb. destruct (simple_entry_table _ Hs) as (A & B). assert (Hs' := Hs). destruct Hs' as (d' & x0 & y0 & E0 & Hk & Hx & _). inversion E0; subst d'; clear E0.
  destruct (simple_variations E d Sg Hk) as (av & Hav & F1 & F2).
  rewrite (effect_of_impacts E m s n b x (repeat (JObj d) (length y)) av Sg); auto.
  - f_equal. apply nth_repeat_in. exact Hb.
  - unfold available_variations. rewrite Hd. destruct d; [destruct Hk; discriminate|exact Hav].
  - unfold impact, nyields. rewrite Hd, (sg_fp _ Sg), A, Hy. cbn [bind]. now rewrite map_repeat.
  - unfold impact, nyields. rewrite Hd, (sg_fm _ Sg), B, Hy. cbn [bind]. now rewrite map_repeat.
  - now rewrite repeat_length.
Qed.
Lemma effect_none E m s n b x y : dget n (s_impacts s) = None -> s_yields s = Some y -> (b < length y)%nat -> signs E ->
  effect E m s b n x = 0.
Proof.
  intros Hd Hy Hb Sg.
  assert (T1 : Rltb 0 1 = true) by (apply Rltb_true; lra). assert (T2 : Rltb 0 (-1) = false) by (apply Rltb_false; lra).
  assert (T3 : Rltb 1 0 = false) by (apply Rltb_false; lra). assert (T4 : Rltb (-1) 0 = true) by (apply Rltb_true; lra).
  rewrite (effect_of_impacts E m s n b x (repeat zero_impact (length y)) [1; -1] Sg).
  - rewrite nth_repeat_in by exact Hb. unfold entry_effect, zero_impact, entry. cbn [table_entry dgetE dget String.eqb Ascii.eqb Bool.eqb bind jnum].
    replace (1 / 2 * (0 - 0)) with 0 by lra. rewrite !Rplus_0_r, ln_1. unfold impact_scale.
    rewrite Rplus_0_r, (Rmin_left 1 100) by lra. rewrite (Rmax_left 1 (1 / 100)) by lra. rewrite ln_1.
    destruct (m_asym m), (m_linear m), (Rltb 0 x); cbn [negb]; lra.
  - unfold available_variations. now rewrite Hd.
  - cbn [filter]. now rewrite T1, T2.
  - cbn [filter]. now rewrite T3, T4.
  - unfold impact, nyields. rewrite Hd, Hy. cbn [bind]. now rewrite map_repeat.
  - unfold impact, nyields. rewrite Hd, Hy. cbn [bind]. now rewrite map_repeat.
  - now rewrite repeat_length.
Qed.
Lemma zero_simple : simple_entry zero_impact.
Proof. exists [("+1", JInt 0); ("-1", JInt 0)], (JInt 0), (JInt 0). repeat split; auto; discriminate. Qed.
Lemma zero_effect m x : entry_effect m zero_impact x = 0.
Proof.
  unfold entry_effect, zero_impact, entry. cbn [table_entry dgetE dget String.eqb Ascii.eqb Bool.eqb bind jnum].
  replace (1 / 2 * (0 - 0)) with 0 by lra. rewrite !Rplus_0_r, ln_1. unfold impact_scale.
  rewrite Rplus_0_r, (Rmin_left 1 100) by lra. rewrite (Rmax_left 1 (1 / 100)) by lra. rewrite ln_1.
  destruct (m_asym m), (m_linear m), (Rltb 0 x); cbn [negb]; lra.
Qed.

(** * collection of the merged samples *)
(** same sample, with some zero impacts added *)
Definition grown (s s' : Sample) : Prop :=
  s_name s' = s_name s /\ s_norm s' = s_norm s /\ s_nominal_norm s' = s_nominal_norm s /\ s_yields s' = s_yields s /\
  forall p, dget p (s_impacts s') = dget p (s_impacts s) \/ (dget p (s_impacts s) = None /\ dget p (s_impacts s') = Some zero_impact).
Lemma grown_refl s : grown s s. Proof. repeat split; auto. Qed.
Lemma grown_trans a b c : grown a b -> grown b c -> grown a c.
Proof.
  intros (A1 & A2 & A3 & A4 & A5) (B1 & B2 & B3 & B4 & B5). repeat split; try congruence. intros p.
  destruct (A5 p) as [Ha|(Ha & Ha')], (B5 p) as [Hb|(Hb & Hb')].
  - left. congruence. - right. split; congruence. - right. split; congruence. - right. split; congruence.
Qed.
Lemma grown_keys s s' p : grown s s' -> In p (keys (s_impacts s)) -> In p (keys (s_impacts s')).
Proof.
  intros (_ & _ & _ & _ & H) Hp. apply dmem_spec. apply dmem_spec in Hp. unfold dmem in *. destruct (H p) as [X|(X & Y)]; [rewrite X; exact Hp|rewrite Y; reflexivity].
Qed.
Lemma add_missing_spec pars : forall im p, dget p (add_missing pars im) = match dget p im with Some v => Some v | None => if memb pars p then Some zero_impact else None end.
Proof.
  unfold add_missing. induction pars as [|q pars IH]; intros im p; cbn [fold_left]; [destruct (dget p im); reflexivity|]. rewrite IH. cbn [memb existsb].
  destruct (String.eqb p q) eqn:Ep; cbn [orb].
  - apply String.eqb_eq in Ep. subst q. unfold dmem. destruct (dget p im) eqn:Ed; [now rewrite Ed|]. now rewrite dget_dset_eq.
  - apply String.eqb_neq in Ep. destruct (dmem q im); [reflexivity|]. rewrite dget_dset_neq by congruence. reflexivity.
Qed.
Lemma grown_add pars s : grown s (with_impacts s (add_missing pars (s_impacts s))).
Proof.
  repeat split. intros p. cbn [with_impacts s_impacts]. rewrite add_missing_spec. destruct (dget p (s_impacts s)); [now left|]. destruct (memb pars p); auto.
Qed.

Lemma Forall2_dset {V} (P : V -> V -> Prop) (d : dict V) k v v' : (forall x, P x x) -> dget k d = Some v -> P v v' ->
  Forall2 (fun x y => fst y = fst x /\ P (snd x) (snd y)) d (dset k v' d).
Proof.
  intros Hr. induction d as [|[q x] d IH]; cbn [dget dset]; intros Hg Hp; [discriminate|]. destruct (String.eqb k q).
  - inversion Hg; subst x. constructor; [auto|]. clear -Hr. induction d; constructor; auto.
  - constructor; auto.
Qed.
Lemma chans_refl' (P : Sample -> Sample -> Prop) : (forall s, P s s) -> forall chs, chans P chs chs.
Proof.
  intros Hr chs. unfold chans. induction chs as [|[k c] chs IH]; constructor; auto. cbn [snd]. repeat split; auto. clear -Hr. induction (ch_samples c); constructor; auto.
Qed.
Lemma chans_set_sample (P : Sample -> Sample -> Prop) chs k n s s' : (forall x, P x x) -> sample_of chs k n = Some s -> P s s' -> chans P chs (set_sample chs k n s').
Proof.
  intros Hr Hs Hp. unfold sample_of, set_sample in *. destruct (dget k chs) as [c|] eqn:Ec; [|discriminate].
  pose proof (Forall2_dset (fun c c' => ch_name c' = ch_name c /\ ch_kind c' = ch_kind c /\
    Forall2 (fun ks ks' => fst ks' = fst ks /\ P (snd ks) (snd ks')) (ch_samples c) (ch_samples c')) chs k c (with_samples c (dset n s' (ch_samples c)))) as H.
  apply H; [|exact Ec|].
  - intros x. repeat split. induction (ch_samples x); constructor; auto.
  - cbn [with_samples ch_name ch_kind ch_samples]. split; [reflexivity|]. split; [reflexivity|]. eapply Forall2_dset; eauto.
Qed.
Lemma sample_of_set chs k n s s' k2 n2 : sample_of chs k n = Some s ->
  sample_of (set_sample chs k n s') k2 n2 = if String.eqb k2 k && String.eqb n2 n then Some s' else sample_of chs k2 n2.
Proof.
  unfold sample_of, set_sample. destruct (dget k chs) as [c|] eqn:Ec; [|discriminate]. intros Hs.
  destruct (String.eqb k2 k) eqn:Ek; cbn [andb].
  - apply String.eqb_eq in Ek. subst k2. rewrite dget_dset_eq, Ec. cbn [with_samples ch_samples]. destruct (String.eqb n2 n) eqn:En.
    + apply String.eqb_eq in En. subst n2. now rewrite dget_dset_eq.
    + apply String.eqb_neq in En. rewrite dget_dset_neq by congruence. reflexivity.
  - apply String.eqb_neq in Ek. rewrite dget_dset_neq by congruence. reflexivity.
Qed.
Lemma dget_set_sample chs k n s k2 : k2 <> k -> dget k2 (set_sample chs k n s) = dget k2 chs.
Proof. intros H. unfold set_sample. destruct (dget k chs); [|reflexivity]. now rewrite dget_dset_neq by congruence. Qed.
Lemma chans_dget P l r k c : chans P l r -> dget k l = Some c -> exists c', dget k r = Some c' /\ ch_name c' = ch_name c /\ ch_kind c' = ch_kind c /\
  Forall2 (fun ks ks' => fst ks' = fst ks /\ P (snd ks) (snd ks')) (ch_samples c) (ch_samples c').
Proof.
  induction 1 as [|[k0 c0] [k1 c1] l r (H1 & H2 & H3 & H4) F IH]; cbn [dget fst snd] in *; [discriminate|]. subst k1. destruct (String.eqb k k0); [|exact IH].
  intros X. inversion X; subst. eauto 6.
Qed.
Lemma samples_dget (P : Sample -> Sample -> Prop) l r n s : Forall2 (fun ks ks' => fst ks' = fst ks /\ P (snd ks) (snd ks')) l r -> dget n l = Some s -> exists s', dget n r = Some s' /\ P s s'.
Proof.
  induction 1 as [|[k0 c0] [k1 c1] l r (H1 & H2) F IH]; cbn [dget fst snd] in *; [discriminate|]. subst k1. destruct (String.eqb n k0); [|exact IH].
  intros X. inversion X; subst. eauto.
Qed.
Lemma samples_dget_none (P : Sample -> Sample -> Prop) l r n : Forall2 (fun ks ks' => fst ks' = fst ks /\ P (snd ks) (snd ks')) l r -> dget n l = None -> dget n r = None.
Proof.
  induction 1 as [|[k0 c0] [k1 c1] l r (H1 & H2) F IH]; cbn [dget fst snd] in *; [auto|]. subst k1. destruct (String.eqb n k0); [discriminate|exact IH].
Qed.
Lemma chans_sample_of P l r k n s : chans P l r -> sample_of l k n = Some s -> exists s', sample_of r k n = Some s' /\ P s s'.
Proof.
  unfold sample_of. intros H Hs. destruct (dget k l) as [c|] eqn:Ec; [|discriminate]. destruct (chans_dget _ _ _ _ _ H Ec) as (c' & -> & _ & _ & F). eapply samples_dget; eauto.
Qed.

(** what has been collected after the samples in [done] *)
Record collected (chs0 : dict Channel) (tm : list string) (past : list (string * string)) (st : dict Channel * dict string) : Prop := mkColl {
  co_grown : chans grown chs0 (fst st);
  co_nodup : NoDup (keys (snd st));
  co_owner : forall n o, dget n (snd st) = Some o -> In o tm /\ exists s, sample_of chs0 o n = Some s;
  co_past : forall k n, In (k, n) past -> exists o so, dget n (snd st) = Some o /\ sample_of (fst st) o n = Some so /\
     forall s p, sample_of chs0 k n = Some s -> In p (keys (s_impacts s)) -> In p (keys (s_impacts so));
  co_kept : forall k, ~ In k tm -> dget k (fst st) = dget k chs0;
  co_from : forall k n s p, In k tm -> sample_of (fst st) k n = Some s -> In p (keys (s_impacts s)) ->
     exists k' s', In k' tm /\ sample_of chs0 k' n = Some s' /\ In p (keys (s_impacts s')) }.
Lemma check_sample_step chs0 tm past st k n s0 : collected chs0 tm past st -> In k tm -> sample_of chs0 k n = Some s0 ->
  collected chs0 tm ((k, n) :: past) (check_sample k st n).
Proof.
  intros [Hg Hd Ho Hp Hk Hf] Hin Hs0. destruct st as [chs owners]. cbn [fst snd] in *. destruct (chans_sample_of _ _ _ _ _ _ Hg Hs0) as (s1 & Hs1 & Gr1).
  unfold check_sample. destruct (dget n owners) as [o|] eqn:Eo.
  - destruct (Ho n o Eo) as (Hot & so0 & Hso0). destruct (chans_sample_of _ _ _ _ _ _ Hg Hso0) as (so & Hso & Grso). rewrite Hs1, Hso.
    set (so' := with_impacts so (add_missing (keys (s_impacts s1)) (s_impacts so))). pose proof (grown_add (keys (s_impacts s1)) so) as Gr'. fold so' in Gr'.
    constructor; cbn [fst snd]; auto.
    + eapply chans_trans; [exact grown_trans|exact Hg|]. eapply chans_set_sample; [exact grown_refl|exact Hso|exact Gr'].
    + intros k' n' [X|X].
      * inversion X; subst k' n'. exists o, so'. split; [exact Eo|]. split; [rewrite (sample_of_set _ _ _ _ _ _ _ Hso), !String.eqb_refl; reflexivity|].
        intros s p Hs Hpk. rewrite Hs in Hs0. inversion Hs0; subst s0. assert (Hm : In p (keys (s_impacts s1))) by (eapply grown_keys; eauto).
        apply dmem_spec. unfold dmem, so'. cbn [with_impacts s_impacts]. rewrite add_missing_spec. apply memb_spec in Hm. rewrite Hm. destruct (dget p (s_impacts so)); reflexivity.
      * destruct (Hp k' n' X) as (o' & so1 & A & B & C). destruct (String.eqb n' n) eqn:En.
        -- apply String.eqb_eq in En. subst n'. rewrite Eo in A. inversion A; subst o'. rewrite Hso in B. inversion B; subst so1. exists o, so'. split; [exact Eo|].
           split; [rewrite (sample_of_set _ _ _ _ _ _ _ Hso), !String.eqb_refl; reflexivity|]. intros s p Hs Hpk. eapply grown_keys; eauto.
        -- exists o', so1. split; [exact A|]. split; [|exact C]. rewrite (sample_of_set _ _ _ _ _ _ _ Hso), En, andb_false_r. exact B.
    + intros k' Hk'. rewrite dget_set_sample; [now apply Hk|]. intros ->. contradiction.
    + intros k' n' s p Hk' Hs Hpk. rewrite (sample_of_set _ _ _ _ _ _ _ Hso) in Hs. destruct (String.eqb k' o && String.eqb n' n) eqn:Eb; [|eapply Hf; eauto].
      apply andb_true_iff in Eb as (E1 & E2). apply String.eqb_eq in E1, E2. subst k' n'. inversion Hs; subst s. apply dmem_spec in Hpk. unfold dmem, so' in Hpk. cbn [with_impacts s_impacts] in Hpk.
      rewrite add_missing_spec in Hpk. destruct (dget p (s_impacts so)) as [v|] eqn:Ev.
      * eapply (Hf o n so p); eauto. apply dmem_spec. unfold dmem. now rewrite Ev.
      * destruct (memb (keys (s_impacts s1)) p) eqn:Em; [|discriminate]. apply memb_spec in Em. eapply (Hf k n s1 p); eauto.
  - constructor; cbn [fst snd]; auto.
    + now apply NoDup_keys_dset.
    + intros n' o. destruct (String.eqb n' n) eqn:En.
      * apply String.eqb_eq in En. subst n'. rewrite dget_dset_eq. intros X. inversion X; subst o. eauto.
      * apply String.eqb_neq in En. rewrite dget_dset_neq by congruence. apply Ho.
    + intros k' n' [X|X].
      * inversion X; subst k' n'. exists k, s1. rewrite dget_dset_eq. split; [reflexivity|]. split; [exact Hs1|]. intros s p Hs Hpk. rewrite Hs in Hs0. inversion Hs0; subst. eapply grown_keys; eauto.
      * destruct (Hp k' n' X) as (o' & so1 & A & B & C). exists o', so1. rewrite dget_dset_neq by congruence. auto.
Qed.
Lemma check_channel_step chs0 tm k c : In k tm -> dget k chs0 = Some c -> forall l past st, collected chs0 tm past st -> (forall n, In n l -> In n (keys (ch_samples c))) ->
  exists past', collected chs0 tm past' (fold_left (check_sample k) l st) /\ (forall x, In x past -> In x past') /\ (forall n, In n l -> In (k, n) past').
Proof.
  intros Hin Hc. induction l as [|n l IH]; intros past st Hco Hl; cbn [fold_left].
  - exists past. split; [exact Hco|]. split; [auto|]. intros n [].
  - assert (Hs : exists s, sample_of chs0 k n = Some s).
    { unfold sample_of. rewrite Hc. assert (X : In n (keys (ch_samples c))) by (apply Hl; now left). apply dmem_spec in X. unfold dmem in X. destruct (dget n (ch_samples c)); [eauto|discriminate]. }
    destruct Hs as (s & Hs). destruct (IH ((k, n) :: past) (check_sample k st n)) as (past' & A & B & C).
    { eapply check_sample_step; eauto. } { intros; apply Hl; now right. }
    exists past'. split; [exact A|]. split; [intros x Hx; apply B; now right|]. intros x [<-|Hx]; [apply B; now left|now apply C].
Qed.
Lemma collect_spec chs0 tm owners : NoDup (keys owners) -> (forall n o, dget n owners = Some o -> In o tm /\ exists s, sample_of chs0 o n = Some s) ->
  exists past, collected chs0 tm past (merger_collect chs0 tm owners) /\ forall k n s, In k tm -> sample_of chs0 k n = Some s -> In (k, n) past.
Proof.
  intros Hd Ho. unfold merger_collect.
  assert (G : forall l past st, incl l tm -> collected chs0 tm past st -> exists past', collected chs0 tm past' (fold_left (fun st k => match dget k chs0 with
       | Some c => fold_left (check_sample k) (keys (ch_samples c)) st | None => st end) l st) /\ (forall x, In x past -> In x past') /\
       (forall k n s, In k l -> sample_of chs0 k n = Some s -> In (k, n) past')).
  { induction l as [|k l IH]; intros past st Hl Hco; cbn [fold_left].
    - exists past. split; [exact Hco|]. split; [auto|]. intros k n s [].
    - destruct (dget k chs0) as [c|] eqn:Ec.
      + destruct (check_channel_step chs0 tm k c (Hl k (or_introl eq_refl)) Ec (keys (ch_samples c)) past st Hco ltac:(auto)) as (p1 & A & B & C).
        destruct (IH p1 _ ltac:(intros x Hx; apply Hl; now right) A) as (p2 & A2 & B2 & C2). exists p2. split; [exact A2|]. split; [auto|].
        intros k' n s [<-|Hk] Hs; [|eauto]. apply B2, C. unfold sample_of in Hs. rewrite Ec in Hs. apply dmem_spec. unfold dmem. now rewrite Hs.
      + destruct (IH past st ltac:(intros x Hx; apply Hl; now right) Hco) as (p2 & A2 & B2 & C2). exists p2. split; [exact A2|]. split; [auto|].
        intros k' n s [<-|Hk] Hs; [|eauto]. unfold sample_of in Hs. now rewrite Ec in Hs. }
  destruct (G tm [] (chs0, owners) (incl_refl _)) as (p & A & _ & C).
  - constructor; cbn [fst snd]; auto. { apply chans_refl', grown_refl. } { intros k n []. } { intros k n s p Hk Hs Hp. eauto. }
  - exists p. auto.
Qed.
Lemma longest_spec chs : forall l best r, longest_channel chs l best = Ok (Some r) -> (match best with Some (k, c) => dget k chs = Some c | None => True end) ->
  (forall k, In k l -> exists c, dget k chs = Some c /\ (forall a b d, ch_kind c <> KRange a b d)) /\
  (match r with Some (k, c) => dget k chs = Some c /\ (In k l \/ best = Some (k, c)) | None => l = [] end).
Proof.
  induction l as [|k l IH]; intros best r H Hb; cbn [longest_channel] in H.
  - inversion H; subst. split; [intros k []|]. destruct r as [[k c]|]; auto.
  - apply bind_Ok in H as (c & Hc & H). unfold dgetE in Hc. destruct (dget k chs) as [c'|] eqn:Ec; inversion Hc; subst c'; clear Hc.
    assert (Hkind : forall a b d, ch_kind c <> KRange a b d) by (intros a b d X; rewrite X in H; discriminate).
    set (nb := match best with None => Some (k, c) | Some (_, b) => if (length (ch_samples b) <? length (ch_samples c))%nat then Some (k, c) else best end) in *.
    assert (H' : longest_channel chs l nb = Ok (Some r)) by (destruct (ch_kind c); [exact H|discriminate|exact H|exact H]). clear H.
    destruct (IH nb r H') as (A & B).
    { unfold nb. destruct best as [[kb b]|]; [destruct (_ <? _)%nat|]; auto. }
    split; [intros q [<-|Hq]; eauto|]. destruct r as [[kr cr]|].
    + destruct B as (B1 & B2). split; [exact B1|]. destruct B2 as [B2|B2]; [left; now right|]. unfold nb in B2. destruct best as [[kb b]|].
      * destruct (_ <? _)%nat in B2; [inversion B2; subst; left; now left|now right].
      * inversion B2; subst. left. now left.
    + subst l. cbn [longest_channel] in H'. inversion H' as [X]. unfold nb in X. destruct best as [[kb b]|]; [destruct (_ <? _)%nat in X|]; discriminate.
Qed.
Lemma cmerger_spec chs0 tm chs owners : cmerger_check chs0 tm = Ok (Some (chs, owners)) ->
  (forall k, In k tm -> exists c, dget k chs0 = Some c /\ (forall a b d, ch_kind c <> KRange a b d)) /\ tm <> [] /\
  exists past, collected chs0 tm past (chs, owners) /\ forall k n s, In k tm -> sample_of chs0 k n = Some s -> In (k, n) past.
Proof.
  unfold cmerger_check. intros H. destruct tm as [|k0 rest] eqn:Et; [discriminate|]. rewrite <- Et in *. destruct (negb _); [discriminate|].
  apply bind_Ok in H as (lo & Hlo & H). destruct lo as [[[k c]|]|]; try discriminate. inversion H as [Hc]; clear H.
  destruct (longest_spec _ _ _ _ Hlo I) as (A & B & C). split; [exact A|]. split; [rewrite Et; discriminate|].
  destruct C as [C|C]; [|discriminate]. rewrite Hc. rewrite <- Hc.
  assert (G : forall l d, NoDup (keys d) -> (forall n o, dget n d = Some o -> o = k /\ In n (keys (ch_samples c))) -> incl l (keys (ch_samples c)) ->
     NoDup (keys (fold_left (fun d n => dset n k d) l d)) /\ forall n o, dget n (fold_left (fun d n => dset n k d) l d) = Some o -> o = k /\ In n (keys (ch_samples c))).
  { induction l as [|x l IH]; intros d Hn Hd Hi; cbn [fold_left]; [auto|]. apply IH; [now apply NoDup_keys_dset| |intros y Hy; apply Hi; now right].
    intros n o. destruct (String.eqb n x) eqn:En.
    - apply String.eqb_eq in En. subst n. rewrite dget_dset_eq. intros X. inversion X; subst. split; [reflexivity|apply Hi; now left].
    - apply String.eqb_neq in En. rewrite dget_dset_neq by congruence. apply Hd. }
  destruct (G (keys (ch_samples c)) [] ltac:(constructor) ltac:(intros n o X; discriminate X) (incl_refl _)) as (G1 & G2).
  apply collect_spec; [exact G1|]. intros n o Hno. destruct (G2 n o Hno) as (-> & Hn). split; [exact C|]. unfold sample_of. rewrite B.
  apply dmem_spec in Hn. unfold dmem in Hn. destruct (dget n (ch_samples c)); [eauto|discriminate].
Qed.

(** * the merged samples *)
(** the channels of the list, in its order *)
Definition selected (chs : dict Channel) (l : list string) : dict Channel :=
  concat (map (fun k => match dget k chs with Some c => [(k, c)] | None => [] end) l).
Lemma selected_spec chs l : (forall k, In k l -> exists c, dget k chs = Some c) -> Forall2 (fun k kc => fst kc = k /\ dget k chs = Some (snd kc)) l (selected chs l).
Proof.
  unfold selected. induction l as [|k l IH]; intros H; cbn [map concat]; [constructor|]. destruct (H k (or_introl eq_refl)) as (c & Hc). rewrite Hc. cbn [app]. constructor; [auto|].
  apply IH. intros q Hq. apply H. now right.
Qed.
Lemma selected_firstn chs l j : (forall k, In k l -> exists c, dget k chs = Some c) -> selected chs (firstn j l) = firstn j (selected chs l).
Proof.
  revert j; induction l as [|k l IH]; intros [|j] H; try reflexivity. unfold selected. cbn [firstn map concat]. destruct (H k (or_introl eq_refl)) as (c & ->). cbn [app firstn].
  f_equal. apply IH. intros q Hq. apply H. now right.
Qed.
Lemma selected_chans P chs chs' l : chans P chs chs' -> (forall k, In k l -> exists c, dget k chs = Some c) -> Forall2 (fun kc kc' => ch_kind (snd kc') = ch_kind (snd kc)) (selected chs l) (selected chs' l).
Proof.
  intros H. unfold selected. induction l as [|k l IH]; intros Hl; cbn [map concat]; [constructor|]. destruct (Hl k (or_introl eq_refl)) as (c & Hc). rewrite Hc.
  destruct (chans_dget _ _ _ _ _ H Hc) as (c' & -> & _ & Ek & _). cbn [app]. constructor; [exact Ek|]. apply IH. intros q Hq. apply Hl. now right.
Qed.
Lemma Forall2_map_l {A B C} (f : A -> B) (P : B -> C -> Prop) l r : Forall2 (fun a c => P (f a) c) l r <-> Forall2 P (map f l) r.
Proof.
  split.
  - induction 1; cbn; constructor; auto.
  - revert r. induction l as [|a l IH]; intros r H; inversion H; subst; constructor; auto.
Qed.
Lemma selected_blocks {A} chs l (P : string -> Channel -> list A -> Prop) bl : (forall k, In k l -> exists c, dget k chs = Some c) ->
  (forall k c r, In k l -> dget k chs = Some c -> P k c r -> length r = nbins c) ->
  Forall2 (fun k r => exists c, dget k chs = Some c /\ P k c r) l bl -> Forall2 (fun kc (r : list A) => length r = nbins (snd kc)) (selected chs l) bl.
Proof.
  intros Hl HP HF. pose proof (selected_spec chs l Hl) as HS. revert bl HF. clear Hl. induction HS as [|k [k' c] l sl (E1 & E2) HS IH]; intros bl HF; inversion HF; subst; constructor.
  - match goal with H : exists c, _ |- _ => destruct H as (c0 & Hc0 & Hp) end. cbn [fst snd] in *. rewrite E2 in Hc0. inversion Hc0; subst c0. eapply HP; eauto. now left.
  - apply IH; [|assumption]. intros q c0 r Hq. apply HP. now right.
Qed.

(** the bins of the impacts match those of the channels: a channel with several bins has a list of impacts for every NP that appears in a sample of the same
    name in one of the channels to merge *)
Definition binwise (chs : dict Channel) (tm : list string) : Prop :=
  forall k c, In k tm -> dget k chs = Some c -> nbins c = 1%nat \/
    forall k' n s p, In k' tm -> sample_of chs k' n = Some s -> In p (keys (s_impacts s)) -> exists s' l, sample_of chs k n = Some s' /\ dget p (s_impacts s') = Some (JList l).
(** the tables of impacts of the channels to merge have the variations +1 and -1 *)
Definition simple_tables (chs : dict Channel) (tm : list string) : Prop :=
  forall k n s p v, In k tm -> sample_of chs k n = Some s -> dget p (s_impacts s) = Some v -> simple_impact v.
(** samples of the same name in the channels to merge have the same normalization *)
Definition same_norms (chs : dict Channel) (tm : list string) : Prop :=
  forall k k' n s s', In k tm -> In k' tm -> sample_of chs k n = Some s -> sample_of chs k' n = Some s' -> s_norm s' = s_norm s.

Lemma fit_of chs k n s c : all_fit chs -> dget k chs = Some c -> dget n (ch_samples c) = Some s -> fits c s.
Proof. intros H Hc Hs. eapply H; apply dget_In; eauto. Qed.

(** block of yields *)
Lemma merged_yields_at chs0 chs tm n nn y : chans grown chs0 chs -> all_fit chs0 -> (forall k, In k tm -> exists c, dget k chs0 = Some c) ->
  merged_yields chs tm n nn = Ok y ->
  length y = total_bins (selected chs0 tm) /\
  forall j k c b, nth_error tm j = Some k -> dget k chs0 = Some c -> (b < nbins c)%nat ->
  nth (total_bins (selected chs0 (firstn j tm)) + b) y 0 =
   match dget n (ch_samples c) with
   | Some s => match s_yields s, s_nominal_norm s, nn with Some y0, Some n0, Some x => nth b y0 0 / n0 * x | _, _, _ => 0 end
   | None => 0
   end.
Proof.
  intros Hg Hfit Hall H. unfold merged_yields in H. apply bind_Ok in H as (bl & Hbl & H). inversion H; subst y; clear H. apply mapM_Forall2 in Hbl.
  set (P := fun (k : string) (c : Channel) (r : list R) => match dget n (ch_samples c) with
     | Some s => exists y0 n0 x, s_yields s = Some y0 /\ s_nominal_norm s = Some n0 /\ nn = Some x /\ r = map (fun v => v / n0 * x) y0
     | None => r = repeat 0 (nbins c) end).
  assert (HF : Forall2 (fun k r => exists c, dget k chs0 = Some c /\ P k c r) tm bl).
  { eapply Forall2_impl_in; [|exact Hbl]. cbn. intros k r Hk Hr. destruct (Hall k Hk) as (c & Hc). exists c. split; [exact Hc|].
    destruct (chans_dget _ _ _ _ _ Hg Hc) as (c' & Hc' & _ & Ek & HFs). unfold dgetE in Hr. rewrite Hc' in Hr. cbn [bind] in Hr. unfold P. destruct (dget n (ch_samples c)) as [s|] eqn:Es.
    - destruct (samples_dget _ _ _ _ _ HFs Es) as (s' & Hs' & _ & _ & G3 & G4 & _). rewrite Hs', G3, G4 in Hr.
      destruct (s_yields s) as [y0|]; [|discriminate]. destruct (s_nominal_norm s) as [n0|]; [|discriminate]. destruct nn as [x|] eqn:Enn; [|discriminate].
      destruct (Reqb n0 0); [discriminate|]. inversion Hr; subst r. exists y0, n0, x. auto.
    - rewrite (samples_dget_none _ _ _ _ HFs Es) in Hr. inversion Hr. now rewrite (nbins_kind _ _ Ek). }
  assert (HL : forall k c r, In k tm -> dget k chs0 = Some c -> P k c r -> length r = nbins c).
  { intros k c r _ Hc Hp. unfold P in Hp. destruct (dget n (ch_samples c)) as [s|] eqn:Es; [|subst; apply repeat_length].
    destruct Hp as (y0 & n0 & x & Hy & _ & _ & ->). rewrite map_length. destruct (fit_of _ _ _ _ _ Hfit Hc Es) as ((y1 & Hy1 & L) & _). congruence. }
  pose proof (selected_blocks chs0 tm P bl Hall HL HF) as HB. split.
  - clear -HB. induction HB as [|x r l bl H1 HB IH]; cbn; [reflexivity|]. rewrite app_length, H1, IH. reflexivity.
  - intros j k c b Hj Hc Hb. rewrite selected_firstn by exact Hall. destruct (Forall2_nth _ _ _ _ _ (selected_spec chs0 tm Hall) Hj) as ([k' c'] & Hj' & Ek & Hc'). cbn [fst snd] in *. subst k'.
    rewrite Hc in Hc'. inversion Hc'; subst c'. destruct (Forall2_nth _ _ _ _ _ HF Hj) as (r & Hr & c' & Hc2 & Hp). rewrite Hc in Hc2. inversion Hc2; subst c'.
    rewrite (nth_concat_block _ _ 0 j k c r b HB Hj' Hr Hb). pose proof (HL k c r (nth_error_In _ _ Hj) Hc Hp) as Lr. unfold P in Hp. destruct (dget n (ch_samples c)) as [s|].
    + destruct Hp as (y0 & n0 & x & -> & -> & -> & ->). rewrite map_length in Lr. rewrite (nth_map_lt _ _ _ 0) by lia. reflexivity.
    + subst r. apply nth_repeat.
Qed.

(** block of impacts *)
Lemma merged_impact_at E m chs0 chs tm n p l : signs E -> chans grown chs0 chs -> all_fit chs0 -> binwise chs0 tm -> simple_tables chs0 tm ->
  (forall k, In k tm -> exists c, dget k chs0 = Some c) ->
  (exists k s, In k tm /\ sample_of chs0 k n = Some s /\ In p (keys (s_impacts s))) ->
  merged_impact chs tm n p = Ok l ->
  length l = total_bins (selected chs0 tm) /\ (forall e, In e l -> simple_entry e) /\
  forall j k c b s x, nth_error tm j = Some k -> dget k chs0 = Some c -> (b < nbins c)%nat -> dget n (ch_samples c) = Some s ->
  entry_effect m (nth (total_bins (selected chs0 (firstn j tm)) + b) l JNull) x = effect E m s b p x.
Proof.
  intros Sg Hg Hfit Hbw Hsim Hall Hex H. unfold merged_impact in H. apply bind_Ok in H as (bl & Hbl & H). inversion H; subst l; clear H. apply mapM_Forall2 in Hbl.
  set (P := fun (k : string) (c : Channel) (r : list jv) => length r = nbins c /\ (forall e, In e r -> simple_entry e) /\
     forall s b x, dget n (ch_samples c) = Some s -> (b < nbins c)%nat -> entry_effect m (nth b r JNull) x = effect E m s b p x).
  assert (Z1 : forall e, In e [zero_impact] -> simple_entry e) by (intros e [<-|[]]; apply zero_simple).
  assert (HF : Forall2 (fun k r => exists c, dget k chs0 = Some c /\ P k c r) tm bl).
  { eapply Forall2_impl_in; [|exact Hbl]. cbn. intros k r Hk Hr. destruct (Hall k Hk) as (c & Hc). exists c. split; [exact Hc|].
    destruct (chans_dget _ _ _ _ _ Hg Hc) as (c' & Hc' & _ & Ek & HFs). unfold dgetE in Hr. rewrite Hc' in Hr. cbn [bind] in Hr.
    assert (H1 : nbins c = 1%nat \/ exists s' l, dget n (ch_samples c) = Some s' /\ dget p (s_impacts s') = Some (JList l)).
    { destruct Hex as (k' & s' & Hk' & Hs' & Hp'). destruct (Hbw k c Hk Hc) as [B|B]; [now left|right]. destruct (B k' n s' p Hk' Hs' Hp') as (s2 & l & A1 & A2).
      unfold sample_of in A1. rewrite Hc in A1. eauto. }
    unfold P. destruct (dget n (ch_samples c)) as [s|] eqn:Es.
    - destruct (samples_dget _ _ _ _ _ HFs Es) as (s' & Hs' & _ & _ & _ & _ & G5). rewrite Hs' in Hr.
      assert (Hsim' : forall v, dget p (s_impacts s) = Some v -> simple_impact v) by (intros v Hv; apply (Hsim k n s p v Hk); [unfold sample_of; now rewrite Hc|exact Hv]).
      destruct (fit_of _ _ _ _ _ Hfit Hc Es) as ((y & Hy & Ly) & HLl).
      assert (None_case : dget p (s_impacts s) = None -> r = [zero_impact] -> length r = nbins c /\ (forall e, In e r -> simple_entry e) /\
         forall s1 b x, Some s = Some s1 -> (b < nbins c)%nat -> entry_effect m (nth b r JNull) x = effect E m s1 b p x).
      { intros Hn ->. destruct H1 as [H1|(s2 & l & A1 & A2)]; [|inversion A1; subst; congruence]. split; [now rewrite H1|]. split; [exact Z1|].
        intros s1 b x X Hb. inversion X; subst s1. assert (b = 0)%nat by lia. subst b. cbn [nth]. rewrite zero_effect. symmetry. apply (effect_none E m s p 0%nat x y Hn Hy); [lia|exact Sg]. }
      destruct (G5 p) as [G|(G1 & G2)].
      + rewrite G in Hr. destruct (dget p (s_impacts s)) as [v|] eqn:Ev; [|apply None_case; [first [reflexivity|assumption]|congruence]].
        specialize (Hsim' v eq_refl). destruct v as [| | | | |l|d]; try discriminate.
        * inversion Hr; subst r. pose proof (HLl p l Ev) as Ll. split; [exact Ll|]. split; [exact Hsim'|]. intros s1 b x X Hb. inversion X; subst s1. symmetry. apply (effect_list E m s p b x l Sg Ev Hsim'). lia.
        * inversion Hr; subst r. destruct H1 as [H1|(s2 & l & A1 & A2)]; [|inversion A1; subst; congruence]. split; [now rewrite H1|]. split; [intros e [<-|[]]; exact Hsim'|].
          intros s1 b x X Hb. inversion X; subst s1. assert (b = 0)%nat by lia. subst b. cbn [nth]. symmetry. apply (effect_one E m s p 0%nat x d y Sg Ev Hsim' Hy). lia.
      + rewrite G2 in Hr. apply None_case; [first [reflexivity|assumption]|unfold zero_impact in *; congruence].
    - rewrite (samples_dget_none _ _ _ _ HFs Es) in Hr. inversion Hr. destruct H1 as [H1|(s2 & l & A1 & A2)]; [|discriminate]. split; [now rewrite H1|]. split; [exact Z1|]. intros; discriminate. }
  assert (HL : forall k c r, In k tm -> dget k chs0 = Some c -> P k c r -> length r = nbins c) by (intros k c r _ _ Hp; apply Hp).
  pose proof (selected_blocks chs0 tm P bl Hall HL HF) as HB. split; [|split].
  - clear -HB. induction HB as [|x r l bl H1 HB IH]; cbn; [reflexivity|]. rewrite app_length, H1, IH. reflexivity.
  - intros e He. apply in_concat in He as (r & Hr & He). destruct (Forall2_in_right _ _ _ _ HF Hr) as (k & _ & c & _ & _ & Hp & _). auto.
  - intros j k c b s x Hj Hc Hb Hs. rewrite selected_firstn by exact Hall. destruct (Forall2_nth _ _ _ _ _ (selected_spec chs0 tm Hall) Hj) as ([k' c'] & Hj' & Ek & Hc'). cbn [fst snd] in *. subst k'.
    rewrite Hc in Hc'. inversion Hc'; subst c'. destruct (Forall2_nth _ _ _ _ _ HF Hj) as (r & Hr & c' & Hc2 & Hp). rewrite Hc in Hc2. inversion Hc2; subst c'.
    rewrite (nth_concat_block _ _ JNull j k c r b HB Hj' Hr Hb). destruct Hp as (_ & _ & Hp). auto.
Qed.

(** a merged sample *)
Definition merged_ok (E : Env) (m : Model) (chs0 : dict Channel) (tm : list string) (n : string) (s' : Sample) : Prop :=
  (exists k s0, In k tm /\ sample_of chs0 k n = Some s0 /\ s_name s' = s_name s0 /\ s_norm s' = s_norm s0 /\ s_nominal_norm s' = s_nominal_norm s0 /\
     forall p, In p (keys (s_impacts s0)) -> In p (keys (s_impacts s'))) /\
  (exists y, s_yields s' = Some y /\ length y = total_bins (selected chs0 tm) /\
    forall j k c b, nth_error tm j = Some k -> dget k chs0 = Some c -> (b < nbins c)%nat ->
    nth (total_bins (selected chs0 (firstn j tm)) + b) y 0 =
     match dget n (ch_samples c) with
     | Some s => match s_yields s, s_nominal_norm s, s_nominal_norm s' with Some y0, Some n0, Some x => nth b y0 0 / n0 * x | _, _, _ => 0 end
     | None => 0
     end) /\
  (forall j k c b s p x, nth_error tm j = Some k -> dget k chs0 = Some c -> (b < nbins c)%nat -> dget n (ch_samples c) = Some s ->
    effect E m s' (total_bins (selected chs0 (firstn j tm)) + b) p x = effect E m s b p x).
Lemma selected_bins chs tm j k c b : (forall k, In k tm -> exists c, dget k chs = Some c) -> nth_error tm j = Some k -> dget k chs = Some c -> (b < nbins c)%nat ->
  (total_bins (selected chs (firstn j tm)) + b < total_bins (selected chs tm))%nat.
Proof.
  intros Hall Hj Hc Hb. rewrite selected_firstn by exact Hall. destruct (Forall2_nth _ _ _ _ _ (selected_spec chs tm Hall) Hj) as ([k' c'] & Hj' & Ek & Hc'). cbn [fst snd] in *.
  rewrite Hc in Hc'. inversion Hc'; subst c'. pose proof (total_bins_firstn _ _ _ _ Hj'). lia.
Qed.
Lemma merged_sample_ok E m chs0 chs tm owners past n o ns : signs E -> all_fit chs0 -> binwise chs0 tm -> simple_tables chs0 tm ->
  (forall k, In k tm -> exists c, dget k chs0 = Some c) -> collected chs0 tm past (chs, owners) -> (forall k n s, In k tm -> sample_of chs0 k n = Some s -> In (k, n) past) ->
  dget n owners = Some o -> merged_sample chs tm (n, o) = Ok ns -> fst ns = n /\ merged_ok E m chs0 tm n (snd ns).
Proof.
  intros Sg Hfit Hbw Hsim Hall Hco Hpast Ho H. destruct Hco as [Hg Hd Hown Hp Hk Hf]. cbn [fst snd] in *. unfold merged_sample in H.
  destruct (Hown n o Ho) as (Hot & s0 & Hs0). destruct (chans_sample_of _ _ _ _ _ _ Hg Hs0) as (so & Hso & Gr). rewrite Hso in H.
  apply bind_Ok in H as (y & Hy & H). apply bind_Ok in H as (im & Him & H). inversion H; subst ns; clear H. cbn [fst snd]. split; [reflexivity|].
  assert (Gr' := Gr). destruct Gr' as (G1 & G2 & G3 & G4 & G5). apply mapM_Forall2 in Him.
  assert (Hkeys : keys im = keys (s_impacts so)).
  { unfold keys at 1. clear -Him. revert Him. generalize (keys (s_impacts so)) as ks. intros ks Him. induction Him as [|p qv l r H1 F IH]; [reflexivity|]. destruct qv as [q v]. apply bind_Ok in H1 as (x & _ & H1). inversion H1; subst q. cbn [map fst]. now rewrite IH. }
  assert (Hget : forall p v, dget p im = Some v -> exists l, v = JList l /\ merged_impact chs tm n p = Ok l).
  { intros p v Hv. apply dget_In in Hv. destruct (Forall2_in_right _ _ _ _ Him Hv) as (q & _ & H1). apply bind_Ok in H1 as (x & Hx & H1). inversion H1; subst. eauto. }
  unfold merged_ok. cbn [s_name s_norm s_nominal_norm s_yields s_impacts]. split; [|split].
  - exists o, s0. repeat split; auto. intros p Hpk. rewrite Hkeys. eapply grown_keys; eauto.
  - exists y. split; [reflexivity|]. apply (merged_yields_at chs0 chs tm n (s_nominal_norm so) y Hg Hfit Hall Hy).
  - intros j k c b s p x Hj Hc Hb Hs. set (s' := mkSample _ _ _ _ _). pose proof (selected_bins chs0 tm j k c b Hall Hj Hc Hb) as HB.
    assert (Ly : length y = total_bins (selected chs0 tm)) by (apply (merged_yields_at chs0 chs tm n (s_nominal_norm so) y Hg Hfit Hall Hy)).
    assert (Hkt : In k tm) by (eapply nth_error_In; eauto).
    destruct (dget p im) as [v|] eqn:Ev.
    + destruct (Hget p v Ev) as (l & -> & Hl). destruct (merged_impact_at E m chs0 chs tm n p l Sg Hg Hfit Hbw Hsim Hall) as (L1 & L2 & L3); [|exact Hl|].
      { destruct (Hf o n so p Hot Hso) as (k' & s1 & A & B & C); [rewrite <- Hkeys; apply dmem_spec; unfold dmem; now rewrite Ev|]. eauto. }
      rewrite (effect_list E m s' p _ x l Sg Ev L2) by lia. now apply L3 with (k := k) (c := c).
    + rewrite (effect_none E m s' p _ x y Ev eq_refl) by (auto; lia). symmetry.
      assert (Hsk : sample_of chs0 k n = Some s) by (unfold sample_of; now rewrite Hc).
      destruct (Hp k n (Hpast k n s Hkt Hsk)) as (o' & so' & A & B & C). rewrite Ho in A. inversion A; subst o'. rewrite Hso in B. inversion B; subst so'.
      destruct (fit_of _ _ _ _ _ Hfit Hc Hs) as ((y0 & Hy0 & Ly0) & _). apply (effect_none E m s p b x y0); auto; [|lia].
      destruct (dget p (s_impacts s)) as [v|] eqn:Es; [|reflexivity]. exfalso. assert (X : In p (keys im)) by (rewrite Hkeys; apply (C s p Hsk); apply dmem_spec; unfold dmem; now rewrite Es).
      apply dmem_spec in X. unfold dmem in X. now rewrite Ev in X.
Qed.
