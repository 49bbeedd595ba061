(** Properties of the conversion of pyhf files (fastprof_import/convert_pyhf_json.py): C64. *)
From Verif Require Import Py PyFacts Base Expressions Norms Sample Channels Params Core ModelIO ModelIOFacts PyhfConvert PyhfFacts.
From Verif Require Import CoreFacts ChannelFacts CoreExample DataProps.
Local Open Scope string_scope.
Local Open Scope list_scope.

(** * Specification *)
Definition shape_par (name : string) (b : nat) : string := (name ++ "_bin" ++ dec b)%string.
(** the parameters a modifier acts through *)
Definition touches (m : modifier) (q : string) : Prop :=
  match m with
  | MLumi n | MNormsys n _ _ | MHistosys n _ _ => q = n
  | MShape n data => exists b, (b < length data)%nat /\ q = shape_par n b
  | MNormfactor _ | MOther _ _ => False
  end.
(** the relative variation of the yield of bin b, for +1 and -1 of the parameter q, that the modifier describes *)
Definition lumi_sigma (meas : list PPar) (n : string) : R :=
  match last_par n meas with Some p => match pp_sigmas p with Some (s :: _) => s | _ => 0%R end | None => 0%R end.
Definition effect (meas : list PPar) (ys : list R) (m : modifier) (q : string) (b : nat) : R * R :=
  match m with
  | MLumi n => if String.eqb q n then (lumi_sigma meas n, - lumi_sigma meas n)%R else (0, 0)%R
  | MNormsys n hi lo => if String.eqb q n then (hi - 1, lo - 1)%R else (0, 0)%R
  | MHistosys n hi lo => if String.eqb q n then (nth b hi 0 / nth b ys 0 - 1, nth b lo 0 / nth b ys 0 - 1)%R else (0, 0)%R
  | MShape n data => if String.eqb q (shape_par n b) then (nth b data 0 / nth b ys 0, - (nth b data 0 / nth b ys 0))%R else (0, 0)%R
  | MNormfactor _ | MOther _ _ => (0, 0)%R
  end.
Definition total_up (meas : list PPar) (s : PSample) (q : string) (b : nat) : R := lsum (map (fun m => fst (effect meas (ps_data s) m q b)) (ps_mods s)).
Definition total_down (meas : list PPar) (s : PSample) (q : string) (b : nat) : R := lsum (map (fun m => snd (effect meas (ps_data s) m q b)) (ps_mods s)).

(** the inputs for which the conversion is right: the variations of a modifier have opposite signs, and in a channel of more than two bins no
    overall variation (lumi, normsys) of a parameter follows a variation bin by bin (histosys, shapesys, staterror) of the same parameter *)
Definition valid_mod (meas : list PPar) (ys : list R) (m : modifier) : Prop :=
  match m with
  | MNormfactor _ => True
  | MLumi n => exists p s r, last_par n meas = Some p /\ pp_sigmas p = Some (s :: r)
  | MNormsys _ hi lo => ((hi - 1) * (lo - 1) <= 0)%R
  | MHistosys _ hi lo => length hi = length ys /\ length lo = length ys /\
      forall b, (b < length ys)%nat -> nth b ys 0%R <> 0%R /\ ((nth b hi 0 - nth b ys 0) * (nth b lo 0 - nth b ys 0) <= 0)%R
  | MShape _ data => length data = length ys /\ forall b, (b < length ys)%nat -> nth b ys 0%R <> 0%R
  | MOther _ _ => False
  end.
Definition overall (m : modifier) : Prop := match m with MLumi _ | MNormsys _ _ _ => True | _ => False end.
Definition by_bin (m : modifier) : Prop := match m with MHistosys _ _ _ | MShape _ _ => True | _ => False end.
Definition is_normfactor (m : modifier) : Prop := match m with MNormfactor _ => True | _ => False end.
Record valid_sample (meas : list PPar) (s : PSample) : Prop := mkValidSample {
  vs_mods : forall m, In m (ps_mods s) -> valid_mod meas (ps_data s) m;
  vs_norm : (length (normfactors (ps_mods s)) <= 1)%nat;
  vs_names : forall m, In m (ps_mods s) -> ~ is_normfactor m -> ~ In (mod_name m) (normfactors (ps_mods s));
  vs_order : (2 < length (ps_data s))%nat -> ForallOrdPairs (fun m' m => overall m -> by_bin m' -> ~ touches m' (mod_name m)) (ps_mods s) }.
Record valid_channel (meas : list PPar) (c : PChannel) : Prop := mkValidChannel {
  vc_some : pc_samples c <> [];
  vc_names : NoDup (map ps_name (pc_samples c));
  vc_same : forall s s', In s (pc_samples c) -> In s' (pc_samples c) -> length (ps_data s) = length (ps_data s');
  vc_samples : forall s, In s (pc_samples c) -> valid_sample meas s }.
Definition valid_par (p : PPar) : Prop := pp_sigmas p <> Some [] /\ pp_aux_data p <> Some [] /\ pp_inits p <> Some [].
Definition par_sigma (p : PPar) : option R := match pp_sigmas p with Some (s :: _) => Some s | _ => None end.
Definition par_nominal (p : PPar) : R :=
  match pp_aux_data p with Some (x :: _) => x | _ => match pp_inits p with Some (x :: _) => x | _ => 0%R end end.

(** * Calls *)
Lemma histo_ok ys : forall hi lo, length hi = length ys -> length lo = length ys ->
  (forall b, (b < length ys)%nat -> nth b ys 0%R <> 0%R /\ ((nth b hi 0 - nth b ys 0) * (nth b lo 0 - nth b ys 0) <= 0)%R) ->
  exists l, histo_impacts ys hi lo = Ok l /\ length l = length ys /\ same_sign l = false /\
    forall b, (b < length ys)%nat -> nth b l (0, 0)%R = (nth b hi 0 / nth b ys 0 - 1, nth b lo 0 / nth b ys 0 - 1)%R.
Proof.
  induction ys as [|y ys IH]; intros [|h hi] [|l lo] L1 L2 H; cbn in L1, L2; try discriminate; cbn [histo_impacts].
  - exists []. repeat split. cbn. intros b Hb. lia.
  - destruct (H 0%nat) as (Y & Sg); [cbn; lia|]. cbn in Y, Sg. unfold rel. rewrite (proj2 (Reqb_false _ _) Y). cbn [bind].
    destruct (IH hi lo) as (r & A & B & C & D); [lia|lia|intros b Hb; apply (H (S b)); cbn; lia|]. rewrite A. cbn [bind]. eexists. split; [reflexivity|]. split; [cbn; now rewrite B|]. split.
    + cbn [same_sign existsb fst snd]. unfold same_sign in C. rewrite C, orb_false_r. apply Rltb_false.
      replace ((h / y - 1) * (l / y - 1))%R with (((h - y) * (l - y)) * (/ y * / y))%R by (field; exact Y).
      assert (0 <= / y * / y)%R by (apply Rle_0_sqr). nra.
    + intros [|b] Hb; [reflexivity|]. cbn. apply D. cbn in Hb. lia.
Qed.
Lemma nth_unit n x b : forall i, (i < n)%nat -> nth i (map (fun b2 => if (b =? b2)%nat then (x, - x)%R else (0, 0)%R) (seq 0 n)) (0, 0)%R = if (b =? i)%nat then (x, - x)%R else (0, 0)%R.
Proof. intros i Hi. rewrite (nth_map_lt _ _ _ 0%nat) by (rewrite seq_length; exact Hi). now rewrite seq_nth by exact Hi. Qed.
Lemma unit_sign n x b : same_sign (map (fun b2 => if (b =? b2)%nat then (x, - x)%R else (0, 0)%R) (seq 0 n)) = false.
Proof.
  unfold same_sign. apply not_true_iff_false. intros H. apply existsb_exists in H as (z & Hz & H). apply in_map_iff in Hz as (i & <- & _). destruct (b =? i)%nat; cbn in H; apply Rltb_true in H; nra.
Qed.
Lemma shape_ok name n : forall ys sg b0, length sg = length ys -> (b0 + length ys = n)%nat -> (forall b, (b < length ys)%nat -> nth b ys 0%R <> 0%R) ->
  exists calls, shape_calls name n b0 ys sg = Ok calls /\
    (forall c, In c calls -> length (snd c) = n /\ same_sign (snd c) = false) /\
    (forall q, (exists c, In c calls /\ fst c = q) <-> exists b, (b < length ys)%nat /\ q = shape_par name (b0 + b)) /\
    forall q b, (b < n)%nat -> csum q b calls = if (b0 <=? b)%nat then if String.eqb q (shape_par name b) then (nth (b - b0) sg 0 / nth (b - b0) ys 0, - (nth (b - b0) sg 0 / nth (b - b0) ys 0))%R else (0, 0)%R else (0, 0)%R.
Proof.
  induction ys as [|y ys IH]; intros [|s sg] b0 L E H; cbn in L; try discriminate; cbn [shape_calls].
  - exists []. repeat split; try (intros; contradiction).
    + intros (c & [] & _).
    + intros (b & Hb & _). cbn in Hb. lia.
    + intros q b Hb. cbn in E. destruct (Nat.leb_spec b0 b); [lia|]. reflexivity.
  - assert (Y : y <> 0%R) by (apply (H 0%nat); cbn; lia). unfold rel. rewrite (proj2 (Reqb_false _ _) Y). cbn [bind].
    destruct (IH sg (S b0)) as (calls & A & B & C & D); [lia|cbn in E; lia|intros b Hb; apply (H (S b)); cbn; lia|]. rewrite A. cbn [bind]. eexists. split; [reflexivity|]. split; [|split].
    + intros c [<-|Hc]; [|now apply B]. cbn [snd]. split; [now rewrite map_length, seq_length|apply unit_sign].
    + intros q. split.
      * intros (c & [<-|Hc] & <-); [exists 0%nat; split; [cbn; lia|]; cbn [fst]; now rewrite Nat.add_0_r|]. destruct (proj1 (C (fst c)) (ex_intro _ c (conj Hc eq_refl))) as (b & Hb & ->). exists (S b). split; [cbn; lia|]. f_equal. lia.
      * intros ([|b] & Hb & ->); [eexists; split; [now left|]; cbn [fst]; now rewrite Nat.add_0_r|]. cbn in Hb. destruct (proj2 (C (shape_par name (S b0 + b)))) as (c & Hc & Ec); [exists b; split; [lia|reflexivity]|]. exists c. split; [now right|]. rewrite Ec. f_equal. lia.
    + intros q b Hb. cbn [csum fold_right fst]. fold (csum q b calls). rewrite D by exact Hb. fold (shape_par name b0).
      assert (CA : call_at (shape_par name b0, map (fun b2 => if (b0 =? b2)%nat then (s / y, - (s / y))%R else (0, 0)%R) (seq 0 n)) b = if (b0 =? b)%nat then (s / y, - (s / y))%R else (0, 0)%R).
      { unfold call_at. cbn [snd]. set (l := map _ (seq 0 n)). assert (Ll : length l = n) by (subst l; now rewrite map_length, seq_length). assert (N : nth b l (0, 0)%R = if (b0 =? b)%nat then (s / y, - (s / y))%R else (0, 0)%R) by (apply nth_unit; exact Hb).
        destruct l as [|i [|j l]]; [cbn in *; lia| |exact N]. assert (b = 0%nat) by (cbn in Ll; lia). subst b. exact N. }
      rewrite CA. clear CA. destruct (String.eqb q (shape_par name b0)) eqn:Eq.
      * apply String.eqb_eq in Eq. destruct (Nat.eqb_spec b0 b) as [->|Nb].
        -- rewrite Nat.leb_refl, Nat.sub_diag. destruct (Nat.leb_spec (S b) b); [lia|]. rewrite Eq, String.eqb_refl. cbn [nth]. apply add_imp_0_r.
        -- rewrite add_imp_0_l. destruct (Nat.leb_spec (S b0) b); destruct (Nat.leb_spec b0 b); try lia; [|reflexivity]. replace (b - b0)%nat with (S (b - S b0)) by lia. reflexivity.
      * destruct (Nat.leb_spec (S b0) b); destruct (Nat.leb_spec b0 b); try lia; [|assert (b = b0) by lia; subst b; rewrite Eq|]; try reflexivity. replace (b - b0)%nat with (S (b - S b0)) by lia. reflexivity.
Qed.
(** what a valid modifier produces *)
Lemma mod_ok meas ys m : valid_mod meas ys m -> ~ is_normfactor m -> exists calls, mod_calls meas ys m = Ok calls /\
  (forall c, In c calls -> (length (snd c) = 1%nat /\ (overall m -> fst c = mod_name m) \/ length (snd c) = length ys /\ by_bin m) /\ same_sign (snd c) = false) /\
  (forall q, (exists c, In c calls /\ fst c = q) <-> touches m q) /\ (forall q b, (b < length ys)%nat -> csum q b calls = effect meas ys m q b) /\
  (by_bin m -> forall c, In c calls -> length (snd c) = length ys).
Proof.
  intros V N. destruct m as [n|n|n hi lo|n hi lo|n data|n t]; cbn in V; try (exfalso; now apply N); try contradiction; cbn [mod_calls touches effect].
  - destruct V as (p & s & r & E1 & E2). rewrite E1, E2. eexists. split; [reflexivity|]. split; [|split; [|split]].
    + intros c [<-|[]]. split; [left; split; reflexivity|]. cbn. rewrite orb_false_r. apply Rltb_false. nra.
    + intros q. split; [intros (c & [<-|[]] & <-); reflexivity|]. intros ->. eexists. split; [now left|reflexivity].
    + intros q b Hb. cbn [csum fold_right fst call_at snd]. unfold lumi_sigma. rewrite E1, E2. destruct (String.eqb q n); [apply add_imp_0_r|reflexivity].
    + intros [].
  - eexists. split; [reflexivity|]. split; [|split; [|split]].
    + intros c [<-|[]]. split; [left; split; reflexivity|]. cbn. rewrite orb_false_r. now apply Rltb_false.
    + intros q. split; [intros (c & [<-|[]] & <-); reflexivity|]. intros ->. eexists. split; [now left|reflexivity].
    + intros q b Hb. cbn [csum fold_right fst call_at snd]. destruct (String.eqb q n); [apply add_imp_0_r|reflexivity].
    + intros [].
  - destruct V as (L1 & L2 & V). destruct (histo_ok ys hi lo L1 L2 V) as (l & A & B & C & D). rewrite A. cbn [bind]. eexists. split; [reflexivity|]. split; [|split; [|split]].
    + intros c [<-|[]]. split; [right; split; [exact B|exact Logic.I]|exact C].
    + intros q. split; [intros (c & [<-|[]] & <-); reflexivity|]. intros ->. eexists. split; [now left|reflexivity].
    + intros q b Hb. cbn [csum fold_right fst]. destruct (String.eqb q n); [|reflexivity]. rewrite add_imp_0_r. rewrite <- D by exact Hb. unfold call_at. cbn [snd].
      destruct l as [|i [|j l]]; try reflexivity. cbn in B. assert (b = 0%nat) by lia. subst b. reflexivity.
    + intros _ c [<-|[]]. exact B.
  - destruct V as (L & V). destruct (shape_ok n (length ys) ys data 0 L eq_refl V) as (calls & A & B & C & D). exists calls. split; [exact A|]. split; [|split; [|split]].
    + intros c Hc. destruct (B c Hc). split; [right; split; [assumption|exact Logic.I]|assumption].
    + intros q. rewrite C. rewrite L. reflexivity.
    + intros q b Hb. rewrite D by exact Hb. cbn [Nat.leb]. now rewrite Nat.sub_0_r.
    + intros _ c Hc. now apply B.
Qed.
Lemma FOP_mid {A} (P : A -> A -> Prop) pre c post : ForallOrdPairs P (pre ++ c :: post) -> forall x, In x pre -> P x c.
Proof.
  induction pre as [|a pre IH]; intros H x Hx; [contradiction|]. inversion H as [|? ? H1 H2]; subst. destruct Hx as [->|Hx]; [|now apply IH]. rewrite Forall_forall in H1. apply H1. apply in_or_app. right. now left.
Qed.
Lemma normfactor_in l m : In m l -> is_normfactor m -> In (mod_name m) (normfactors l).
Proof. intros Hi Hn. destruct m; try contradiction. unfold normfactors. apply in_concat. exists [name]. split; [apply in_map_iff; exists (MNormfactor name); auto|now left]. Qed.
Lemma skipped_iff meas s m : valid_sample meas s -> In m (ps_mods s) -> (skipped s m = true <-> is_normfactor m).
Proof.
  intros V Hi. unfold skipped. split.
  - intros H. apply existsb_exists in H as (n & Hn & E). apply String.eqb_eq in E. subst n. destruct (ps_mods s) eqn:Em; [contradiction|]. rewrite <- Em in *.
    assert (D : is_normfactor m \/ ~ is_normfactor m) by (destruct m; cbn; tauto). destruct D as [D|D]; [exact D|]. exfalso. eapply vs_names; eauto.
  - intros H. apply existsb_exists. exists (mod_name m). split; [now apply normfactor_in|apply String.eqb_refl].
Qed.
Definition pair_sum (l : list (R * R)) : R * R := (lsum (map fst l), lsum (map snd l)).
Lemma sample_ok meas s : valid_sample meas s -> exists calls, sample_calls meas s = Ok calls /\ calls_ok (length (ps_data s)) calls /\
  (forall q, In q (map fst calls) <-> exists m, In m (ps_mods s) /\ touches m q) /\
  (forall q b, (b < length (ps_data s))%nat -> csum q b calls = (total_up meas s q b, total_down meas s q b)).
Proof.
  intros V. pose proof (fun m Hi => skipped_iff meas s m V Hi) as Sk. pose proof (vs_mods _ _ V) as Vm. pose proof (vs_order _ _ V) as Vo.
  unfold sample_calls, calls_ok, total_up, total_down. revert Sk Vm Vo. generalize (ps_mods s). intros ms. induction ms as [|m ms IH]; intros Sk Vm Vo.
  - exists []. split; [reflexivity|]. split; [split; [intros c []|intros _ pre c post E; destruct pre; discriminate]|]. split; [intros q; split; [intros []|intros (m & [] & _)]|reflexivity].
  - destruct IH as (calls & A & B & C & D); [intros; apply Sk; now right|intros; apply Vm; now right|intros X; specialize (Vo X); inversion Vo; assumption|].
    apply bind_Ok in A as (l & Al & A). inversion A; subst calls; clear A. cbn [filter]. pose proof Sk as SkA. specialize (Sk m (or_introl eq_refl)). destruct (skipped s m) eqn:Es; cbn [negb].
    + assert (Nf : is_normfactor m) by now apply Sk. rewrite Al. cbn [bind]. exists (concat l). split; [reflexivity|]. split; [exact B|]. split.
      * intros q. rewrite C. split; [intros (x & Hx & T); exists x; split; [now right|exact T]|]. intros (x & [<-|Hx] & T); [destruct m; cbn in *; contradiction|eauto].
      * intros q b Hb. rewrite D by exact Hb. cbn [map lsum]. destruct m; try contradiction. cbn [effect fst snd]. now rewrite !Rplus_0_l.
    + assert (Nf : ~ is_normfactor m) by (intros X; apply Sk in X; congruence). destruct (mod_ok meas (ps_data s) m (Vm m (or_introl eq_refl)) Nf) as (cs & M1 & M2 & M3 & M4 & M5).
      cbn [mapM]. rewrite M1. cbn [bind]. rewrite Al. cbn [bind concat]. exists (cs ++ concat l). split; [reflexivity|]. split; [|split].
      * destruct B as (B1 & B2). split.
        -- intros c Hc. apply in_app_or in Hc as [Hc|Hc]; [|now apply B1]. destruct (M2 c Hc) as ([(X & _)|(X & _)] & Y); auto.
        -- intros N2 pre c post E L1 c' Hc' En. specialize (Vo N2). inversion Vo as [|? ? O1 O2]; subst. rewrite Forall_forall in O1.
           (* where is c ? *)
           assert (X : (exists post', cs = pre ++ c :: post') \/ exists pre', pre = cs ++ pre' /\ concat l = pre' ++ c :: post).
           { clear -E. revert pre E. induction cs as [|a cs IH]; intros pre E; [right; exists pre; split; [reflexivity|exact E]|]. destruct pre as [|p pre]; cbn [app] in E.
             - inversion E; subst. left. exists cs. reflexivity.
             - inversion E; subst. destruct (IH pre H1) as [(post' & ->)|(pre' & -> & E2)]; [left; exists post'; reflexivity|right; exists pre'; auto]. }
           destruct X as [(post' & Ec)|(pre' & -> & Ec)].
           ++ (* same modifier *) assert (Hc : In c cs) by (rewrite Ec; apply in_or_app; right; now left). assert (Hc2 : In c' cs) by (rewrite Ec; apply in_or_app; now left).
              destruct (M2 c Hc) as ([(_ & _)|(L & Bm)] & _); [|lia].
              destruct (M2 c' Hc2) as ([(L' & _)|(L' & Bm)] & _); [exact L'|]. exfalso. pose proof (M5 Bm c Hc). lia.
           ++ apply in_app_or in Hc' as [Hc'|Hc'].
              ** destruct (M2 c' Hc') as ([(L' & _)|(L' & Bm)] & _); [exact L'|]. exfalso.
                 (* c comes from a later modifier *)
                 assert (Hc : In c (concat l)) by (rewrite Ec; apply in_or_app; right; now left). apply in_concat in Hc as (cl & Hcl & Hc). apply mapM_Forall2 in Al.
                 assert (Y : exists m2, In m2 ms /\ skipped s m2 = false /\ mod_calls meas (ps_data s) m2 = Ok cl).
                 { clear -Al Hcl. remember (filter (fun m0 => negb (skipped s m0)) ms) as fm eqn:Ef. assert (Z : forall x, In x fm -> In x ms /\ skipped s x = false).
                   { intros x Hx. subst fm. apply filter_In in Hx as (P & Q). split; [exact P|]. now destruct (skipped s x). }
                   clear Ef. induction Al as [|x y fm l H1 H2 IH]; [contradiction|]. destruct Hcl as [->|Hcl]; [exists x; destruct (Z x (or_introl eq_refl)); auto|]. apply IH; [exact Hcl|]. intros; apply Z; now right. }
                 destruct Y as (m2 & Hm2 & Sk2 & Ecl). assert (Nf2 : ~ is_normfactor m2) by (intros X; apply (SkA m2 (or_intror Hm2)) in X; congruence).
                 destruct (mod_ok meas (ps_data s) m2 (Vm m2 (or_intror Hm2)) Nf2) as (cs2 & P1 & P2 & P3 & P4 & P5). rewrite Ecl in P1. inversion P1; subst cs2; clear P1.
                 assert (Om : overall m2) by (destruct m2; cbn; try exact Logic.I; try (exfalso; now apply Nf2); try (pose proof (P5 Logic.I c Hc); lia); cbn in Ecl; discriminate).
                 destruct (P2 c Hc) as ([(_ & F)|(L & _)] & _); [|lia]. apply (O1 m2 Hm2 Om Bm). apply M3. exists c'. split; [exact Hc'|]. rewrite En. now apply F.
              ** eapply (B2 N2 pre' c post); eauto.
      * intros q. rewrite map_app, in_app_iff, C. split.
        -- intros [H|(x & Hx & T)]; [|exists x; split; [now right|exact T]]. exists m. split; [now left|]. apply M3. apply in_map_iff in H as (c & E & Hc). eauto.
        -- intros (x & [<-|Hx] & T); [|right; eauto]. left. apply M3 in T as (c & Hc & E). apply in_map_iff. eauto.
      * intros q b Hb. rewrite csum_app, D, M4 by exact Hb. cbn [map lsum]. apply imp_eq; reflexivity.
Qed.

(** * Samples, channels, parameters *)
Definition touched (s : PSample) (q : string) : Prop := exists m, In m (ps_mods s) /\ touches m q.
Definition sample_out (meas : list PPar) (s : PSample) (o : OSample) : Prop :=
  os_name o = ps_name s /\ os_yields o = ps_data s /\ os_norm o = hd_error (normfactors (ps_mods s)) /\
  forall q, match dget q (os_impacts o) with
            | None => ~ touched s q
            | Some p => touched s q /\ (forall b, (b < length (ps_data s))%nat -> at_bin p b = (total_up meas s q b, total_down meas s q b)) /\
                        match p with One _ => True | Many l => length l = length (ps_data s) end
            end.
Definition grown' (poi : string) (T : string -> Prop) (d d' : dict NSpec) : Prop := exists names, (forall q, In q names <-> T q) /\ grown poi names d d'.
Lemma sample_converts keep meas poi nps s : valid_sample meas s -> exists nps' o, convert_sample keep meas poi nps s = Ok (nps', o) /\ grown' poi (touched s) nps nps' /\ sample_out meas s o.
Proof.
  intros V. destruct (sample_ok meas s V) as (calls & A & B & C & D). destruct (convert_sample_ok keep meas poi nps s calls A (vs_norm _ _ V) B) as (nps' & imps & E & G & I).
  exists nps', (mkOSample (ps_name s) (ps_data s) (hd_error (normfactors (ps_mods s))) imps). split; [exact E|]. split; [exists (map fst calls); split; [exact C|exact G]|].
  repeat split. cbn [os_impacts]. intros q. specialize (I q). destruct (dget q imps) as [p|].
  - destruct I as ((c & Hc & Ec) & I2 & I3). split; [apply C; apply in_map_iff; eauto|]. split; [intros b Hb; rewrite I2, D by exact Hb; reflexivity|]. destruct p; [exact Logic.I|apply I3].
  - intros X. apply C in X. apply in_map_iff in X as (c & Ec & Hc). now apply (I c Hc).
Qed.
Lemma grown'_trans poi T1 T2 d1 d2 d3 : grown' poi T1 d1 d2 -> grown' poi T2 d2 d3 -> grown' poi (fun q => T1 q \/ T2 q) d1 d3.
Proof. intros (n1 & A1 & B1) (n2 & A2 & B2). exists (n1 ++ n2). split; [intros q; rewrite in_app_iff, A1, A2; reflexivity|]. eapply grown_trans; eassumption. Qed.
Lemma grown'_ext poi (T T' : string -> Prop) d d' : (forall q, T q <-> T' q) -> grown' poi T d d' -> grown' poi T' d d'.
Proof. intros H (n & A & B). exists n. split; [intros q; rewrite A; apply H|exact B]. Qed.
Lemma samples_convert keep meas poi n : forall l nps bins, (forall s, In s l -> valid_sample meas s /\ length (ps_data s) = n) ->
  exists nps' os, convert_samples keep meas poi nps bins l = Ok (nps', match l with [] => bins | _ => match bins with Some [] => Some (bin_names n) | b => b end end, os) /\
    grown' poi (fun q => exists s, In s l /\ touched s q) nps nps' /\ Forall2 (sample_out meas) l os.
Proof.
  induction l as [|s l IH]; intros nps bins H; cbn [convert_samples].
  - exists nps, []. split; [reflexivity|]. split; [|constructor]. exists []. split; [intros q; split; [intros []|intros (s & [] & _)]|apply grown_nil].
  - destruct (H s (or_introl eq_refl)) as (V & L). destruct (sample_converts keep meas poi nps s V) as (n1 & o & A & B & C). rewrite A. cbn [bind fst snd].
    destruct (IH n1 (match bins with Some [] => Some (bin_names (length (ps_data s))) | b => b end)) as (n2 & os & A2 & B2 & C2); [intros; apply H; now right|]. rewrite A2. cbn [bind fst snd]. exists n2, (o :: os). split.
    + rewrite L. destruct l as [|s2 l]; [reflexivity|]. destruct bins as [[|b bins]|]; try reflexivity. destruct (bin_names n); reflexivity.
    + split; [|constructor; assumption]. eapply grown'_ext; [|eapply grown'_trans; [exact B|exact B2]]. intros q. split.
      * intros [T|(x & Hx & T)]; [exists s; split; [now left|exact T]|exists x; split; [now right|exact T]].
      * intros (x & [<-|Hx] & T); [now left|right; eauto].
Qed.
Definition channel_bins (c : PChannel) : nat := match pc_samples c with s :: _ => length (ps_data s) | [] => 0%nat end.
Definition channel_out (meas : list PPar) (c : PChannel) (o : OChannel) : Prop :=
  oc_name o = pc_name c /\ oc_bins o = (if (channel_bins c =? 1)%nat then None else Some (bin_names (channel_bins c))) /\ Forall2 (sample_out meas) (pc_samples c) (oc_samples o).
Definition touched_c (c : PChannel) (q : string) : Prop := exists s, In s (pc_samples c) /\ touched s q.
Lemma channel_converts keep meas poi nps c : valid_channel meas c -> exists nps' o, convert_channel keep meas poi nps c = Ok (nps', o) /\ grown' poi (touched_c c) nps nps' /\ channel_out meas c o.
Proof.
  intros V. unfold convert_channel, channel_out, channel_bins, touched_c. destruct (pc_samples c) as [|s l] eqn:E; [exfalso; now apply (vc_some _ _ V)|].
  destruct (samples_convert keep meas poi (length (ps_data s)) (s :: l) nps (if (length (ps_data s) =? 1)%nat then None else Some [])) as (n1 & os & A & B & C).
  { intros x Hx. split; [apply (vc_samples _ _ V); now rewrite E|]. apply (vc_same _ _ V); rewrite E; [exact Hx|now left]. }
  rewrite A. cbn [bind fst snd]. eexists. eexists. split; [reflexivity|]. split; [exact B|]. cbn [oc_name oc_bins oc_samples]. split; [reflexivity|]. split; [|exact C]. destruct (length (ps_data s) =? 1)%nat; reflexivity.
Qed.
Lemma channels_convert keep meas poi : forall l nps, (forall c, In c l -> valid_channel meas c) -> exists nps' os, convert_channels keep meas poi nps l = Ok (nps', os) /\
  grown' poi (fun q => exists c, In c l /\ touched_c c q) nps nps' /\ Forall2 (channel_out meas) l os.
Proof.
  induction l as [|c l IH]; intros nps H; cbn [convert_channels].
  - exists nps, []. split; [reflexivity|]. split; [|constructor]. exists []. split; [intros q; split; [intros []|intros (s & [] & _)]|apply grown_nil].
  - destruct (channel_converts keep meas poi nps c (H c (or_introl eq_refl))) as (n1 & o & A & B & C). rewrite A. cbn [bind fst snd].
    destruct (IH n1) as (n2 & os & A2 & B2 & C2); [intros; apply H; now right|]. rewrite A2. cbn [bind fst snd]. exists n2, (o :: os). split; [reflexivity|]. split; [|constructor; assumption].
    eapply grown'_ext; [|eapply grown'_trans; [exact B|exact B2]]. intros q. split.
    + intros [T|(x & Hx & T)]; [exists c; split; [now left|exact T]|exists x; split; [now right|exact T]].
    + intros (x & [<-|Hx] & T); [now left|right; eauto].
Qed.
Definition spec_of_par (p : PPar) : NSpec := mkNSpec (pp_name p) (par_nominal p) (par_sigma p) (par_sigma p).
Lemma np_spec_ok p : valid_par p -> np_spec p = Ok (spec_of_par p).
Proof.
  intros (A & B & C). unfold np_spec, spec_of_par, par_nominal, par_sigma. destruct (pp_sigmas p) as [[|s r]|]; [contradiction| |]; cbn [first bind]; (destruct (pp_aux_data p) as [[|x xs]|]; [contradiction|reflexivity|]; destruct (pp_inits p) as [[|y ys]|]; [contradiction|reflexivity|reflexivity]).
Qed.
Lemma last_par_app n l p : last_par n (l ++ [p]) = if String.eqb (pp_name p) n then Some p else last_par n l.
Proof. unfold last_par. rewrite rev_app_distr. reflexivity. Qed.
Lemma read_pars_ok poi l : (forall p, In p l -> valid_par p) -> exists d, read_pars poi l = Ok d /\ NoDup (keys d) /\ (forall k s, In (k, s) d -> ns_name s = k) /\
  forall n, dget n d = if String.eqb n poi then None else option_map spec_of_par (last_par n l).
Proof.
  unfold read_pars. induction l as [|p l IH] using rev_ind; intros H.
  - exists []. split; [reflexivity|]. split; [constructor|]. split; [intros k s []|]. intros n. cbn. now destruct (String.eqb n poi).
  - destruct IH as (d & A & B & B2 & C); [intros; apply H; apply in_or_app; now left|]. 
    assert (FA : forall (f : dict NSpec -> PPar -> res (dict NSpec)) l1 l2 s, foldM f (l1 ++ l2) s = let! s' := foldM f l1 s in foldM f l2 s').
    { intros f l1 l2. induction l1 as [|a l1 IHl]; intros s; [reflexivity|]. cbn [app foldM]. destruct (f s a); [cbn [bind]; apply IHl|reflexivity]. }
    rewrite FA, A. cbn [bind foldM]. destruct (String.eqb (pp_name p) poi) eqn:E.
    + exists d. split; [reflexivity|]. split; [exact B|]. split; [exact B2|]. intros n. rewrite C, last_par_app. destruct (String.eqb n poi) eqn:En; [reflexivity|]. destruct (String.eqb (pp_name p) n) eqn:Ep; [|reflexivity].
      apply String.eqb_eq in Ep. apply String.eqb_eq in E. rewrite <- Ep, E, String.eqb_refl in En. discriminate.
    + rewrite np_spec_ok by (apply H; apply in_or_app; right; now left). cbn [bind]. eexists. split; [reflexivity|]. split; [now apply NoDup_keys_dset|]. split.
      * intros k s Hi. apply (In_dget _ _ _ (NoDup_keys_dset _ _ _ B)) in Hi. destruct (String.eqb k (pp_name p)) eqn:Ek; [apply String.eqb_eq in Ek; subst k; rewrite dget_dset_eq in Hi; now inversion Hi|apply String.eqb_neq in Ek; rewrite dget_dset_neq in Hi by exact Ek; apply B2; now apply dget_In].
      * intros n. rewrite last_par_app. destruct (String.eqb (pp_name p) n) eqn:Ep.
        -- apply String.eqb_eq in Ep. subst n. rewrite dget_dset_eq, E. reflexivity.
        -- apply String.eqb_neq in Ep. rewrite dget_dset_neq by congruence. apply C.
Qed.

(** * C64 *)
(** The converted document loads as a model with the POI of the measurement, whose channels and samples are those of the input, with the
    nominal yields of the input; a sample is scaled by its normfactor; and for each parameter on which a sample depends the impacts for +1
    and -1 are the relative variations that the modifiers describe, added up if there are several.  Every such parameter is declared, as the
    POI or as exactly one NP: with the nominal value and constraint of the measurement if there are any, and as a standard normal NP
    otherwise.  Nothing else is declared, besides the parameters of the measurement. *)
Definition impacts_right (E : Env) (meas : list PPar) (s : PSample) (s' : Sample) (q : string) : Prop :=
  exists up down, impact (e_fmt E) s' q 1 = Ok (Some up) /\ impact (e_fmt E) s' q (-1) = Ok (Some down) /\
    length up = length (ps_data s) /\ length down = length (ps_data s) /\
    forall b, (b < length (ps_data s))%nat -> nth b up 0%R = total_up meas s q b /\ nth b down 0%R = total_down meas s q b.
Definition sample_kept (E : Env) (meas : list PPar) (poi : string) (nps : dict NP) (s : PSample) (ks' : string * Sample) : Prop :=
  fst ks' = ps_name s /\ s_name (snd ks') = ps_name s /\ s_yields (snd ks') = Some (ps_data s) /\
  match normfactors (ps_mods s) with
  | n :: _ => s_norm (snd ks') = ExprNorm n /\ s_nominal_norm (snd ks') = Some 1%R
  | [] => s_norm (snd ks') = NumberNorm (Some 1%R)
  end /\
  forall q, (In q (keys (s_impacts (snd ks'))) <-> touched s q) /\
            (touched s q -> impacts_right E meas s (snd ks') q /\ (q = poi \/ In q (keys nps))).
Definition channel_kept (E : Env) (meas : list PPar) (poi : string) (nps : dict NP) (c : PChannel) (kc' : string * Channel) : Prop :=
  fst kc' = pc_name c /\ ch_name (snd kc') = pc_name c /\ nbins (snd kc') = channel_bins c /\
  ch_kind (snd kc') = (if (channel_bins c =? 1)%nat then KSingle else KMulti (bin_names (channel_bins c))) /\
  Forall2 (sample_kept E meas poi nps) (pc_samples c) (ch_samples (snd kc')).

Lemma dget_map_impact q d : dget q (map (fun kp => (fst kp, j_impact (snd kp))) d) = option_map j_impact (dget q d).
Proof. induction d as [|[k p] d IH]; [reflexivity|]. cbn [map dget fst snd]. destruct (String.eqb q k); [reflexivity|exact IH]. Qed.
Lemma keys_map_impact d : keys (map (fun kp => (fst kp, j_impact (snd kp))) d) = keys d.
Proof. unfold keys. now rewrite map_map. Qed.
Lemma table_up (fmt : R -> string) (side : imp -> R) x l : (forall i, table_entry (fmt x) (j_imp i) = Ok (side i)) -> mapM (table_entry (fmt x)) (map j_imp l) = Ok (map side l).
Proof. intros H. induction l as [|i l IH]; cbn [map mapM]; [reflexivity|]. rewrite H. cbn [bind]. rewrite IH. reflexivity. Qed.
Lemma sample_right E meas poi nps s o : e_fmt E 1%R = "+1" -> e_fmt E (-1)%R = "-1" -> sample_out meas s o -> (forall q, touched s q -> q = poi \/ In q (keys nps)) ->
  sample_kept E meas poi nps s (os_name o, loaded_sample o).
Proof.
  intros F1 F2 (N & Y & Nf & H) Hq. unfold sample_kept. cbn [fst snd loaded_sample s_name s_yields s_norm s_nominal_norm s_impacts]. rewrite N, Y, Nf.
  split; [reflexivity|]. split; [reflexivity|]. split; [reflexivity|]. split; [destruct (normfactors (ps_mods s)); cbn; auto|].
  assert (U : forall i, table_entry (e_fmt E 1%R) (j_imp i) = Ok (fst i)) by (intros i; now rewrite F1).
  assert (D : forall i, table_entry (e_fmt E (-1)%R) (j_imp i) = Ok (snd i)) by (intros i; now rewrite F2).
  intros q. rewrite keys_map_impact. specialize (H q). split.
  - destruct (dget q (os_impacts o)) as [p|] eqn:Eq.
    + split; [intros _; apply H|]. intros _. apply dget_In in Eq. apply in_map_iff. exists (q, p). auto.
    + apply dget_None in Eq. tauto.
  - intros T. split; [|now apply Hq]. destruct (dget q (os_impacts o)) as [p|] eqn:Eq; [|contradiction]. destruct H as (_ & Hat & Hm). unfold impacts_right.
    assert (G : dget q (s_impacts (loaded_sample o)) = Some (j_impact p)) by (cbn [loaded_sample s_impacts]; now rewrite dget_map_impact, Eq).
    unfold impact. fold (loaded_sample o). rewrite G. destruct p as [i|l]; cbn [j_impact].
    + exists (repeat (fst i) (length (ps_data s))), (repeat (snd i) (length (ps_data s))). unfold j_imp at 1 2. fold (j_imp i). rewrite U, D. unfold nyields. cbn [loaded_sample s_yields bind]. rewrite Y.
      split; [reflexivity|]. split; [reflexivity|]. rewrite !repeat_length. split; [reflexivity|]. split; [reflexivity|]. intros b Hb. specialize (Hat b Hb). cbn [at_bin] in Hat.
      assert (R0 : forall x : R, nth b (repeat x (length (ps_data s))) 0%R = x). { intros x. clear -Hb. revert b Hb. induction (length (ps_data s)); intros [|b] Hb; cbn; try lia; auto. apply IHn. lia. }
      rewrite !R0, Hat. split; reflexivity.
    + rewrite (table_up (e_fmt E) fst 1%R l U), (table_up (e_fmt E) snd (-1)%R l D). cbn [bind]. exists (map fst l), (map snd l). split; [reflexivity|]. split; [reflexivity|]. rewrite !map_length. split; [exact Hm|]. split; [exact Hm|].
      intros b Hb. specialize (Hat b Hb). cbn [at_bin] in Hat. assert (Hb2 : (b < length l)%nat) by (rewrite Hm; exact Hb). rewrite (nth_map_lt fst l b (0, 0)%R _ Hb2), (nth_map_lt snd l b (0, 0)%R _ Hb2). unfold imp in *. rewrite Hat. split; reflexivity.
Qed.
Lemma Forall2_map_r {A B C} (P : A -> C -> Prop) (f : B -> C) l m : Forall2 (fun a b => P a (f b)) l m -> Forall2 P l (map f m).
Proof. induction 1; cbn; constructor; auto. Qed.
Lemma dget_map_np n l : dget n (map (fun s => (ns_name s, loaded_np s)) l) = option_map loaded_np (dget n (map (fun s => (ns_name s, s)) l)).
Proof. induction l as [|s l IH]; [reflexivity|]. cbn [map dget]. destruct (String.eqb n (ns_name s)); [reflexivity|exact IH]. Qed.

Theorem C64_conversion : forall E keep index f meas ms, e_fmt E 1%R = "+1" -> e_fmt E (-1)%R = "-1" ->
  py_index (pf_meas f) index = Some meas -> hd_error (pf_meas f) = Some ms ->
  (forall p, In p (pm_pars meas) -> valid_par p) -> NoDup (map pc_name (pf_channels f)) -> (forall c, In c (pf_channels f) -> valid_channel (pm_pars ms) c) ->
  (forall c s n, In c (pf_channels f) -> In s (pc_samples c) -> In n (normfactors (ps_mods s)) -> e_float E n = None) ->
  exists out, convert keep index f = Ok out /\ forall m0, m_exprs m0 = [] -> exists m, model_read E m0 out = Ok m /\
    keys (m_pois m) = [pm_poi meas] /\ Forall2 (channel_kept E (pm_pars ms) (pm_poi meas) (m_nps m)) (pf_channels f) (m_channels m) /\
    NoDup (keys (m_nps m)) /\ ~ In (pm_poi meas) (keys (m_nps m)) /\
    (forall n p, n <> pm_poi meas -> last_par n (pm_pars meas) = Some p -> dget n (m_nps m) =
       Some (mkNP (Some n) (Some (par_nominal p)) (match par_sigma p with Some s => s | None => 1%R end) (par_sigma p) (match par_sigma p with Some _ => Some (aux_of n) | None => None end) None None)) /\
    (forall n, In n (keys (m_nps m)) -> last_par n (pm_pars meas) = None -> dget n (m_nps m) = Some (mkNP (Some n) (Some 0%R) 1%R (Some 1%R) (Some (aux_of n)) None None) /\
       exists c s, In c (pf_channels f) /\ In s (pc_samples c) /\ touched s n) /\
    (forall n p a, dget n (m_nps m) = Some p -> np_aux_obs p = Some a -> In a (keys (m_aux m))).
Proof.
  intros E keep index f meas ms F1 F2 Hi Hm Hp Hnc Hc Hf. unfold convert. rewrite Hi. destruct (read_pars_ok (pm_poi meas) (pm_pars meas) Hp) as (d & A & B & B2 & C). rewrite A. cbn [bind].
  destruct (pf_meas f) as [|ms' rest] eqn:Em; [discriminate|]. cbn in Hm. injection Hm as ->.
  destruct (channels_convert keep (pm_pars ms) (pm_poi meas) (pf_channels f) d Hc) as (nps & chs & A1 & (names & Nm & G1 & G2 & G3 & G4 & G5) & O). rewrite A1. cbn [bind fst snd]. eexists. split; [reflexivity|].
  intros m0 Hex. set (model := ("model", _)).
  assert (Names : forall k s, In (k, s) nps -> ns_name s = k).
  { intros k s Hin. assert (ND : NoDup (keys nps)) by now apply G1. apply (In_dget _ _ _ ND) in Hin. destruct (dget k d) as [s0|] eqn:E0.
    - pose proof (G3 _ _ E0) as X. rewrite Hin in X. inversion X; subst. apply B2. now apply dget_In.
    - apply dget_None in E0. destruct (G5 k E0) as (_ & X); [apply dget_In in Hin; apply in_map_iff; exists (k, s); auto|]. rewrite Hin in X. now inversion X. }
  assert (Kn : map (fun s => (ns_name s, s)) (values nps) = nps).
  { unfold values. rewrite map_map. rewrite <- (map_id nps) at 2. apply map_ext_in. intros (k & s) Hin. cbn [snd]. now rewrite (Names k s Hin). }
  assert (Nn : map ns_name (values nps) = keys nps).
  { unfold values, keys. rewrite map_map. apply map_ext_in. intros (k & s) Hin. cbn [snd fst]. now apply Names. }
  assert (Nc : map oc_name chs = map pc_name (pf_channels f)).
  { clear -O. induction O as [|c o l r H1 H2 IH]; [reflexivity|]. cbn [map]. f_equal; [apply H1|exact IH]. }
  destruct (document_loads E m0 (pm_poi meas) (values nps) chs (match pf_obs f with None => [] | Some o => [("data", JObj [("channels", JList (map j_obs o)); ("aux_obs", JList (j_aux nps))])] end)) as (aux & L & X); auto.
  { rewrite Nn. now apply G1. }
  { now rewrite Nc. }
  { intros o Ho. assert (Y : exists c, In c (pf_channels f) /\ channel_out (pm_pars ms) c o).
    { clear -O Ho. induction O as [|c o' l r H1 H2 IH]; [contradiction|]. destruct Ho as [->|Ho]; [exists c; split; [now left|exact H1]|]. destruct (IH Ho) as (c' & P & Q). exists c'. split; [now right|exact Q]. }
    destruct Y as (c & Hin & (Y1 & Y2 & Y3)). split.
    - intros s Hs. assert (Z : exists s0, In s0 (pc_samples c) /\ sample_out (pm_pars ms) s0 s).
      { clear -Y3 Hs. induction Y3 as [|a b l r H1 H2 IH]; [contradiction|]. destruct Hs as [->|Hs]; [exists a; split; [now left|exact H1]|]. destruct (IH Hs) as (c' & P & Q). exists c'. split; [now right|exact Q]. }
      destruct Z as (s0 & Hs0 & (Z1 & Z2 & Z3 & _)). split.
      + intros n Hn. rewrite Z3 in Hn. apply (Hf c s0); auto. destruct (normfactors (ps_mods s0)); [discriminate|]. inversion Hn. now left.
      + rewrite Z2. unfold loaded_channel, nbins. cbn [ch_kind]. rewrite Y2. assert (L0 : length (ps_data s0) = channel_bins c).
        { unfold channel_bins. destruct (pc_samples c) as [|s1 l] eqn:Es; [contradiction|]. apply (vc_same _ _ (Hc c Hin)); rewrite Es; [exact Hs0|now left]. }
        rewrite L0. destruct (Nat.eqb_spec (channel_bins c) 1) as [->|_]; [reflexivity|]. unfold bin_names. now rewrite map_length, seq_length.
    - replace (map os_name (oc_samples o)) with (map ps_name (pc_samples c)); [apply (vc_names _ _ (Hc c Hin))|]. clear -Y3. induction Y3 as [|a b l r H1 H2 IH]; [reflexivity|]. cbn [map]. f_equal; [symmetry; apply H1|exact IH]. }
  eexists. split; [destruct (pf_obs f); exact L|]. cbn [m_pois m_nps m_channels m_aux keys map fst]. split; [reflexivity|].
  assert (KK : keys (map (fun n => (ns_name n, loaded_np n)) (values nps)) = keys nps) by (unfold keys at 1; rewrite map_map; exact Nn).
  fold (@keys NP (map (fun n => (ns_name n, loaded_np n)) (values nps))). 
  assert (DG : forall n, dget n (map (fun n => (ns_name n, loaded_np n)) (values nps)) = option_map loaded_np (dget n nps)) by (intros n; rewrite dget_map_np, Kn; reflexivity).
  assert (D0 : forall n, In n (keys d) -> n <> pm_poi meas).
  { intros n Hn ->. assert (Z : dget (pm_poi meas) d = None) by (rewrite C, String.eqb_refl; reflexivity). apply dget_None in Z. contradiction. }
  split; [|split; [|split; [|split; [|split]]]].
  - apply Forall2_map_r. eapply Forall2_impl_in; [|exact O]. intros c o Hin (Y1 & Y2 & Y3). unfold channel_kept. cbn [fst snd loaded_channel ch_name ch_samples]. split; [exact Y1|]. split; [exact Y1|].
    split; [unfold nbins, loaded_channel; cbn [ch_kind snd]; rewrite Y2; destruct (Nat.eqb_spec (channel_bins c) 1) as [->|_]; [reflexivity|]; unfold bin_names; now rewrite map_length, seq_length|].
    split; [unfold loaded_channel; cbn [ch_kind snd]; rewrite Y2; destruct (channel_bins c =? 1)%nat; reflexivity|].
    apply Forall2_map_r. eapply Forall2_impl_in; [|exact Y3]. intros s os Hs Ho. apply sample_right; auto. intros q T. rewrite KK. apply G4. apply Nm. exists c. split; [exact Hin|]. exists s. auto.
  - rewrite KK. now apply G1.
  - rewrite KK. apply G2. intros Z. now apply (D0 _ Z).
  - intros n p Hn Hl. rewrite DG. assert (Z : dget n d = Some (spec_of_par p)). { rewrite C. apply String.eqb_neq in Hn. rewrite Hn, Hl. reflexivity. }
    rewrite (G3 _ _ Z). cbn [option_map]. unfold loaded_np, spec_of_par. cbn [ns_name ns_nominal ns_variation ns_constraint].
    assert (Np : pp_name p = n). { unfold last_par in Hl. apply find_some in Hl as (_ & Hl). now apply String.eqb_eq in Hl. } rewrite Np. destruct (par_sigma p); reflexivity.
  - intros n Hn Hl. rewrite KK in Hn. assert (Z : ~ In n (keys d)). { apply dget_None. rewrite C, Hl. now destruct (String.eqb n (pm_poi meas)). } destruct (G5 n Z Hn) as (P & Q). split; [rewrite DG, Q; reflexivity|].
    apply Nm in P as (c & Hin & s & Hs & T). eauto.
  - intros n p a Hd Ha. rewrite DG in Hd. destruct (dget n nps) as [s|] eqn:Es; [|discriminate]. inversion Hd; subst p. unfold loaded_np in Ha. cbn [np_aux_obs] in Ha. destruct (ns_constraint s) eqn:Ec; [|discriminate]. inversion Ha; subst a.
    apply X; [|congruence]. apply dget_In in Es. apply in_map_iff. exists (n, s). auto.
Qed.
Print Assumptions C64_conversion.

(** In words: for a parameter that one modifier only acts through, the nominal yields and the impacts give back the varied yields. *)
Theorem C64_varied_yields : forall meas s m pre post q b, ps_mods s = pre ++ m :: post -> (forall m', In m' (ps_mods s) -> valid_mod meas (ps_data s) m') ->
  (forall m', In m' (pre ++ post) -> ~ touches m' q) -> (b < length (ps_data s))%nat ->
  let y := nth b (ps_data s) 0%R in let up := (y * (1 + total_up meas s q b))%R in let down := (y * (1 + total_down meas s q b))%R in
  match m with
  | MNormsys n hi lo => q = n -> up = (y * hi)%R /\ down = (y * lo)%R
  | MHistosys n hi lo => q = n -> up = nth b hi 0%R /\ down = nth b lo 0%R
  | MShape n data => q = shape_par n b -> up = (y + nth b data 0)%R /\ down = (y - nth b data 0)%R
  | MLumi n => q = n -> up = (y * (1 + lumi_sigma meas n))%R /\ down = (y * (1 - lumi_sigma meas n))%R
  | _ => True
  end.
Proof.
  intros meas s m pre post q b Em V Hn Hb. cbn zeta.
  assert (Z : forall l, (forall m', In m' l -> ~ touches m' q) -> (forall m', In m' l -> valid_mod meas (ps_data s) m') -> forall m', In m' l -> effect meas (ps_data s) m' q b = (0, 0)%R).
  { intros l H W m' Hm'. specialize (H m' Hm'). specialize (W m' Hm').
    assert (Q : forall n, q <> n -> String.eqb q n = false) by (intros n; apply String.eqb_neq).
    destruct m' as [n|n|n hi lo|n hi lo|n data|n t]; cbn [effect touches valid_mod] in *; try (rewrite Q by exact H); try reflexivity.
    destruct (String.eqb q (shape_par n b)) eqn:Eq; [|reflexivity]. apply String.eqb_eq in Eq. exfalso. apply H. exists b. split; [lia|exact Eq]. }
  assert (Z2 : forall (side : R * R -> R) l, side (0, 0)%R = 0%R -> (forall m', In m' l -> effect meas (ps_data s) m' q b = (0, 0)%R) -> lsum (map (fun m => side (effect meas (ps_data s) m q b)) l) = 0%R).
  { intros side l S0. induction l as [|m' l IH]; intros H; [reflexivity|]. cbn [map lsum]. rewrite H by now left. rewrite IH by (intros; apply H; now right). rewrite S0. lra. }
  assert (Ta : forall m', In m' pre -> effect meas (ps_data s) m' q b = (0, 0)%R) by (apply Z; intros m' Hm'; [apply Hn; apply in_or_app; now left|apply V; rewrite Em; apply in_or_app; now left]).
  assert (Tb : forall m', In m' post -> effect meas (ps_data s) m' q b = (0, 0)%R) by (apply Z; intros m' Hm'; [apply Hn; apply in_or_app; now right|apply V; rewrite Em; apply in_or_app; right; now right]).
  assert (U : total_up meas s q b = fst (effect meas (ps_data s) m q b)).
  { unfold total_up. rewrite Em, map_app, lsum_app. cbn [map lsum]. rewrite (Z2 fst pre eq_refl Ta), (Z2 fst post eq_refl Tb). lra. }
  assert (D : total_down meas s q b = snd (effect meas (ps_data s) m q b)).
  { unfold total_down. rewrite Em, map_app, lsum_app. cbn [map lsum]. rewrite (Z2 snd pre eq_refl Ta), (Z2 snd post eq_refl Tb). lra. }
  rewrite U, D. specialize (V m). rewrite Em in V. specialize (V ltac:(apply in_or_app; right; now left)).
  destruct m as [n|n|n hi lo|n hi lo|n data|n t]; try exact Logic.I; intros ->; cbn [effect valid_mod] in *; rewrite String.eqb_refl; cbn [fst snd].
  - split; ring.
  - split; ring.
  - destruct V as (_ & _ & V). destruct (V b Hb) as (Y & _). split; field; exact Y.
  - destruct V as (_ & V). specialize (V b Hb). split; field; exact V.
Qed.
Print Assumptions C64_varied_yields.

(** ** What goes wrong otherwise *)
(** Variations of the same sign in one bin: without -k, the impacts in all bins are replaced by zero; with -k, one of the two is inverted in
    all the bins, so that variations of opposite signs become variations of the same sign. *)
Theorem C64_same_sign_refuted : forall keep meas poi nps s n hi lo b, ps_mods s = [MHistosys n hi lo] -> length hi = length (ps_data s) -> length lo = length (ps_data s) ->
  (forall i, (i < length (ps_data s))%nat -> nth i (ps_data s) 0%R <> 0%R) ->
  (b < length (ps_data s))%nat -> (0 < (nth b hi 0 - nth b (ps_data s) 0) * (nth b lo 0 - nth b (ps_data s) 0))%R ->
  exists nps' o, convert_sample keep meas poi nps s = Ok (nps', o) /\ exists p, os_impacts o = [(n, p)] /\
    if keep then forall i, (i < length (ps_data s))%nat -> let u := (nth i hi 0 / nth i (ps_data s) 0 - 1)%R in let d := (nth i lo 0 / nth i (ps_data s) 0 - 1)%R in
                 at_bin p i = (if Rltb (Rabs d) (Rabs u) then (u, - d) else (- u, d))%R
    else p = One (0, 0)%R.
Proof.
  intros keep meas poi nps s n hi lo b Em L1 L2 Hy Hb Hs. unfold convert_sample. rewrite Em. cbn [normfactors map concat app existsb foldM bind mod_calls].
  assert (H : exists l, histo_impacts (ps_data s) hi lo = Ok l /\ length l = length (ps_data s) /\ forall i, (i < length (ps_data s))%nat -> nth i l (0, 0)%R = (nth i hi 0 / nth i (ps_data s) 0 - 1, nth i lo 0 / nth i (ps_data s) 0 - 1)%R).
  { clear -L1 L2 Hy. revert hi lo L1 L2 Hy. induction (ps_data s) as [|y ys IH]; intros [|h hi] [|l lo] L1 L2 H; cbn in L1, L2; try discriminate; cbn [histo_impacts].
    - exists []. repeat split. cbn. intros i Hi. lia.
    - assert (Y : y <> 0%R) by (apply (H 0%nat); cbn; lia). unfold rel. rewrite (proj2 (Reqb_false _ _) Y). cbn [bind].
      destruct (IH hi lo) as (r & A & B & C); [lia|lia|intros i Hi; apply (H (S i)); cbn; lia|]. rewrite A. cbn [bind]. eexists. split; [reflexivity|]. split; [cbn; now rewrite B|].
      intros [|i] Hi; [reflexivity|]. cbn. apply C. cbn in Hi. lia. }
  destruct H as (l & A & B & C). rewrite A. cbn [bind fold_left fst snd]. eexists. eexists. split; [reflexivity|]. cbn [os_impacts snd add_impact fst dget dset]. eexists. split; [reflexivity|].
  assert (SS : same_sign l = true).
  { unfold same_sign. apply existsb_exists. exists (nth b l (0, 0)%R). split; [apply nth_In; rewrite B; exact Hb|]. rewrite C by exact Hb. cbn [fst snd]. apply Rltb_true.
    set (y := nth b (ps_data s) 0%R) in *. assert (Y : y <> 0%R) by now apply Hy. replace ((nth b hi 0 / y - 1) * (nth b lo 0 / y - 1))%R with (((nth b hi 0 - y) * (nth b lo 0 - y)) * (/ y * / y))%R by (field; exact Y).
    apply Rmult_lt_0_compat; [exact Hs|]. pose proof (Rinv_neq_0_compat y Y). assert (0 < Rsqr (/ y))%R by now apply Rlt_0_sqr. exact H0. }
  unfold fix_signs. rewrite SS. destruct keep; [|reflexivity]. intros i Hi. cbn zeta. rewrite collapse_at.
  assert (X : call_at ("", map flip l) i = flip (nth i l (0, 0)%R)).
  { unfold call_at. cbn [snd]. assert (Y : nth i (map flip l) (0, 0)%R = flip (nth i l (0, 0)%R)) by (rewrite (nth_map_lt flip l i (0, 0)%R); [reflexivity|rewrite B; exact Hi]).
    destruct l as [|a [|a2 l]]; [cbn in B; lia| |exact Y]. cbn in B. assert (i = 0%nat) by lia. subst i. exact Y. }
  rewrite X, C by exact Hi. reflexivity.
Qed.
Print Assumptions C64_same_sign_refuted.
(** An overall variation that follows a variation bin by bin of the same parameter keeps the first two bins only. *)
Theorem C64_overall_after_by_bin_refuted : forall keep meas poi nps s n hi lo u d, ps_mods s = [MHistosys n hi lo; MNormsys n u d] ->
  (forall m, In m (ps_mods s) -> valid_mod meas (ps_data s) m) -> (2 < length (ps_data s))%nat ->
  exists nps' o l, convert_sample keep meas poi nps s = Ok (nps', o) /\ os_impacts o = [(n, Many l)] /\ length l = 2%nat.
Proof.
  intros keep meas poi nps s n hi lo u d Em V N2. rewrite Em in V. pose proof (V _ (or_introl eq_refl)) as V1. pose proof (V _ (or_intror (or_introl eq_refl))) as V2. cbn [valid_mod] in V1, V2. destruct V1 as (L1 & L2 & V1).
  destruct (histo_ok (ps_data s) hi lo L1 L2 V1) as (l & A & B & C & _). unfold convert_sample. rewrite Em. cbn [normfactors map concat app existsb foldM bind mod_calls]. rewrite A. cbn [bind fold_left].
  assert (S2 : same_sign [(u - 1, d - 1)%R] = false) by (cbn; rewrite orb_false_r; now apply Rltb_false).
  assert (CL : collapse l = Many l) by (destruct l as [|a [|a2 l]]; try reflexivity; cbn in B; lia).
  eexists. eexists. exists (zipwith add_imp l (repeat (u - 1, d - 1)%R 2)). split; [reflexivity|]. split.
  - cbn [os_impacts snd fst add_impact dget]. unfold fix_signs. rewrite C, S2, CL. cbn [dset dget]. rewrite ?String.eqb_refl. cbn [collapse combine_impacts dset]. rewrite ?String.eqb_refl. reflexivity.
  - rewrite zipwith_length, repeat_length. unfold imp in *. lia.
Qed.
Print Assumptions C64_overall_after_by_bin_refuted.
(** A normalization factor that is neither the POI, nor listed in the measurement, nor used by another modifier is not declared: the
    sample refers to a parameter that the document does not define. *)
Theorem C64_normfactor_undeclared_refuted : forall E keep index f meas ms n c s, e_fmt E 1%R = "+1" -> e_fmt E (-1)%R = "-1" ->
  py_index (pf_meas f) index = Some meas -> hd_error (pf_meas f) = Some ms ->
  (forall p, In p (pm_pars meas) -> valid_par p) -> NoDup (map pc_name (pf_channels f)) -> (forall c, In c (pf_channels f) -> valid_channel (pm_pars ms) c) ->
  (forall c s n, In c (pf_channels f) -> In s (pc_samples c) -> In n (normfactors (ps_mods s)) -> e_float E n = None) ->
  In c (pf_channels f) -> In s (pc_samples c) -> normfactors (ps_mods s) = [n] ->
  n <> pm_poi meas -> last_par n (pm_pars meas) = None -> (forall c s, In c (pf_channels f) -> In s (pc_samples c) -> ~ touched s n) ->
  exists out, convert keep index f = Ok out /\ forall m0 m, m_exprs m0 = [] -> model_read E m0 out = Ok m ->
    (exists k c' k' s', In (k, c') (m_channels m) /\ In (k', s') (ch_samples c') /\ s_norm s' = ExprNorm n) /\ ~ In n (keys (m_pois m)) /\ ~ In n (keys (m_nps m)) /\ m_exprs m = [].
Proof.
  intros E keep index f meas ms n c s F1 F2 Hi Hm Hp Hnc Hc Hf Hin Hs Hn Hnp Hl Ht. destruct (C64_conversion E keep index f meas ms F1 F2 Hi Hm Hp Hnc Hc Hf) as (out & A & B).
  exists out. split; [exact A|]. intros m0 m Hex Hr. destruct (B m0 Hex) as (m' & Hr' & P1 & P2 & P3 & P4 & P5 & P6 & _). rewrite Hr in Hr'. inversion Hr'; subst m'; clear Hr'. split; [|split; [|split]].
  - destruct (Forall2_in_l _ _ _ c P2 Hin) as ((k & c') & Hkc & K). destruct K as (_ & _ & _ & _ & K). destruct (Forall2_in_l _ _ _ s K Hs) as ((k' & s') & Hks & Q). destruct Q as (_ & _ & _ & Q & _). rewrite Hn in Q. exists k, c', k', s'. split; [exact Hkc|]. split; [exact Hks|]. apply Q.
  - rewrite P1. intros [X|[]]. congruence.
  - intros X. destruct (P6 n X Hl) as (_ & c2 & s2 & Hc2 & Hs2 & T). exact (Ht c2 s2 Hc2 Hs2 T).
  - unfold convert in A. rewrite Hi in A. apply bind_Ok in A as (d & _ & A). apply bind_Ok in A as (r & _ & A). 
    assert (G : exists model rest, out = ("model", JObj model) :: rest /\ dget "expressions" model = None) by (destruct (pf_obs f); injection A as <-; eexists; eexists; (split; [reflexivity|reflexivity])).
    destruct G as (model & rest & -> & G). unfold model_read in Hr. cbn [dgetE dget String.eqb Ascii.eqb Bool.eqb] in Hr. unfold dgetE at 1 in Hr. cbn [dget String.eqb Ascii.eqb Bool.eqb bind] in Hr.
    repeat (apply bind_Ok in Hr as (? & ? & Hr)). inversion Hr; subst m; clear Hr. cbn [m_exprs].
    match goal with H : section "expressions" model = Ok ?l |- _ => unfold section in H; rewrite G in H; injection H as <- end. match goal with H : foldM _ [] _ = Ok ?x |- ?x = [] => cbn in H; congruence end.
Qed.
Print Assumptions C64_normfactor_undeclared_refuted.
(** A modifier with the name of the normalization factor is dropped. *)
Theorem C64_modifier_named_as_normfactor_refuted : forall keep meas poi nps s n m, ps_mods s = [MNormfactor n; m] -> mod_name m = n -> ~ is_normfactor m ->
  convert_sample keep meas poi nps s = Ok (nps, mkOSample (ps_name s) (ps_data s) (Some n) []).
Proof.
  intros keep meas poi nps s n m Em En Hn. unfold convert_sample. rewrite Em. assert (Nf : normfactors [MNormfactor n; m] = [n]) by (destruct m; try reflexivity; exfalso; apply Hn; exact Logic.I). rewrite Nf. cbn [bind foldM mod_name existsb]. rewrite String.eqb_refl, En, String.eqb_refl. reflexivity.
Qed.
Print Assumptions C64_modifier_named_as_normfactor_refuted.
(** A histosys or a shape variation of a bin with a nominal yield of zero makes the conversion fail. *)
Theorem C64_empty_bin_refuted : forall meas ys m b, (b < length ys)%nat -> nth b ys 0%R = 0%R ->
  match m with MHistosys _ hi lo => length hi = length ys /\ length lo = length ys | MShape _ data => length data = length ys | _ => False end -> mod_calls meas ys m = Err KeyError.
Proof.
  intros meas ys m b Hb Hy Hm. destruct m as [n|n|n hi lo|n hi lo|n data|n t]; try contradiction; cbn [mod_calls].
  - destruct Hm as (L1 & L2). assert (X : histo_impacts ys hi lo = Err KeyError).
    { revert ys hi lo Hb Hy L1 L2. induction b as [|b IH]; intros [|y ys] [|h hi] [|l lo] Hb Hy L1 L2; cbn in Hb, L1, L2; try lia; cbn [histo_impacts]; unfold rel.
      - cbn in Hy. subst y. rewrite (proj2 (Reqb_true _ _) eq_refl). reflexivity.
      - destruct (Reqb y 0); [reflexivity|]. cbn [bind]. rewrite (IH ys hi lo); [reflexivity|lia|exact Hy|lia|lia]. }
    rewrite X. reflexivity.
  - enough (G : forall k b0, shape_calls n k b0 ys data = Err KeyError) by apply G. intros k b0. revert ys data b0 Hb Hy Hm. induction b as [|b IH]; intros [|y ys] [|h data] b0 Hb Hy Hm; cbn in Hb, Hm; try lia; cbn [shape_calls]; unfold rel.
    + cbn in Hy. subst y. rewrite (proj2 (Reqb_true _ _) eq_refl). reflexivity.
    + destruct (Reqb y 0); [reflexivity|]. cbn [bind]. rewrite (IH ys data (S b0)); [reflexivity|lia|exact Hy|lia].
Qed.
Print Assumptions C64_empty_bin_refuted.
(** The impact of the luminosity is the one of the first measurement, not of the one that is converted; and the central value 'auxdata' of
    the pyhf schema is not read. *)
Theorem C64_lumi_of_first_measurement_refuted : forall E keep index f meas ms n c s p0 p1 s0 s1 r0 r1, e_fmt E 1%R = "+1" -> e_fmt E (-1)%R = "-1" ->
  py_index (pf_meas f) index = Some meas -> hd_error (pf_meas f) = Some ms ->
  (forall p, In p (pm_pars meas) -> valid_par p) -> NoDup (map pc_name (pf_channels f)) -> (forall c, In c (pf_channels f) -> valid_channel (pm_pars ms) c) ->
  (forall c s n, In c (pf_channels f) -> In s (pc_samples c) -> In n (normfactors (ps_mods s)) -> e_float E n = None) ->
  In c (pf_channels f) -> In s (pc_samples c) -> ps_mods s = [MLumi n] -> ps_data s <> [] ->
  last_par n (pm_pars ms) = Some p0 -> pp_sigmas p0 = Some (s0 :: r0) -> n <> pm_poi meas -> last_par n (pm_pars meas) = Some p1 -> pp_sigmas p1 = Some (s1 :: r1) ->
  exists out, convert keep index f = Ok out /\ forall m0, m_exprs m0 = [] -> exists m, model_read E m0 out = Ok m /\
    (exists p, dget n (m_nps m) = Some p /\ np_constraint p = Some s1) /\
    exists k c' k' s' l, In (k, c') (m_channels m) /\ In (k', s') (ch_samples c') /\ impact (e_fmt E) s' n 1 = Ok (Some l) /\ nth 0 l 0%R = s0.
Proof.
  intros E keep index f meas ms n c s p0 p1 s0 s1 r0 r1 F1 F2 Hi Hm Hp Hnc Hc Hf Hin Hs Em Hd L0 S0 Hn L1 S1. destruct (C64_conversion E keep index f meas ms F1 F2 Hi Hm Hp Hnc Hc Hf) as (out & A & B).
  exists out. split; [exact A|]. intros m0 Hex. destruct (B m0 Hex) as (m & Hr & P1 & P2 & P3 & P4 & P5 & P6 & _). exists m. split; [exact Hr|]. split.
  - rewrite (P5 n p1 Hn L1). eexists. split; [reflexivity|]. cbn [np_constraint]. unfold par_sigma. now rewrite S1.
  - destruct (Forall2_in_l _ _ _ c P2 Hin) as ((k & c') & Hkc & K). destruct K as (_ & _ & _ & _ & K). destruct (Forall2_in_l _ _ _ s K Hs) as ((k' & s') & Hks & Q). destruct Q as (_ & _ & _ & _ & Q). cbn [snd] in *.
    destruct (proj2 (Q n)) as ((up & down & U & _ & Lu & _ & T) & _); [exists (MLumi n); rewrite Em; split; [now left|reflexivity]|].
    exists k, c', k', s', up. repeat split; auto. assert (Hb : (0 < length (ps_data s))%nat) by (destruct (ps_data s); [contradiction|cbn; lia]). rewrite (proj1 (T 0%nat Hb)). unfold total_up. rewrite Em. cbn [map lsum effect]. rewrite String.eqb_refl. unfold lumi_sigma. rewrite L0, S0. cbn [fst]. lra.
Qed.
Print Assumptions C64_lumi_of_first_measurement_refuted.
Theorem C64_auxdata_ignored_refuted : forall p x, np_spec (mkPPar (pp_name p) (pp_sigmas p) (pp_aux_data p) x (pp_inits p)) = np_spec p.
Proof. reflexivity. Qed.
Print Assumptions C64_auxdata_ignored_refuted.

(** a channel of two bins with a signal, scaled by the POI, and a background with all kinds of variations; and a channel of one bin *)
Definition ex_pyhf : PFile :=
  mkPFile [mkPMeas "mu" [mkPPar "mu" None None None (Some [1%R]); mkPPar "lumi" (Some [1/10]%R) None (Some [1%R]) (Some [1%R])]]
    [mkPChannel "SR" [mkPSample "S" [3; 4]%R [MNormfactor "mu"; MLumi "lumi"];
                      mkPSample "B" [10; 20]%R [MNormsys "xs" (11/10)%R (9/10)%R; MHistosys "scale" [11; 21]%R [9; 18]%R; MHistosys "xs" [11; 21]%R [9; 18]%R; MShape "stat" [1; 2]%R]];
     mkPChannel "CR" [mkPSample "B" [50]%R [MNormsys "xs" (11/10)%R (9/10)%R; MHistosys "scale" [51]%R [48]%R]]]
    (Some [("CR", [52]%R); ("SR", [12; 25]%R)]).
Example C64_nonvacuous : exists meas, e_fmt ex_env 1%R = "+1" /\ e_fmt ex_env (-1)%R = "-1" /\
  py_index (pf_meas ex_pyhf) 0 = Some meas /\ hd_error (pf_meas ex_pyhf) = Some meas /\
  (forall p, In p (pm_pars meas) -> valid_par p) /\ NoDup (map pc_name (pf_channels ex_pyhf)) /\ (forall c, In c (pf_channels ex_pyhf) -> valid_channel (pm_pars meas) c) /\
  (forall c s n, In c (pf_channels ex_pyhf) -> In s (pc_samples c) -> In n (normfactors (ps_mods s)) -> e_float ex_env n = None).
Proof.
  eexists. split; [cbn; now rewrite (proj2 (Reqb_true 1 1) eq_refl)|]. split; [cbn; rewrite (proj2 (Reqb_false (-1) 1)) by lra; reflexivity|]. split; [reflexivity|]. split; [reflexivity|].
  split; [intros p [<-|[<-|[]]]; repeat split; discriminate|]. split; [repeat constructor; cbn; intuition discriminate|]. split.
  - intros c [<-|[<-|[]]]; constructor; cbn; try discriminate.
    + repeat constructor; cbn; intuition discriminate.
    + intros s s' [<-|[<-|[]]] [<-|[<-|[]]]; reflexivity.
    + intros s [<-|[<-|[]]]; constructor; cbn.
      * intros m [<-|[<-|[]]]; cbn; [exact Logic.I|]. eexists. eexists. eexists. split; reflexivity.
      * lia.
      * intros m [<-|[<-|[]]] H; cbn; [exfalso; apply H; exact Logic.I|]. intros [H1|[]]. discriminate.
      * lia.
      * intros m [<-|[<-|[<-|[<-|[]]]]]; cbn; [lra| | |]; repeat split; auto; destruct b as [|[|b]]; cbn in *; try lia; lra.
      * lia.
      * intros m _ _ [].
      * lia.
    + repeat constructor; cbn; intuition discriminate.
    + intros s s' [<-|[]] [<-|[]]; reflexivity.
    + intros s [<-|[]]; constructor; cbn.
      * intros m [<-|[<-|[]]]; cbn; [lra|]; repeat split; auto; destruct b as [|[|b]]; cbn in *; try lia; lra.
      * lia.
      * intros m _ _ [].
      * lia.
  - intros c s n [<-|[<-|[]]]; cbn; [intros [<-|[<-|[]]]|intros [<-|[]]]; cbn; intros Hn; try contradiction; destruct Hn as [<-|[]]; reflexivity.
Qed.
