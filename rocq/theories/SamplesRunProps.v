(** C108: sampling distributions of a limit computation: generation, reuse and p-values. *)
From Coq Require Import Permutation Sorted.
From Verif Require Import Py PyFacts RSort Base Params FitData FitDataFacts FitDataProps Sampling SamplingFacts SamplingProps FileName FileNameProps SamplesRun.
Local Open Scope string_scope.
Local Open Scope list_scope.
Local Open Scope R_scope.

(** ** names of the files *)
Lemma fmt_g_nonempty v : fmt_g v <> [].
Proof.
  assert (G : forall m x, fmt_pos m x <> []).
  { intros m x. unfold fmt_pos. destruct ((0 <=? x)%Z && (x <? 6)%Z); [destruct (digits6 m) eqn:E; [discriminate E|cbn; discriminate]|]. destruct ((-4 <=? x)%Z && (x <? 0)%Z); [discriminate|].
    destruct (digits6 m) eqn:E; [discriminate E|cbn; discriminate]. }
  unfold fmt_g. destruct (Reqb v 0); [discriminate|]. destruct (Rltb v 0); [destruct (g_digits (- v)); discriminate|]. destruct (g_digits v). apply G.
Qed.
Lemma fmt_g_chars v c : In c (fmt_g v) -> isdig c \/ c = "."%char \/ c = "e"%char \/ c = "+"%char \/ c = "-"%char.
Proof.
  unfold fmt_g. intros H. destruct (Reqb v 0); [destruct H as [<-|[]]; left; unfold isdig; cbn; lia|]. destruct (Rltb v 0).
  - destruct (g_digits (- v)). destruct H as [<-|H]; [tauto|]. now apply fmt_chars in H.
  - destruct (g_digits v). now apply fmt_chars in H.
Qed.
Lemma join_cons r ls : ls <> [] -> join (r :: ls) = r ++ "_"%char :: join ls.
Proof. destruct ls; [congruence|reflexivity]. Qed.
Lemma join_last ls : ls <> [] -> exists pre g, In g ls /\ join ls = pre ++ g.
Proof.
  induction ls as [|a ls IH]; [congruence|]. intros _. destruct ls as [|b ls]; [exists [], a; split; [now left|reflexivity]|]. destruct IH as (pre & g & Hg & E); [discriminate|].
  exists (a ++ "_"%char :: pre), g. split; [now right|]. rewrite join_cons by discriminate. rewrite E, <- app_assoc. reflexivity.
Qed.
Lemma substring_app n s : forall m, (n <= String.length s)%nat -> m = (String.length s - n)%nat -> exists p, s = (p ++ substring n m s)%string.
Proof.
  revert s. induction n as [|n IH]; intros s m L ->.
  - exists "". cbn [String.append]. rewrite Nat.sub_0_r. clear L. induction s as [|a s IHs]; [reflexivity|]. cbn. now rewrite <- IHs.
  - destruct s as [|a s]; [cbn in L; lia|]. cbn [String.length] in L. destruct (IH s (String.length s - n)%nat) as (p & E); [lia|reflexivity|]. exists (String a p). cbn [String.append substring String.length Nat.sub]. now rewrite <- E.
Qed.
Lemma ends_npy_y s : ends_npy s = true -> exists p, list_ascii_of_string s = p ++ ["y"%char].
Proof.
  unfold ends_npy. destruct (4 <=? String.length s)%nat eqn:L; [|discriminate]. apply Nat.leb_le in L. intros H. apply String.eqb_eq in H.
  destruct (substring_app (String.length s - 4) s 4) as (p & E); [lia|lia|]. rewrite H in E. rewrite E. exists (list_ascii_of_string p ++ ["."; "n"; "p"]%char).
  clear. induction p as [|a p IH]; [reflexivity|]. cbn. now rewrite IH.
Qed.
Lemma las_app a b : list_ascii_of_string (a ++ b)%string = list_ascii_of_string a ++ list_ascii_of_string b.
Proof. induction a as [|x a IH]; [reflexivity|]. cbn. now rewrite IH. Qed.
(** the file written by np.save is the one looked up later *)
Lemma saved_name root vals : vals <> [] -> npy_name (file_name root vals "") = file_name root vals ".npy".
Proof.
  intros N. unfold npy_name. destruct (ends_npy (file_name root vals "")) eqn:E.
  - exfalso. apply ends_npy_y in E as (p & E). unfold file_name in E. rewrite list_ascii_of_string_of_list_ascii in E. cbn [list_ascii_of_string] in E. rewrite app_nil_r in E.
    assert (M : map fmt_g vals <> []) by (destruct vals; [congruence|discriminate]). rewrite join_cons in E by exact M. destruct (join_last _ M) as (pre & g & Hg & J). rewrite J in E.
    apply in_map_iff in Hg as (v & <- & _). destruct (exists_last (fmt_g_nonempty v)) as (q & c & Q). rewrite Q in E. change ("_"%char :: pre ++ q ++ [c]) with (("_"%char :: pre) ++ q ++ [c]) in E.
    rewrite !app_assoc in E. apply app_inj_tail in E as (_ & ->).
    assert (X : In "y"%char (fmt_g v)) by (rewrite Q; apply in_or_app; right; now left). apply fmt_g_chars in X. unfold isdig in X. destruct X as [X|[X|[X|[X|X]]]]; [cbn in X; lia|discriminate..].
  - apply las_inj. rewrite las_app. unfold file_name. rewrite !list_ascii_of_string_of_list_ascii. cbn [list_ascii_of_string]. now rewrite app_nil_r.
Qed.

(** ** hypotheses on the same parameters, in the same order, with values that differ within six significant digits *)
Record distinct_hypos (ks : list string) (hs : list Hypo) : Prop := mkDH {
  dh_ks : NoDup ks /\ ks <> [];
  dh_keys : forall h, In h hs -> keys h = ks;
  dh_vals : NoDup (map (fun h => map g6 (values h)) hs) }.
Lemma dh_tail ks h hs : distinct_hypos ks (h :: hs) -> distinct_hypos ks hs.
Proof. intros [A B Cd]. constructor; [exact A|intros x Hx; apply B; now right|inversion Cd; assumption]. Qed.
Lemma values_nonempty ks (h : Hypo) : ks <> [] -> keys h = ks -> values h <> [].
Proof. intros N E. destruct h; [cbn in E; congruence|discriminate]. Qed.
Lemma file_inj ks root suf (a b : Hypo) : ks <> [] -> keys a = ks -> keys b = ks -> so_file root a suf = so_file root b suf -> map g6 (values a) = map g6 (values b).
Proof. intros N A B H. apply (C45_same_file_iff root suf (values a) (values b)); [now apply (values_nonempty ks)|now apply (values_nonempty ks)|exact H]. Qed.
Lemma head_differs ks h hs x : distinct_hypos ks (h :: hs) -> In x hs -> map g6 (values h) <> map g6 (values x).
Proof. intros [_ _ Nv] Hx E. cbn [map] in Nv. inversion Nv as [|? ? Hn _]; subst. apply Hn. rewrite E. apply in_map_iff. eauto. Qed.
Lemma same_contents ks (a b : Hypo) : NoDup ks -> keys a = ks -> keys b = ks -> (forall k, dget k a = dget k b) -> values a = values b.
Proof.
  revert ks b. induction a as [|[k v] a IH]; intros ks b N A B H.
  - cbn in A. subst ks. destruct b; [reflexivity|discriminate].
  - destruct ks as [|k' ks]; [discriminate|]. cbn in A. injection A as <- A. destruct b as [|[k2 v2] b]; [discriminate|]. cbn in B. injection B as -> B. inversion N as [|? ? Hk Nk]; subst.
    cbn. f_equal.
    + specialize (H k). cbn in H. rewrite String.eqb_refl in H. congruence.
    + apply (IH _ b Nk eq_refl B). intros x. specialize (H x). cbn in H. destruct (String.eqb_spec x k) as [E|]; [|exact H]; subst x.
      assert (X : dget k a = None) by (apply dget_None; exact Hk). assert (Y : dget k b = None) by (apply dget_None; unfold keys in *; now rewrite B). congruence.
Qed.
(** the dictionary of distributions *)
Definition on_params (ks : list string) {V} (d : hdict V) : Prop := forall h w, In (h, w) d -> keys h = ks.
Lemma hset_keyed {V} hash ks h (v : V) d : keys h = ks -> on_params ks d -> on_params ks (hset hash h v d).
Proof.
  intros Hk. unfold on_params. induction d as [|[h' v'] d IH]; intros Hd x w Hin; cbn [hset] in Hin; [destruct Hin as [[= <- <-]|[]]; exact Hk|].
  destruct (same_key hash h' h); destruct Hin as [[= <- <-]|Hin].
  - apply (Hd h' v'). now left.
  - apply (Hd x w). now right.
  - apply (Hd h' v'). now left.
  - apply (IH (fun y z Hy => Hd y z (or_intror Hy)) x w Hin).
Qed.
Lemma hget_own {V} hash ks h (v : V) d : NoDup ks -> keys h = ks -> on_params ks d -> hget hash h (hset hash h v d) = Some v.
Proof. intros N Hk Hd. apply C51_same_order_found; [now rewrite Hk| |reflexivity|reflexivity]. intros x w Hx. rewrite (Hd x w Hx). exact N. Qed.
Lemma hget_different {V} hash ks h x (v : V) d : NoDup ks -> keys h = ks -> keys x = ks -> on_params ks d -> map g6 (values h) <> map g6 (values x) -> hget hash x (hset hash h v d) = hget hash x d.
Proof.
  intros N Hk Hx Hd Hv. apply C51_different_not_confused; [now rewrite Hk|now rewrite Hx| |]. { intros y w Hy. rewrite (Hd y w Hy). exact N. }
  intros E. apply Hv. f_equal. now apply (same_contents ks).
Qed.

(** ** the loop *)
Definition file_ok (root : string) (ntoys : nat) (brk : bool) (d : disk) (hs : Hypo * Sampler) : Prop :=
  match dget (so_file root (fst hs) ".npy") (dk_npy d) with
  | Some a => (ntoys <= length a)%nat
  | None => (brk = true \/ ~ In (so_file root (fst hs) ".lock") (dk_lock d)) /\ exists a, sp_generate (snd hs) ntoys = Ok a
  end.
(** what is found for a hypothesis afterwards *)
Definition produced (hash : list string -> Z) (root : string) (ntoys : nat) (sort : bool) (d d' : disk) (dists : hdict (list R)) (hs : Hypo * Sampler) : Prop :=
  match dget (so_file root (fst hs) ".npy") (dk_npy d) with
  | Some a => hget hash (fst hs) dists = Some (firstn ntoys a) /\ dget (so_file root (fst hs) ".npy") (dk_npy d') = Some a
  | None => exists a, sp_generate (snd hs) ntoys = Ok a /\ let a' := if sort then rsort a else a in
              hget hash (fst hs) dists = Some a' /\ dget (so_file root (fst hs) ".npy") (dk_npy d') = Some a'
  end.
Lemma has_lock_false l d : ~ In l (dk_lock d) -> has_lock l d = false.
Proof. intros H. unfold has_lock. apply Bool.not_true_is_false. intros X. apply existsb_exists in X as (y & Hy & E). apply String.eqb_eq in E. now subst y. Qed.
Lemma load_enough n npy f a : dget f npy = Some a -> (0 < n)%nat -> (n <= length a)%nat -> sd_load npy (sd_zeros n) f = Ok (firstn n a).
Proof.
  intros H P L. unfold sd_load, sd_zeros. rewrite H, repeat_length, (proj2 (Nat.ltb_lt 0 n) P). cbn [andb]. rewrite (proj2 (Nat.ltb_ge (length a) n) L).
  destruct (n <? length a)%nat eqn:E; [reflexivity|]. apply Nat.ltb_ge in E. f_equal. symmetry. apply firstn_all2. lia.
Qed.
Lemma gen_loop_spec hash ks root ntoys brk sort : (0 < ntoys)%nat -> forall l d dists, distinct_hypos ks (map fst l) -> on_params ks dists -> (forall hs, In hs l -> file_ok root ntoys brk d hs) ->
  exists d' dists', gen_loop hash root ntoys brk sort l (d, dists) = ((d', dists'), None) /\ on_params ks dists' /\
    (forall hs, In hs l -> produced hash root ntoys sort d d' dists' hs) /\
    (forall h, keys h = ks -> ~ In (map g6 (values h)) (map (fun hs => map g6 (values (fst hs))) l) -> hget hash h dists' = hget hash h dists) /\
    (forall q, ~ In q (map (fun hs => so_file root (fst hs) ".npy") l) -> dget q (dk_npy d') = dget q (dk_npy d)) /\
    (forall q, In q (dk_lock d') <-> In q (dk_lock d) /\ ~ exists hs, In hs l /\ q = so_file root (fst hs) ".lock" /\ dget (so_file root (fst hs) ".npy") (dk_npy d) = None) /\
    ((forall hs, In hs l -> dget (so_file root (fst hs) ".npy") (dk_npy d) <> None) -> d' = d).
Proof.
  intros Hn. induction l as [|[h s] l IH]; intros d dists DH HK HF.
  - exists d, dists. cbn [gen_loop]. split; [reflexivity|]. split; [exact HK|]. split; [intros ? []|]. split; [reflexivity|]. split; [reflexivity|]. split; [|reflexivity].
    intros q. split; [intros Hq; split; [exact Hq|intros (? & [] & _)]|tauto].
  - cbn [map fst] in DH. destruct (dh_ks _ _ DH) as (Nk & Ne). assert (Hh : keys h = ks) by (apply (dh_keys _ _ DH); now left).
    assert (HT : forall hs, In hs l -> keys (fst hs) = ks /\ map g6 (values h) <> map g6 (values (fst hs))).
    { intros hs Hin. split; [apply (dh_keys _ _ DH); right; now apply in_map|]. eapply head_differs; [exact DH|]. now apply in_map. }
    assert (HTf : forall suf hs, In hs l -> so_file root h suf <> so_file root (fst hs) suf).
    { intros suf hs Hin E. destruct (HT hs Hin) as (K & V). apply V. now apply (file_inj ks root suf). }
    pose proof (HF (h, s) (or_introl eq_refl)) as F0. unfold file_ok in F0. cbn [fst snd] in F0. cbn [gen_loop gen_one].
    destruct (dget (so_file root h ".npy") (dk_npy d)) as [a|] eqn:Ea.
    + assert (Dm : dmem (so_file root h ".npy") (dk_npy d) = true) by (unfold dmem; now rewrite Ea). rewrite Dm, (load_enough _ _ _ _ Ea Hn F0).
      set (ds := hset hash h (firstn ntoys a) (hset hash h (sd_zeros ntoys) dists)).
      assert (Kds : on_params ks ds) by (apply hset_keyed; [exact Hh|]; now apply hset_keyed).
      destruct (IH d ds (dh_tail _ _ _ DH) Kds (fun hs Hin => HF hs (or_intror Hin))) as (d' & dists' & R & K' & P & Q & Fi & Lk & Un).
      exists d', dists'. split; [exact R|]. split; [exact K'|].
      assert (Nh : ~ In (map g6 (values h)) (map (fun hs => map g6 (values (fst hs))) l)).
      { intros X. apply in_map_iff in X as (hs & E & Hin). destruct (HT hs Hin) as (_ & V). apply V. symmetry. exact E. }
      assert (Nf : ~ In (so_file root h ".npy") (map (fun hs => so_file root (fst hs) ".npy") l)).
      { intros X. apply in_map_iff in X as (hs & E & Hin). apply (HTf ".npy" hs Hin). symmetry. exact E. }
      split; [|split; [|split; [|split]]].
      * intros hs [<-|Hin]; [|now apply P]. unfold produced. cbn [fst]. rewrite Ea. split; [rewrite Q by assumption; unfold ds; apply (hget_own hash ks); auto; now apply hset_keyed|]. rewrite Fi by exact Nf. exact Ea.
      * intros x Kx Hx. cbn [map fst In] in Hx. rewrite Q by tauto. unfold ds. rewrite !(hget_different hash ks); auto. apply hset_keyed; auto.
      * intros q Hq. cbn [map fst In] in Hq. apply Fi. tauto.
      * intros q. rewrite Lk. split; intros (A & B); (split; [exact A|]); intros (hs & Hin & E1 & E2); apply B; [|exists hs; split; [now right|auto]].
        destruct Hin as [<-|Hin]; [cbn [fst] in E2; congruence|exists hs; auto].
      * intros All. apply Un. intros hs Hin. apply All. now right.
    + assert (Dm : dmem (so_file root h ".npy") (dk_npy d) = false) by (unfold dmem; now rewrite Ea). rewrite Dm. destruct F0 as (Lok & a & Ga).
      assert (Lf : (has_lock (so_file root h ".lock") d && negb brk)%bool = false) by (destruct Lok as [->|Nl]; [apply andb_false_r|now rewrite has_lock_false]). rewrite Lf, Ga.
      assert (SN : npy_name (so_file root h "") = so_file root h ".npy") by (apply saved_name; now apply (values_nonempty ks)).
      cbn [dk_npy add_lock sd_save]. unfold sd_save. rewrite SN. set (a' := if sort then sd_sort a else a). cbn [dk_lock].
      set (d1 := drop_lock (so_file root h ".lock") (mkDisk (dset (so_file root h ".npy") a' (dk_npy d)) (so_file root h ".lock" :: dk_lock d))).
      assert (L1 : forall q, In q (dk_lock d1) <-> In q (dk_lock d) /\ q <> so_file root h ".lock").
      { intros q. unfold d1, drop_lock. cbn [dk_lock]. rewrite filter_In. cbn [In]. rewrite Bool.negb_true_iff, String.eqb_neq. split; [intros ([<-|X] & Y); [contradiction|auto]|intros (X & Y); auto]. }
      assert (N1 : forall q, q <> so_file root h ".npy" -> dget q (dk_npy d1) = dget q (dk_npy d)) by (intros q Hq; unfold d1, drop_lock; cbn [dk_npy]; now rewrite dget_dset_neq).
      assert (O1 : dget (so_file root h ".npy") (dk_npy d1) = Some a') by (unfold d1, drop_lock; cbn [dk_npy]; apply dget_dset_eq).
      assert (Kds : on_params ks (hset hash h a' dists)) by now apply hset_keyed.
      destruct (IH d1 (hset hash h a' dists) (dh_tail _ _ _ DH) Kds) as (d' & dists' & R & K' & P & Q & Fi & Lk & Un).
      { intros hs Hin. pose proof (HF hs (or_intror Hin)) as F. unfold file_ok in *. rewrite N1 by (intros E; symmetry in E; now apply (HTf ".npy" hs Hin)).
        destruct (dget (so_file root (fst hs) ".npy") (dk_npy d)); [exact F|]. destruct F as (F1 & F2). split; [|exact F2]. destruct F1 as [F1|F1]; [now left|right]. rewrite L1. tauto. }
      exists d', dists'. split; [exact R|]. split; [exact K'|].
      assert (Nh : ~ In (map g6 (values h)) (map (fun hs => map g6 (values (fst hs))) l)).
      { intros X. apply in_map_iff in X as (hs & E & Hin). destruct (HT hs Hin) as (_ & V). apply V. symmetry. exact E. }
      assert (Nf : ~ In (so_file root h ".npy") (map (fun hs => so_file root (fst hs) ".npy") l)).
      { intros X. apply in_map_iff in X as (hs & E & Hin). apply (HTf ".npy" hs Hin). symmetry. exact E. }
      split; [|split; [|split; [|split]]].
      * intros hs [<-|Hin].
        -- unfold produced. cbn [fst snd]. rewrite Ea. exists a. split; [exact Ga|]. cbn zeta. split; [rewrite Q by assumption; now apply (hget_own hash ks)|]. rewrite Fi by exact Nf. exact O1.
        -- specialize (P hs Hin). unfold produced in *. rewrite N1 in P by (intros E; symmetry in E; now apply (HTf ".npy" hs Hin)). exact P.
      * intros x Kx Hx. cbn [map fst In] in Hx. rewrite Q by tauto. apply (hget_different hash ks); auto.
      * intros q Hq. cbn [map fst In] in Hq. rewrite Fi by tauto. apply N1. intros ->. tauto.
      * intros q. rewrite Lk, L1. split.
        -- intros ((A & A') & B). split; [exact A|]. intros (hs & [<-|Hin] & E1 & E2); [contradiction|]. apply B. exists hs. split; [exact Hin|]. split; [exact E1|]. rewrite N1; [exact E2|]. intros E. symmetry in E. now apply (HTf ".npy" hs Hin).
        -- intros (A & B). split; [split; [exact A|]|].
           ++ intros ->. apply B. exists (h, s). split; [now left|]. split; [reflexivity|exact Ea].
           ++ intros (hs & Hin & E1 & E2). apply B. exists hs. split; [now right|]. split; [exact E1|]. rewrite N1 in E2; [exact E2|]. intros E. symmetry in E. now apply (HTf ".npy" hs Hin).
      * intros All. exfalso. apply (All (h, s)); [now left|exact Ea].
Qed.

(** ** C108 *)
Lemma init_samplers samplers root o : so_init samplers root [] = Ok o -> samplers <> [] /\ o = mkSO (map sp_hypo samplers) samplers root [].
Proof. destruct samplers; cbn; [discriminate|]. intros [= <-]. split; [discriminate|reflexivity]. Qed.
Lemma combine_hypos samplers : combine (map sp_hypo samplers) samplers = map (fun s => (sp_hypo s, s)) samplers.
Proof. induction samplers as [|s l IH]; [reflexivity|]. cbn. now rewrite IH. Qed.
Lemma generate_spec hash ks samplers root o ntoys brk sort d dists : samplers <> [] -> o = mkSO (map sp_hypo samplers) samplers root dists -> (0 < ntoys)%nat -> distinct_hypos ks (map sp_hypo samplers) -> on_params ks dists ->
  (forall s, In s samplers -> file_ok root ntoys brk d (sp_hypo s, s)) ->
  exists d' o', so_generate_and_save hash o ntoys brk sort d = ((d', o'), None) /\ so_hypos o' = so_hypos o /\ so_samplers o' = so_samplers o /\ so_root o' = root /\ on_params ks (so_dists o') /\
    (forall s, In s samplers -> produced hash root ntoys sort d d' (so_dists o') (sp_hypo s, s)) /\
    (forall q, ~ In q (map (fun s => so_file root (sp_hypo s) ".npy") samplers) -> dget q (dk_npy d') = dget q (dk_npy d)) /\
    (forall q, In q (dk_lock d') <-> In q (dk_lock d) /\ ~ exists s, In s samplers /\ q = so_file root (sp_hypo s) ".lock" /\ dget (so_file root (sp_hypo s) ".npy") (dk_npy d) = None) /\
    ((forall s, In s samplers -> dget (so_file root (sp_hypo s) ".npy") (dk_npy d) <> None) -> d' = d).
Proof.
  intros Hs -> Hn DH Kd HF. unfold so_generate_and_save. cbn [so_samplers so_hypos so_root so_dists]. destruct samplers as [|s0 sl]; [congruence|]. set (samplers := s0 :: sl) in *. rewrite combine_hypos.
  destruct (gen_loop_spec hash ks root ntoys brk sort Hn (map (fun s => (sp_hypo s, s)) samplers) d dists) as (d' & dists' & R & K' & P & Q & Fi & Lk & Un).
  - rewrite map_map. exact DH.
  - exact Kd.
  - intros hs Hin. apply in_map_iff in Hin as (s & <- & Hin). now apply HF.
  - rewrite R. exists d', (with_dists (mkSO (map sp_hypo samplers) samplers root dists) dists'). split; [reflexivity|]. split; [reflexivity|]. split; [reflexivity|]. split; [reflexivity|]. split; [exact K'|].
    split; [intros s Hin; apply P; apply in_map_iff; eauto|]. split; [intros q Hq; apply Fi; rewrite map_map; exact Hq|]. split.
    + intros q. rewrite Lk. split; intros (A & B); (split; [exact A|]); intros (x & Hin & E1 & E2); apply B.
      * exists (sp_hypo x, x). split; [apply in_map_iff; eauto|auto].
      * apply in_map_iff in Hin as (s & <- & Hin). exists s. auto.
    + intros All. apply Un. intros hs Hin. apply in_map_iff in Hin as (s & <- & Hin). now apply All.
Qed.

(** An object is made either from samplers or from hypotheses. *)
Theorem C108_init : forall samplers root hypos o, so_init samplers root hypos = Ok o <->
  (samplers <> [] /\ hypos = [] /\ o = mkSO (map sp_hypo samplers) samplers root []) \/ (samplers = [] /\ hypos <> [] /\ o = mkSO hypos [] root []).
Proof. intros [|s sl] root [|h hl] o; cbn; intuition (try discriminate; try congruence). Qed.
Print Assumptions C108_init.

(** A first run, in a directory with neither samples nor locks for these hypotheses: every hypothesis gets the values its sampler generates, sorted, in memory and in its own file;
    the p-values are their mid p-values; no lock remains, and no other file is touched. *)
Theorem C108_first_run : forall hash ks samplers root o ntoys brk d, so_init samplers root [] = Ok o -> (0 < ntoys)%nat -> distinct_hypos ks (map sp_hypo samplers) ->
  (forall s, In s samplers -> dget (so_file root (sp_hypo s) ".npy") (dk_npy d) = None /\ ~ In (so_file root (sp_hypo s) ".lock") (dk_lock d) /\ exists a, sp_generate s ntoys = Ok a /\ length a = ntoys) ->
  exists d' o', so_generate_and_save hash o ntoys brk true d = ((d', o'), None) /\
    (forall s a, In s samplers -> sp_generate s ntoys = Ok a ->
       (exists t, dget (so_file root (sp_hypo s) ".npy") (dk_npy d') = Some t /\ Permutation a t /\ StronglySorted Rle t) /\
       forall apv, exists p, so_pv hash o' (sp_hypo s) apv = Ok p /\ mid_p a apv p) /\
    (forall q, ~ In q (map (fun s => so_file root (sp_hypo s) ".npy") samplers) -> dget q (dk_npy d') = dget q (dk_npy d)) /\
    (forall q, In q (dk_lock d') <-> In q (dk_lock d)).
Proof.
  intros hash ks samplers root o ntoys brk d Hi Hn DH HF. destruct (init_samplers _ _ _ Hi) as (Hs & Eo).
  destruct (generate_spec hash ks samplers root o ntoys brk true d [] Hs Eo Hn DH) as (d' & o' & R & _ & _ & _ & _ & P & Fi & Lk & _).
  - intros ? ? [].
  - intros s Hin. destruct (HF s Hin) as (A & B & a & Ga & _). unfold file_ok. cbn [fst snd]. rewrite A. eauto.
  - exists d', o'. split; [exact R|]. split; [|split; [exact Fi|]].
    + intros s a Hin Ga. destruct (HF s Hin) as (A & _ & a2 & Ga2 & La). assert (a2 = a) by congruence. subst a2. specialize (P s Hin). unfold produced in P. cbn [fst snd] in P. rewrite A in P. destruct P as (a2 & Ga3 & P1 & P2). assert (a2 = a) by congruence. subst a2.
      split; [exists (rsort a); split; [exact P2|split; [apply Permutation_sym, rsort_perm|apply rsort_sorted]]|]. intros apv. unfold so_pv. rewrite P1.
      assert (Na : a <> []) by (intros ->; cbn in La; lia). destruct (C40_mid_p a apv Na) as (p & Hp & M & _). exists p. split; assumption.
    + intros q. rewrite Lk. split; [tauto|]. intros Hq. split; [exact Hq|]. intros (s & Hin & -> & _). destruct (HF s Hin) as (_ & B & _). contradiction.
Qed.
Print Assumptions C108_first_run.

(** Running again, or resuming after an interruption with --break-locks: the values in the existing files are used, whatever the samplers would generate now; the missing ones are
    generated.  When no file is missing nothing is written at all, locks or not. *)
Theorem C108_resumed_run : forall hash ks samplers root o ntoys brk d, so_init samplers root [] = Ok o -> (0 < ntoys)%nat -> distinct_hypos ks (map sp_hypo samplers) ->
  (forall s a, In s samplers -> dget (so_file root (sp_hypo s) ".npy") (dk_npy d) = Some a -> length a = ntoys) ->
  (forall s, In s samplers -> dget (so_file root (sp_hypo s) ".npy") (dk_npy d) = None ->
     (brk = true \/ ~ In (so_file root (sp_hypo s) ".lock") (dk_lock d)) /\ exists a, sp_generate s ntoys = Ok a /\ length a = ntoys) ->
  exists d' o', so_generate_and_save hash o ntoys brk true d = ((d', o'), None) /\
    (forall s a, In s samplers -> dget (so_file root (sp_hypo s) ".npy") (dk_npy d) = Some a ->
       dget (so_file root (sp_hypo s) ".npy") (dk_npy d') = Some a /\ forall apv, so_pv hash o' (sp_hypo s) apv = sd_pv a apv) /\
    (forall s a, In s samplers -> dget (so_file root (sp_hypo s) ".npy") (dk_npy d) = None -> sp_generate s ntoys = Ok a ->
       forall apv, exists p, so_pv hash o' (sp_hypo s) apv = Ok p /\ mid_p a apv p) /\
    ((forall s, In s samplers -> dget (so_file root (sp_hypo s) ".npy") (dk_npy d) <> None) -> d' = d).
Proof.
  intros hash ks samplers root o ntoys brk d Hi Hn DH HE HM. destruct (init_samplers _ _ _ Hi) as (Hs & Eo).
  destruct (generate_spec hash ks samplers root o ntoys brk true d [] Hs Eo Hn DH) as (d' & o' & R & _ & _ & _ & _ & P & Fi & Lk & Un).
  - intros ? ? [].
  - intros s Hin. unfold file_ok. cbn [fst snd]. destruct (dget (so_file root (sp_hypo s) ".npy") (dk_npy d)) as [a|] eqn:Ea; [rewrite (HE s a Hin Ea); lia|]. destruct (HM s Hin Ea) as (B & a & Ga & _). eauto.
  - exists d', o'. split; [exact R|]. split; [|split; [|exact Un]].
    + intros s a Hin Ea. specialize (P s Hin). unfold produced in P. cbn [fst snd] in P. rewrite Ea in P. destruct P as (P1 & P2). split; [exact P2|]. intros apv. unfold so_pv. rewrite P1. now rewrite firstn_all2 by (rewrite (HE s a Hin Ea); lia).
    + intros s a Hin Ea Ga apv. destruct (HM s Hin Ea) as (_ & a2 & Ga2 & La). assert (a2 = a) by congruence. subst a2. specialize (P s Hin). unfold produced in P. cbn [fst snd] in P. rewrite Ea in P. destruct P as (a2 & Ga3 & P1 & P2). assert (a2 = a) by congruence. subst a2.
      unfold so_pv. rewrite P1. assert (Na : a <> []) by (intros ->; cbn in La; lia). destruct (C40_mid_p a apv Na) as (p & Hp & M & _). exists p. split; assumption.
Qed.
Print Assumptions C108_resumed_run.

(** A later session that loads the files finds in each what was stored there: the same p-values. *)
Lemma load_loop hash ks root d : forall hypos dists, distinct_hypos ks hypos -> on_params ks dists -> (forall h, In h hypos -> exists a, dget (so_file root h ".npy") (dk_npy d) = Some a) ->
  exists dists', foldM (fun dists h => match sd_load (dk_npy d) [] (so_file root h ".npy") with Ok a => Ok (hset hash h a (hset hash h [] dists)) | Err _ => Err NameError end) hypos dists = Ok dists' /\
    (forall h a, In h hypos -> dget (so_file root h ".npy") (dk_npy d) = Some a -> hget hash h dists' = Some a) /\
    (forall h, keys h = ks -> ~ In (map g6 (values h)) (map (fun h => map g6 (values h)) hypos) -> hget hash h dists' = hget hash h dists).
Proof.
  induction hypos as [|h l IH]; intros dists DH HK HF; cbn [foldM]; [exists dists; split; [reflexivity|split; [intros ? ? []|reflexivity]]|].
  destruct (HF h (or_introl eq_refl)) as (a & Ha). destruct (dh_ks _ _ DH) as (Nk & Ne). assert (Hh : keys h = ks) by (apply (dh_keys _ _ DH); now left).
  unfold sd_load at 1. rewrite Ha. cbn [length Nat.ltb Nat.leb andb bind].
  set (ds := hset hash h a (hset hash h [] dists)). assert (Kds : on_params ks ds) by (apply hset_keyed; [exact Hh|now apply hset_keyed]).
  destruct (IH ds (dh_tail _ _ _ DH) Kds (fun x Hx => HF x (or_intror Hx))) as (dists' & R & P & Q). exists dists'. split; [exact R|].
  assert (Nh : ~ In (map g6 (values h)) (map (fun h => map g6 (values h)) l)) by (intros X; apply in_map_iff in X as (x & E & Hx); apply (head_differs _ _ _ _ DH Hx); symmetry; exact E).
  split.
  - intros x b [<-|Hin] Hb; [|now apply P]. rewrite Q by assumption. unfold ds. rewrite (hget_own hash ks); auto; [congruence|]. now apply hset_keyed.
  - intros x Kx Hx. cbn [map In] in Hx. rewrite Q by tauto. unfold ds. rewrite !(hget_different hash ks); auto. now apply hset_keyed.
Qed.
Theorem C108_later_session : forall hash ks hypos root o d, so_init [] root hypos = Ok o -> distinct_hypos ks hypos ->
  (forall h, In h hypos -> exists a, dget (so_file root h ".npy") (dk_npy d) = Some a) ->
  exists o', so_load hash o d = Ok o' /\ forall h a apv, In h hypos -> dget (so_file root h ".npy") (dk_npy d) = Some a -> so_pv hash o' h apv = sd_pv a apv.
Proof.
  intros hash ks hypos root o d Hi DH HF. destruct hypos as [|h0 hl]; [discriminate|]. cbn in Hi. injection Hi as <-. unfold so_load. cbn [so_hypos so_root so_dists].
  destruct (load_loop hash ks root d (h0 :: hl) [] DH ltac:(intros ? ? []) HF) as (dists' & R & P & _). rewrite R. cbn [bind]. eexists. split; [reflexivity|]. intros h a apv Hin Ha. unfold so_pv, with_dists. cbn [so_dists]. now rewrite (P h a Hin Ha).
Qed.
Print Assumptions C108_later_session.

(** *** CLs *)
(** the files of the two sets of samples are never the same *)
Theorem C108_clb_files_distinct : forall root suffix suffix' vals vals', vals <> [] -> vals' <> [] -> file_name root vals suffix <> file_name (root ++ "_clb") vals' suffix'.
Proof.
  intros root suf suf' vs ws N N' H. unfold file_name in H. apply (f_equal list_ascii_of_string) in H. rewrite !list_ascii_of_string_of_list_ascii in H. rewrite las_app in H.
  assert (M : forall us : list R, us <> [] -> map fmt_g us <> []) by (intros [|u us] X; [congruence|discriminate]). rewrite !join_cons in H by auto. rewrite <- !app_assoc in H. apply app_inv_head in H. cbn [list_ascii_of_string app] in H. injection H as H.
  destruct vs as [|v vs]; [congruence|]. assert (X : exists r, join (map fmt_g (v :: vs)) = fmt_g v ++ r).
  { cbn [map]. destruct vs as [|v2 vs]; [exists []; cbn; now rewrite app_nil_r|]. rewrite join_cons by discriminate. eauto. }
  destruct X as (r & X). rewrite X in H. pose proof (fmt_g_nonempty v) as Nv. destruct (fmt_g v) as [|c q] eqn:Ev; [congruence|]. cbn [app] in H. injection H as -> _.
  assert (Y : In "c"%char (fmt_g v)) by (rewrite Ev; now left). apply fmt_g_chars in Y. unfold isdig in Y. destruct Y as [Y|[Y|[Y|[Y|Y]]]]; [cbn in Y; lia|discriminate..].
Qed.
Print Assumptions C108_clb_files_distinct.

(** A limit computation in a directory without samples and locks: the CLs value at every hypothesis is the mid p-value of the values generated there, over the mid p-value of the values generated
    without signal (1 if the latter vanishes). *)
Theorem C108_cls : forall hash ks clsb cl_b root c ntoys brk d, limit_samples clsb cl_b root = Ok c -> (0 < ntoys)%nat -> distinct_hypos ks (map sp_hypo clsb) -> map sp_hypo cl_b = map sp_hypo clsb ->
  dk_npy d = [] -> dk_lock d = [] -> (forall s, In s clsb \/ In s cl_b -> exists a, sp_generate s ntoys = Ok a /\ length a = ntoys) ->
  exists d' c', co_generate_and_save hash c ntoys brk true d = ((d', c'), None) /\ dk_lock d' = [] /\
    forall s s0 a b apv, In s clsb -> In s0 cl_b -> sp_hypo s0 = sp_hypo s -> sp_generate s ntoys = Ok a -> sp_generate s0 ntoys = Ok b ->
      exists pa pb, mid_p a apv pa /\ mid_p b apv pb /\ so_pv hash (co_clsb c') (sp_hypo s) apv = Ok pa /\ so_pv hash (co_cl_b c') (sp_hypo s) apv = Ok pb /\
        co_pv hash c' (sp_hypo s) apv = Ok (if Rltb 0 pb then pa / pb else 1).
Proof.
  intros hash ks clsb cl_b root c ntoys brk d Hi Hn DH EH D1 D2 HG. unfold limit_samples in Hi. apply bind_Ok in Hi as (o1 & H1 & Hi). apply bind_Ok in Hi as (o2 & H2 & Hi). injection Hi as <-.
  destruct (C108_first_run hash ks clsb root o1 ntoys brk d H1 Hn DH) as (d1 & o1' & R1 & P1 & F1 & L1).
  { intros s Hin. rewrite D1, D2. split; [reflexivity|]. split; [intros []|]. apply HG. now left. }
  assert (DH2 : distinct_hypos ks (map sp_hypo cl_b)) by now rewrite EH.
  assert (V : forall s, In s clsb \/ In s cl_b -> values (sp_hypo s) <> []).
  { intros s Hin. apply (values_nonempty ks); [apply (dh_ks _ _ DH)|]. apply (dh_keys _ _ DH). destruct Hin as [Hin|Hin]; [now apply in_map|rewrite <- EH; now apply in_map]. }
  destruct (C108_first_run hash ks cl_b (root ++ "_clb") o2 ntoys brk d1 H2 Hn DH2) as (d2 & o2' & R2 & P2 & F2 & L2).
  { intros s Hin. split; [|split; [|apply HG; now right]].
    - rewrite F1; [now rewrite D1|]. intros X. apply in_map_iff in X as (s1 & E & Hs1). revert E. apply C108_clb_files_distinct; apply V; tauto.
    - rewrite L1, D2. intros []. }
  exists d2, (mkCO o1' o2'). unfold co_generate_and_save. cbn [co_clsb co_cl_b]. rewrite R1, R2. split; [reflexivity|]. split.
  - assert (X : forall q, ~ In q (dk_lock d2)) by (intros q X; apply L2, L1 in X; now rewrite D2 in X). destruct (dk_lock d2) as [|q lk]; [reflexivity|]. exfalso. apply (X q). now left.
  - intros s s0 a b apv Hs Hs0 Eh Ga Gb. destruct (proj2 (P1 s a Hs Ga) apv) as (pa & Pa & Ma). destruct (proj2 (P2 s0 b Hs0 Gb) apv) as (pb & Pb & Mb). rewrite Eh in Pb. exists pa, pb.
    split; [exact Ma|]. split; [exact Mb|]. cbn [co_clsb co_cl_b]. split; [exact Pa|]. split; [exact Pb|]. unfold co_pv. cbn [co_clsb co_cl_b]. rewrite Pa. cbn [bind]. rewrite Pb. reflexivity.
Qed.
Print Assumptions C108_cls.

(** *** parts that are false in the code *)
(** intended: generate() gives the sampling distributions without files.  It always fails. *)
Theorem C108_generate_refuted : forall samplers root hypos o ntoys, so_init samplers root hypos = Ok o ->
  so_generate o ntoys = Err (match samplers with [] => ValueError | _ => AttributeError end).
Proof. intros [|s sl] root [|h hl] o ntoys H; cbn in H; try discriminate; injection H as <-; reflexivity. Qed.
Print Assumptions C108_generate_refuted.
(** intended: a missing file is reported as such.  In fact load() raises a NameError. *)
Theorem C108_load_missing_refuted : forall hash root hypos o d h, so_init [] root hypos = Ok o -> In h hypos -> dget (so_file root h ".npy") (dk_npy d) = None -> so_load hash o d = Err NameError.
Proof.
  intros hash root hypos o d h Hi Hin Hd. destruct hypos as [|h0 hl]; [discriminate|]. cbn in Hi. injection Hi as <-. unfold so_load. cbn [so_hypos so_root so_dists].
  assert (G : forall l dists, In h l -> foldM (fun dists h => match sd_load (dk_npy d) [] (so_file root h ".npy") with Ok a => Ok (hset hash h a (hset hash h [] dists)) | Err _ => Err NameError end) l dists = Err NameError).
  { induction l as [|x l IH]; intros dists Hx; [destruct Hx|]. destruct Hx as [->|Hx]; cbn [foldM]; [unfold sd_load at 1; now rewrite Hd|]. destruct (sd_load (dk_npy d) [] (so_file root x ".npy")); cbn [bind]; [now apply IH|reflexivity]. }
  now rewrite (G (h0 :: hl) [] Hin).
Qed.
Print Assumptions C108_load_missing_refuted.
(** intended: after generate_and_save every hypothesis has its distribution.  A hypothesis with a lock (of another job, or left by an interrupted one) is skipped without error, and its p-value is then a KeyError;
    the same for cut, for all hypotheses. *)
Theorem C108_locked_refuted : forall hash ks s root o ntoys sort d, so_init [s] root [] = Ok o -> distinct_hypos ks [sp_hypo s] ->
  dget (so_file root (sp_hypo s) ".npy") (dk_npy d) = None -> In (so_file root (sp_hypo s) ".lock") (dk_lock d) ->
  so_generate_and_save hash o ntoys false sort d = ((d, o), None) /\ (forall apv, so_pv hash o (sp_hypo s) apv = Err KeyError) /\ forall lo hi, so_cut hash o lo hi = Err KeyError.
Proof.
  intros hash ks s root o ntoys sort d Hi DH Hd Hl. cbn in Hi. injection Hi as <-. unfold so_generate_and_save. cbn [so_samplers so_hypos so_root so_dists map combine gen_loop gen_one]. unfold dmem. rewrite Hd.
  assert (L : has_lock (so_file root (sp_hypo s) ".lock") d = true) by (unfold has_lock; apply existsb_exists; exists (so_file root (sp_hypo s) ".lock"); split; [exact Hl|apply String.eqb_refl]). rewrite L. cbn. repeat split; reflexivity.
Qed.
Print Assumptions C108_locked_refuted.
(** a failure during the generation leaves the lock, so that the next run, without --break-locks, skips the hypothesis although nothing is running *)
Theorem C108_failure_leaves_lock_refuted : forall hash ks s s' root o o2 ntoys sort d e, so_init [s] root [] = Ok o -> so_init [s'] root [] = Ok o2 -> sp_hypo s' = sp_hypo s -> distinct_hypos ks [sp_hypo s] ->
  dget (so_file root (sp_hypo s) ".npy") (dk_npy d) = None -> dk_lock d = [] -> sp_generate s ntoys = Err e ->
  exists d1 o1, so_generate_and_save hash o ntoys false sort d = ((d1, o1), Some e) /\ dk_lock d1 = [so_file root (sp_hypo s) ".lock"] /\
    so_generate_and_save hash o2 ntoys false sort d1 = ((d1, o2), None) /\ forall apv, so_pv hash o2 (sp_hypo s) apv = Err KeyError.
Proof.
  intros hash ks s s' root o o2 ntoys sort d e Hi Hi2 Es DH Hd Hl Hg. assert (Ho := Hi). cbn in Hi. injection Hi as <-. unfold so_generate_and_save at 1. cbn [so_samplers so_hypos so_root so_dists map combine gen_loop gen_one].
  unfold dmem. rewrite Hd. assert (L : has_lock (so_file root (sp_hypo s) ".lock") d = false) by (apply has_lock_false; rewrite Hl; intros []). rewrite L, Hg. cbn [andb]. do 2 eexists. split; [reflexivity|]. split; [cbn; now rewrite Hl|].
  rewrite <- Es. rewrite <- Es in DH. destruct (C108_locked_refuted hash ks s' root o2 ntoys sort (add_lock (so_file root (sp_hypo s') ".lock") d) Hi2 DH) as (A & B & _).
  - rewrite Es. exact Hd.
  - now left.
  - split; assumption.
Qed.
Print Assumptions C108_failure_leaves_lock_refuted.
(** intended: each hypothesis has its own samples.  Two hypotheses that agree to six significant digits share them: the second gets the values generated for the first. *)
Theorem C108_shared_file_refuted : forall hash ks s1 s2 root o ntoys sort brk a, so_init [s1; s2] root [] = Ok o -> (0 < ntoys)%nat -> NoDup ks -> ks <> [] -> keys (sp_hypo s1) = ks -> keys (sp_hypo s2) = ks ->
  map g6 (values (sp_hypo s1)) = map g6 (values (sp_hypo s2)) -> sp_generate s1 ntoys = Ok a -> length a = ntoys ->
  exists d' o', so_generate_and_save hash o ntoys brk sort (mkDisk [] []) = ((d', o'), None) /\ forall apv, so_pv hash o' (sp_hypo s2) apv = sd_pv (if sort then rsort a else a) apv.
Proof.
  intros hash ks s1 s2 root o ntoys sort brk a Hi Hn Nk Ne K1 K2 EV Ga La. cbn in Hi. injection Hi as <-. unfold so_generate_and_save. cbn [so_samplers so_hypos so_root so_dists map combine gen_loop gen_one dk_npy dk_lock].
  assert (SN : npy_name (so_file root (sp_hypo s1) "") = so_file root (sp_hypo s1) ".npy") by (apply saved_name; now apply (values_nonempty ks)).
  change (dmem (so_file root (sp_hypo s1) ".npy") []) with false. cbn [has_lock existsb dk_lock andb]. rewrite Ga. unfold sd_save. cbn [add_lock dk_npy dk_lock]. rewrite SN. cbn [drop_lock dk_npy].
  assert (EF : so_file root (sp_hypo s2) ".npy" = so_file root (sp_hypo s1) ".npy").
  { symmetry. apply C45_same_file_iff; [now apply (values_nonempty ks)|now apply (values_nonempty ks)|exact EV]. }
  rewrite EF. unfold dmem. cbn [dset]. set (a' := if sort then sd_sort a else a).
  assert (Ld : dget (so_file root (sp_hypo s1) ".npy") [(so_file root (sp_hypo s1) ".npy", a')] = Some a') by (cbn; now rewrite String.eqb_refl). rewrite Ld.
  assert (La' : length a' = ntoys) by (unfold a'; destruct sort; [unfold sd_sort; rewrite <- La; apply Permutation_length, rsort_perm|exact La]).
  rewrite (load_enough ntoys _ _ a' Ld Hn) by lia. do 2 eexists. split; [reflexivity|]. intros apv. unfold so_pv, with_dists. cbn [so_dists].
  rewrite (hget_own hash ks); auto; [rewrite firstn_all2 by lia; reflexivity|]. apply hset_keyed; [exact K2|]. apply (hset_keyed hash ks); [exact K1|]. intros ? ? [].
Qed.
Print Assumptions C108_shared_file_refuted.

(** An object made from hypotheses cannot generate: ValueError, and nothing is changed. *)
Theorem C108_no_samplers : forall hash root hypos o ntoys brk sort d, so_init [] root hypos = Ok o -> so_generate_and_save hash o ntoys brk sort d = ((d, o), Some ValueError).
Proof. intros hash root hypos o ntoys brk sort d H. destruct hypos; [discriminate|]. injection H as <-. reflexivity. Qed.
Print Assumptions C108_no_samplers.
Example C108_no_samplers_nonvacuous : exists o, so_init [] "out" [[("mu", 1)]; [("mu", 2)]] = Ok o.
Proof. eexists. reflexivity. Qed.

(** cut: the samples of every hypothesis, with signal and without, keep the values within the limits and only these (a limit of 0 is none: C42). *)
Lemma cut_loop hash ks lo hi : forall hs dists, distinct_hypos ks hs -> on_params ks dists -> (forall h, In h hs -> hget hash h dists <> None) ->
  exists dists', foldM (fun dists h => match hget hash h dists with Some s => Ok (hset hash h (sd_cut s lo hi) dists) | None => Err KeyError end) hs dists = Ok dists' /\
    (forall h s, In h hs -> hget hash h dists = Some s -> hget hash h dists' = Some (sd_cut s lo hi)) /\ forall x, keys x = ks -> (forall h, In h hs -> map g6 (values h) <> map g6 (values x)) -> hget hash x dists' = hget hash x dists.
Proof.
  induction hs as [|h hs IH]; intros dists DH K H; [exists dists; split; [reflexivity|]; split; [intros ? ? []|reflexivity]|]. cbn [foldM].
  destruct (hget hash h dists) as [s|] eqn:Eh; [|exfalso; apply (H h); [now left|exact Eh]]. pose proof (dh_ks _ _ DH) as [Nk Ne]. assert (Kh : keys h = ks) by (apply (dh_keys _ _ DH); now left).
  assert (D : forall x, In x hs -> hget hash x (hset hash h (sd_cut s lo hi) dists) = hget hash x dists).
  { intros x Hx. apply (hget_different hash ks); auto; [apply (dh_keys _ _ DH); now right|]. exact (head_differs _ _ _ _ DH Hx). }
  destruct (IH (hset hash h (sd_cut s lo hi) dists) (dh_tail _ _ _ DH) (hset_keyed hash ks h _ dists Kh K)) as (d' & E & A & B); [intros x Hx; rewrite D by exact Hx; apply H; now right|].
  exists d'. split; [exact E|]. split.
  - intros x sx [<-|Hx] Hs; [|apply A; [exact Hx|now rewrite D]]. assert (sx = s) by congruence. subst sx. rewrite B; [now apply (hget_own hash ks)|exact Kh|]. intros y Hy E'. exact (head_differs _ _ _ _ DH Hy (eq_sym E')).
  - intros x Kx Hx. rewrite B; [|exact Kx|intros y Hy; apply Hx; now right]. apply (hget_different hash ks); auto. apply Hx. now left.
Qed.
Theorem C108_cut : forall hash ks c lo hi, lo <> Some 0 -> hi <> Some 0 -> distinct_hypos ks (so_hypos (co_clsb c)) -> so_hypos (co_cl_b c) = so_hypos (co_clsb c) -> on_params ks (so_dists (co_clsb c)) -> on_params ks (so_dists (co_cl_b c)) ->
  (forall h, In h (so_hypos (co_clsb c)) -> hget hash h (so_dists (co_clsb c)) <> None /\ hget hash h (so_dists (co_cl_b c)) <> None) ->
  exists c', co_cut hash c lo hi = Ok c' /\ so_hypos (co_clsb c') = so_hypos (co_clsb c) /\ so_hypos (co_cl_b c') = so_hypos (co_cl_b c) /\
    forall h a b, In h (so_hypos (co_clsb c)) -> hget hash h (so_dists (co_clsb c)) = Some a -> hget hash h (so_dists (co_cl_b c)) = Some b ->
      forall apv, so_pv hash (co_clsb c') h apv = sd_pv (filter (within lo hi) a) apv /\ so_pv hash (co_cl_b c') h apv = sd_pv (filter (within lo hi) b) apv.
Proof.
  intros hash ks c lo hi Hlo Hhi DH Hb K1 K2 H. destruct (cut_loop hash ks lo hi _ _ DH K1) as (d1 & E1 & A1 & _); [intros h Hh; apply (H h Hh)|].
  destruct (cut_loop hash ks lo hi _ (so_dists (co_cl_b c)) DH K2) as (d2 & E2 & A2 & _); [intros h Hh; apply (H h Hh)|].
  unfold co_cut, so_cut. rewrite E1. cbn [bind]. rewrite Hb, E2. cbn [bind]. eexists. split; [reflexivity|]. split; [reflexivity|]. split; [exact Hb|].
  intros h a b Hh Ha Hbb apv. unfold so_pv. cbn [co_clsb co_cl_b so_dists with_dists]. rewrite (A1 h a Hh Ha), (A2 h b Hh Hbb). now rewrite !C42_cut.
Qed.
Print Assumptions C108_cut.

(** *** examples *)
Definition toy (mu : R) (l : list R) : Sampler := mkSampler [("mu", mu)] (fun n => Ok (repeat (1/4) (n - length l) ++ l)).
Lemma toy_hypos : distinct_hypos ["mu"] (map sp_hypo [toy 1 [1/2]; toy (1 + / 1000) [1/3]]).
Proof.
  constructor; [split; [repeat constructor; intros []|discriminate]|intros h [<-|[<-|[]]]; reflexivity|]. cbn. constructor; [|repeat constructor; intros []]. intros [H|[]]. injection H as H.
  pose proof (g6_err (1 + / 1000)) as A. rewrite H in A. pose proof (g6_near_one 1 ltac:(lra)) as B. rewrite B in A. rewrite (Rabs_pos_eq (1 + / 1000)) in A by lra. rewrite Rabs_pos_eq in A by lra. lra.
Qed.
Example C108_nonvacuous : exists c, limit_samples [toy 1 [1/2]; toy (1 + / 1000) [1/3]] [toy 1 [1]; toy (1 + / 1000) [1]] "out" = Ok c /\ distinct_hypos ["mu"] (map sp_hypo [toy 1 [1/2]; toy (1 + / 1000) [1/3]]) /\
  map sp_hypo [toy 1 [1]; toy (1 + / 1000) [1]] = map sp_hypo [toy 1 [1/2]; toy (1 + / 1000) [1/3]] /\ sp_generate (toy 1 [1/2]) 2 = Ok [1/4; 1/2] /\
  (forall s, In s [toy 1 [1/2]; toy (1 + / 1000) [1/3]] \/ In s [toy 1 [1]; toy (1 + / 1000) [1]] -> exists a, sp_generate s 2 = Ok a /\ length a = 2%nat).
Proof.
  eexists. split; [reflexivity|]. split; [exact toy_hypos|]. split; [reflexivity|]. split; [reflexivity|]. intros s [[<-|[<-|[]]]|[<-|[<-|[]]]]; eexists; split; reflexivity.
Qed.
(** resumed after an interruption: the first hypothesis has its file, the second one only a lock *)
Example C108_resumed_run_nonvacuous : exists o d, so_init [toy 1 [1/2]; toy (1 + / 1000) [1/3]] "out" [] = Ok o /\
  dget (so_file "out" [("mu", 1)] ".npy") (dk_npy d) = Some [0; 1] /\ dget (so_file "out" [("mu", 1 + / 1000)] ".npy") (dk_npy d) = None /\ In (so_file "out" [("mu", 1 + / 1000)] ".lock") (dk_lock d).
Proof.
  exists (mkSO [[("mu", 1)]; [("mu", 1 + / 1000)]] [toy 1 [1/2]; toy (1 + / 1000) [1/3]] "out" []), (mkDisk [(so_file "out" [("mu", 1)] ".npy", [0; 1])] [so_file "out" [("mu", 1 + / 1000)] ".lock"]).
  split; [reflexivity|]. cbn [dk_npy dk_lock dget]. rewrite String.eqb_refl. split; [reflexivity|]. split; [|now left].
  destruct (String.eqb_spec (so_file "out" [("mu", 1 + / 1000)] ".npy") (so_file "out" [("mu", 1)] ".npy")) as [E|]; [|reflexivity]. exfalso.
  pose proof toy_hypos as T. assert (X : map g6 (values [("mu", 1)]) = map g6 (values [("mu", 1 + / 1000)])) by (symmetry; apply (file_inj ["mu"] "out" ".npy"); auto; discriminate).
  exact (head_differs _ _ _ _ T (or_introl eq_refl) X).
Qed.
Example C108_refuted_nonvacuous : exists o s e, so_init [s] "out" [] = Ok o /\ distinct_hypos ["mu"] [sp_hypo s] /\ sp_generate s 10%nat = Err e /\
  map g6 [1] = map g6 [1 + / 2000000] /\ so_init [toy 1 []; toy (1 + / 2000000) [0]] "out" [] <> Err ValueError.
Proof.
  exists (mkSO [[("mu", 1)]] [mkSampler [("mu", 1)] (fun _ => Err ValueError)] "out" []), (mkSampler [("mu", 1)] (fun _ => Err ValueError)), ValueError. split; [reflexivity|].
  split; [constructor; [split; [repeat constructor; intros []|discriminate]|intros h [<-|[]]; reflexivity|repeat constructor; intros []]|]. split; [reflexivity|]. split; [cbn; now rewrite !g6_near_one by lra|discriminate].
Qed.
(** cut to the values up to 1/3 *)
Example C108_cut_nonvacuous : exists c, let o d := mkSO [[("mu", 1)]; [("mu", 1 + / 1000)]] [] "out" [([("mu", 1)], d); ([("mu", 1 + / 1000)], d)] in c = mkCO (o [1/4; 1/2]) (o [1/3; 1]) /\ Some (1/3) <> Some 0 /\ distinct_hypos ["mu"] (so_hypos (co_clsb c)) /\ so_hypos (co_cl_b c) = so_hypos (co_clsb c) /\
  on_params ["mu"] (so_dists (co_clsb c)) /\ on_params ["mu"] (so_dists (co_cl_b c)) /\ (forall h, In h (so_hypos (co_clsb c)) -> hget (fun _ => 0%Z) h (so_dists (co_clsb c)) <> None /\ hget (fun _ => 0%Z) h (so_dists (co_cl_b c)) <> None) /\
  filter (within None (Some (1/3))) [1/4; 1/2] = [1/4] /\ filter (within None (Some (1/3))) [1/3; 1] = [1/3].
Proof.
  assert (X : forall d : list R, on_params ["mu"] [([("mu", 1)], d); ([("mu", 1 + / 1000)], d)]) by (intros d h w [E|[E|[]]]; injection E as <- _; reflexivity).
  assert (Y : forall (d : list R) h, In h [[("mu", 1)]; [("mu", 1 + / 1000)]] -> hget (fun _ => 0%Z) h [([("mu", 1)], d); ([("mu", 1 + / 1000)], d)] <> None).
  { intros d h [<-|[<-|[]]]; cbn; unfold hypo_eqb; cbn; repeat (match goal with |- context [Reqb ?a ?b] => destruct (Reqb a b) eqn:?E end; cbn; try discriminate).
    all: exfalso; match goal with H : Reqb ?a ?a = false |- _ => rewrite (proj2 (Reqb_true a a) eq_refl) in H; discriminate end. }
  eexists. cbv zeta. split; [reflexivity|]. split; [intros E; injection E; lra|]. split; [exact toy_hypos|]. split; [reflexivity|]. split; [apply X|]. split; [apply X|]. split; [intros h Hh; split; apply Y; exact Hh|].
  cbn. rewrite (proj2 (Rleb_true (1/4) (1/3))) by lra. rewrite (proj2 (Rleb_true (1/3) (1/3))) by lra. rewrite (proj2 (Rleb_false (1/2) (1/3))) by lra. rewrite (proj2 (Rleb_false 1 (1/3))) by lra. split; reflexivity.
Qed.
