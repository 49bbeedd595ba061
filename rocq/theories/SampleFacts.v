(** Facts about normalizations and samples *)
From Verif Require Import Py PyFacts Base Expressions Norms RSort Sample Vander.
Local Open Scope string_scope.
Local Open Scope list_scope.

(** polynomial without constant term, as evaluated by the model: sum over orders n of coeffs[n][bin] x^(n+1) *)
Definition poly (coeffs : list (list R)) (b : nat) (x : R) : R :=
  rsum (length coeffs) (fun n => nth b (nth n coeffs []) 0 * x ^ (n + 1)).

Lemma poly_0 c b : poly c b 0 = 0.
Proof. unfold poly. apply rsum_eq0. intros i Hi. rewrite pow_i by lia. ring. Qed.

Lemma mapM_nth {A B} (f : A -> res B) l r i da db : mapM f l = Ok r -> (i < length l)%nat -> f (nth i l da) = Ok (nth i r db).
Proof.
  intros H. apply mapM_Forall2 in H. revert i; induction H as [|a b l r H1 H2 IH]; intros i Hi; cbn [length] in Hi; [lia|].
  destruct i; cbn [nth]; [exact H1|apply IH; lia].
Qed.
Lemma mapM_total' {A B} (f : A -> res B) l : (forall a, In a l -> exists b, f a = Ok b) -> exists r, mapM f l = Ok r.
Proof.
  induction l as [|a l IH]; cbn [mapM]; intros H; [eauto|].
  destruct (H a (or_introl eq_refl)) as (b & ->). destruct IH as (r & ->); [intros; apply H; right; assumption|].
  cbn [bind]; eauto.
Qed.

Lemma side_ok inv is_log single vars imps nb : inv_ok inv -> NoDup vars -> (forall v, In v vars -> v <> 0) ->
  length imps = length vars -> vars <> [] -> (forall im, In im imps -> length im = nb) -> (single = true -> length vars = 1%nat) ->
  exists c, side_coefficients inv is_log single vars imps = Ok c /\ length c = length vars /\
    forall i b, (i < length vars)%nat -> (b < nb)%nat ->
      poly c b (nth i vars 0) = impact_scale is_log (nth b (nth i imps []) 0).
Proof.
  intros Hinv Hd Hz Hl Hne Hnb Hs. unfold side_coefficients. destruct single.
  - destruct vars as [|v [|v2 vars]]; [contradiction| |specialize (Hs eq_refl); cbn in Hs; lia].
    destruct imps as [|im [|im2 imps]]; cbn in Hl; try lia.
    eexists; split; [reflexivity|]. split; [reflexivity|]. intros i b Hi Hb. cbn [length] in Hi.
    replace i with 0%nat by lia. unfold poly. cbn [length rsum nth Nat.add].
    rewrite (nth_map_lt _ _ _ 0) by (rewrite (Hnb im (or_introl eq_refl)); exact Hb).
    assert (v <> 0) by (apply Hz; left; reflexivity). cbn [pow]. field. assumption.
  - destruct imps as [|im0 imps0] eqn:Ei; [destruct vars; [contradiction|cbn in Hl; lia]|].
    rewrite <- Ei in *. assert (Hn0 : length im0 = nb) by (apply Hnb; rewrite Ei; left; reflexivity).
    rewrite Hn0.
    destruct (mapM_total' (fun b => interpolate_impact inv vars (map (fun im => impact_scale is_log (nth b im 0)) imps)) (seq 0 nb)) as (pb & Hpb).
    { intros b Hb. destruct (interpolate_ok inv vars (map (fun im => impact_scale is_log (nth b im 0)) imps) Hinv Hd Hz) as (c & Hc & _);
        [rewrite map_length; exact Hl|eauto]. }
    rewrite Hpb. cbn [bind]. eexists; split; [reflexivity|]. rewrite map_length, seq_length. split; [reflexivity|].
    intros i b Hi Hb. unfold poly. rewrite map_length, seq_length.
    assert (Lpb : length pb = nb) by (rewrite (mapM_Ok_length _ _ _ Hpb), seq_length; reflexivity).
    destruct (interpolate_ok inv vars (map (fun im => impact_scale is_log (nth b im 0)) imps) Hinv Hd Hz) as (c & Hc & Hev);
      [rewrite map_length; exact Hl|].
    pose proof (mapM_nth _ _ _ b 0%nat (fun _ => 0) Hpb) as Hnth. rewrite seq_length in Hnth. specialize (Hnth Hb).
    rewrite seq_nth in Hnth by exact Hb. cbn [Nat.add] in Hnth. rewrite Hc in Hnth. inversion Hnth as [Hcn].
    specialize (Hev i Hi).
    rewrite (nth_map_lt _ _ _ []) in Hev by (rewrite Hl; exact Hi).
    rewrite <- Hev. apply rsum_ext. intros n Hn. f_equal.
    rewrite (nth_map_lt _ _ _ 0%nat) by (rewrite seq_length; exact Hn). rewrite seq_nth by exact Hn. cbn [Nat.add].
    rewrite (nth_map_lt (fun c0 : vec => c0 n) pb b (fun _ => 0) 0) by (rewrite Lpb; exact Hb). rewrite Hcn. reflexivity.
Qed.

Lemma impact_length fmt s par v w a b : impact fmt s par v = Ok (Some a) -> impact fmt s par w = Ok (Some b) -> length a = length b.
Proof.
  unfold impact, nyields. destruct (dget par (s_impacts s)) as [j|]; [destruct j as [|bb|z|x|st|l|d]|]; intros H1 H2; try discriminate.
  - destruct (s_yields s); [|discriminate]. cbn [bind] in *. inversion H1; inversion H2; subst. rewrite !repeat_length; reflexivity.
  - inv_bind H1. inv_bind H2. inversion H1; inversion H2; subst.
    match goal with Ha : mapM _ l = Ok a, Hb : mapM _ l = Ok b |- _ => rewrite (mapM_Ok_length _ _ _ Ha), (mapM_Ok_length _ _ _ Hb) end. reflexivity.
  - destruct (table_entry (fmt v) (JObj d)); [|discriminate]. destruct (table_entry (fmt w) (JObj d)); [|discriminate].
    destruct (s_yields s); [|discriminate]. cbn [bind] in *. inversion H1; inversion H2; subst. rewrite !repeat_length; reflexivity.
  - destruct (s_yields s); [|discriminate]. cbn [bind] in *. inversion H1; inversion H2; subst. rewrite !repeat_length; reflexivity.
Qed.

Lemma filter_NoDup {A} (f : A -> bool) l : NoDup l -> NoDup (filter f l).
Proof. apply NoDup_filter. Qed.
Lemma rsort_NoDup l : NoDup l -> NoDup (rsort l).
Proof. intros H. eapply Permutation_NoDup; [apply Permutation_sym, rsort_perm|exact H]. Qed.

Lemma coefficients_ok float_of fmt inv s par is_log av :
  inv_ok inv -> available_variations float_of s par = Ok av -> NoDup av ->
  length (filter (fun v => Rltb 0 v) av) = length (filter (fun v => Rltb v 0) av) ->
  (exists v, In v av /\ v <> 0) ->
  (forall v, In v av -> v <> 0 -> exists im, impact fmt s par v = Ok (Some im)) ->
  exists pc nc, impact_coefficients float_of fmt inv s par is_log = Ok (pc, nc) /\
    forall v im b, In v av -> v <> 0 -> impact fmt s par v = Ok (Some im) -> (b < length im)%nat ->
      poly (if Rltb 0 v then pc else nc) b v = impact_scale is_log (nth b im 0).
Proof.
  intros Hinv Hav Hnd Hlen (v0 & Hv0 & Hv0z) Him. unfold impact_coefficients. rewrite Hav. cbn [bind].
  set (pv := rsort (filter (fun v => Rltb 0 v) av)). set (nv := rsort (filter (fun v => Rltb v 0) av)).
  set (get := fun v => let! r := impact fmt s par v in match r with Some l => Ok l | None => Err TypeError end).
  assert (Hget : forall v im, impact fmt s par v = Ok (Some im) -> get v = Ok im) by (intros v im E; unfold get; rewrite E; reflexivity).
  assert (Hget2 : forall v im, get v = Ok im -> impact fmt s par v = Ok (Some im)).
  { intros v im. unfold get. destruct (impact fmt s par v) as [[l|]|]; cbn [bind]; intros H; inversion H; reflexivity. }
  assert (Hp : forall v, In v pv <-> In v av /\ 0 < v).
  { intros v. unfold pv. rewrite rsort_in, filter_In, Rltb_true. reflexivity. }
  assert (Hn : forall v, In v nv <-> In v av /\ v < 0).
  { intros v. unfold nv. rewrite rsort_in, filter_In, Rltb_true. reflexivity. }
  assert (Lpn : length pv = length nv) by (unfold pv, nv; rewrite !rsort_length; exact Hlen).
  assert (Hpne : pv <> [] /\ nv <> []).
  { destruct (Rtotal_order v0 0) as [H|[H|H]]; [|contradiction|].
    - assert (In v0 nv) by (apply Hn; auto). destruct nv; [contradiction|]. destruct pv; cbn in Lpn; [discriminate|]. split; discriminate.
    - assert (In v0 pv) by (apply Hp; auto). destruct pv; [contradiction|]. destruct nv; cbn in Lpn; [discriminate|]. split; discriminate. }
  destruct (mapM_total' get pv) as (pi & Hpi).
  { intros v Hv. apply Hp in Hv. destruct (Him v (proj1 Hv)) as (im & E); [lra|]. exists im; auto. }
  destruct (mapM_total' get nv) as (ni & Hni).
  { intros v Hv. apply Hn in Hv. destruct (Him v (proj1 Hv)) as (im & E); [lra|]. exists im; auto. }
  rewrite Hpi, Hni. cbn [bind].
  destruct (Him v0 Hv0 Hv0z) as (im0 & E0).
  assert (Hrow : forall vs is, mapM get vs = Ok is -> forall im, In im is -> length im = length im0).
  { intros vs is Hm im Hin. apply mapM_Forall2 in Hm. induction Hm as [|a b l r H1 H2 IH]; [destruct Hin|].
    destruct Hin as [->|Hin]; [|apply IH; exact Hin]. apply Hget2 in H1. apply (impact_length _ _ _ _ _ _ _ H1 E0). }
  assert (Hsgl : (length pv =? 1)%nat = true -> length pv = 1%nat) by (intros E; apply Nat.eqb_eq; exact E).
  destruct (side_ok inv is_log (length pv =? 1)%nat pv pi (length im0)) as (pc & Epc & Lpc & Ppc); auto.
  { apply rsort_NoDup, NoDup_filter, Hnd. }
  { intros v Hv. apply Hp in Hv. lra. }
  { apply (mapM_Ok_length _ _ _ Hpi). }
  { apply Hpne. }
  { apply (Hrow _ _ Hpi). }
  destruct (side_ok inv is_log (length pv =? 1)%nat nv ni (length im0)) as (nc & Enc & Lnc & Pnc); auto.
  { apply rsort_NoDup, NoDup_filter, Hnd. }
  { intros v Hv. apply Hn in Hv. lra. }
  { apply (mapM_Ok_length _ _ _ Hni). }
  { apply Hpne. }
  { apply (Hrow _ _ Hni). }
  { intros E. rewrite <- Lpn. apply Hsgl; exact E. }
  rewrite Epc, Enc. cbn [bind]. exists pc, nc. split; [reflexivity|].
  intros v im b Hv Hvz E Hb. assert (Lim := impact_length _ _ _ _ _ _ _ E E0).
  destruct (Rltb 0 v) eqn:Es.
  - apply Rltb_true in Es. assert (Hin : In v pv) by (apply Hp; auto).
    destruct (In_nth _ _ 0 Hin) as (i & Hi & <-). rewrite Ppc by lia. f_equal. f_equal.
    pose proof (mapM_nth _ _ _ i 0 [] Hpi Hi) as G. apply Hget2 in G. rewrite E in G. inversion G. reflexivity.
  - apply Rltb_false in Es. assert (Hin : In v nv) by (apply Hn; split; [exact Hv|lra]).
    destruct (In_nth _ _ 0 Hin) as (i & Hi & <-). rewrite Pnc by lia. f_equal. f_equal.
    pose proof (mapM_nth _ _ _ i 0 [] Hni Hi) as G. apply Hget2 in G. rewrite E in G. inversion G. reflexivity.
Qed.

Lemma impact_scale_exp imp : 1 / 100 <= 1 + imp <= 100 -> exp (impact_scale true imp) = 1 + imp.
Proof.
  intros [H1 H2]. unfold impact_scale. rewrite Rmin_left by lra. rewrite Rmax_left by lra. apply exp_ln. lra.
Qed.

(** round trips *)
Lemma np_array_JFlt l : np_array (map JFlt l) = Ok l.
Proof. induction l as [|x l IH]; cbn [map np_array jnum]; [reflexivity|]. rewrite IH. reflexivity. Qed.

Definition norm_reloadable (float_of : string -> option R) (n : norm) : Prop :=
  match n with ExprNorm s => float_of s = None | NumberNorm _ => True end.

Lemma norm_roundtrip float_of n d : norm_reloadable float_of n ->
  norm_instantiate float_of (norm_fill n d) = Ok n.
Proof.
  intros H. destruct n as [[v|]|s]; cbn [norm_fill jnum_of norm_reloadable] in *;
    unfold norm_instantiate, load_field; rewrite dget_dset_eq; cbn [negb andb existsb isinstance orb bind]; auto.
  rewrite H. reflexivity.
Qed.

Lemma sample_roundtrip float_of s : norm_reloadable float_of (s_norm s) ->
  sample_load float_of (sample_fill s []) = Ok s.
Proof.
  intros H. destruct s as [name n nn y im]. cbn [s_norm] in H.
  unfold sample_load, sample_fill. cbn [s_name s_norm s_nominal_norm s_yields s_impacts].
  assert (Hn : forall d, norm_instantiate float_of (dset "impacts" (JObj im) (dset "nominal_yields" (match y with Some l => JList (map JFlt l) | None => JNull end)
     (dset "nominal_norm" (jnum_of nn) (norm_fill n d)))) = Ok n).
  { intros d. rewrite <- (norm_roundtrip float_of n d H). unfold norm_instantiate, load_field.
    rewrite !(dget_dset_neq "norm") by discriminate. reflexivity. }
  rewrite Hn. unfold load_field. rewrite !(dget_dset_neq "name") by discriminate.
  assert (Hnm : dget "name" (norm_fill n (dset "name" (JStr name) [])) = Some (JStr name)).
  { destruct n; cbn [norm_fill]; rewrite dget_dset_neq by discriminate; apply dget_dset_eq. }
  rewrite Hnm. cbn [negb andb existsb isinstance orb bind as_str].
  rewrite !(dget_dset_neq "nominal_norm") by discriminate. rewrite dget_dset_eq.
  rewrite !(dget_dset_neq "nominal_yields") by discriminate. rewrite !dget_dset_eq.
  destruct nn, y; cbn [jnum_of negb andb existsb isinstance orb bind as_onum jnum];
    rewrite ?np_array_JFlt; cbn [bind]; reflexivity.
Qed.
