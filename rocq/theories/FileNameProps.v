(** C45: sample file names. *)
From Coq Require Import DecimalString DecimalNat DecimalFacts.
From Verif Require Import Py PyFacts FileName.
Local Open Scope R_scope.
Local Open Scope list_scope.

(** Specification: [round6 v r] when r is v rounded to six significant decimal digits: r = m * 10^(x-5) with m an integer
    of six digits, and v is not further than half a unit of the last digit (ties to even) *)
Definition g6 (v : R) : R :=
  if Reqb v 0 then 0 else if Rltb v 0 then - (let '(m, x) := g_digits (- v) in IZR m * powerRZ 10 (x - 5)) else (let '(m, x) := g_digits v in IZR m * powerRZ 10 (x - 5)).

(** * Rounding *)
Lemma rne_err y : Rabs (y - IZR (rne y)) <= 1 / 2.
Proof.
  unfold rne. destruct (base_Int_part y) as [A B]. cbv zeta. destruct (Rltb (y - IZR (Int_part y)) (1 / 2)) eqn:E1.
  - apply Rltb_true in E1. rewrite Rabs_pos_eq; lra.
  - apply Rltb_false in E1. assert (G : Rabs (y - IZR (Int_part y + 1)) <= 1 / 2) by (rewrite plus_IZR; rewrite Rabs_left1 by lra; lra).
    destruct (Rltb (1 / 2) (y - IZR (Int_part y))) eqn:E2; [exact G|]. apply Rltb_false in E2. destruct (Z.even _); [|exact G]. rewrite Rabs_pos_eq by lra. lra.
Qed.
Lemma rne_eq y n : Rabs (y - IZR n) < 1 / 2 -> rne y = n.
Proof.
  intros H. pose proof (rne_err y) as E. apply Rabs_def2 in H. assert (- (1/2) <= y - IZR (rne y) <= 1/2). { split; [|apply (Rle_trans _ _ _ (Rle_abs _) E)]. pose proof (Rle_abs (- (y - IZR (rne y)))) as Q. rewrite Rabs_Ropp in Q. lra. }
  assert (A : IZR (rne y) < IZR (n + 1)) by (rewrite plus_IZR; lra). assert (B : IZR n < IZR (rne y + 1)) by (rewrite plus_IZR; lra). apply lt_IZR in A, B. lia.
Qed.
Lemma ln10 : 0 < ln 10. Proof. rewrite <- ln_1. apply ln_increasing; lra. Qed.
Lemma p10_pos x : 0 < powerRZ 10 x. Proof. apply powerRZ_lt. lra. Qed.
Lemma p10_ln x : powerRZ 10 x = exp (IZR x * ln 10).
Proof.
  rewrite powerRZ_Rpower by lra. unfold Rpower. reflexivity.
Qed.
Lemma p10_mono x y : (x <= y)%Z -> powerRZ 10 x <= powerRZ 10 y.
Proof. intros H. rewrite !p10_ln. apply IZR_le in H. pose proof ln10. destruct H as [H| ->]; [|lra]. left. apply exp_increasing. nra. Qed.
Lemma dec_exp_spec v : 0 < v -> powerRZ 10 (dec_exp v) <= v < powerRZ 10 (dec_exp v + 1).
Proof.
  intros H. unfold dec_exp. destruct (base_Int_part (ln v / ln 10)) as [A B]. pose proof ln10 as L. rewrite !p10_ln, plus_IZR. set (e := IZR (Int_part (ln v / ln 10))) in *.
  assert (E : ln v = ln v / ln 10 * ln 10) by (field; lra). assert (V : v = exp (ln v)) by (now rewrite exp_ln).
  split.
  - rewrite V at 1. assert (e * ln 10 <= ln v) by (rewrite E; apply Rmult_le_compat_r; lra). destruct H0 as [H0|H0]; [left; rewrite <- V at 1; rewrite V; now apply exp_increasing|right]. rewrite H0. now rewrite <- V.
  - rewrite V. apply exp_increasing. rewrite E. apply Rmult_lt_compat_r; lra.
Qed.
Lemma p10_split x k : powerRZ 10 (x + k) = powerRZ 10 x * powerRZ 10 k.
Proof. apply powerRZ_add. lra. Qed.
Lemma p10_5 : powerRZ 10 5 = 100000. Proof. change (10 ^ 5 = 100000). lra. Qed.
Lemma p10_6 : powerRZ 10 6 = 1000000. Proof. change (10 ^ 6 = 1000000). lra. Qed.
Lemma p10_1 : powerRZ 10 1 = 10. Proof. change (10 ^ 1 = 10). lra. Qed.
Lemma p10_m5 : powerRZ 10 (0 - 5) = / 100000. Proof. change (/ 10 ^ 5 = / 100000). f_equal. lra. Qed.
Lemma g_digits_spec v m x : 0 < v -> g_digits v = (m, x) -> (100000 <= m <= 999999)%Z /\ Rabs (v - IZR m * powerRZ 10 (x - 5)) <= v * / 200000.
Proof.
  intros Hv H. unfold g_digits in H. pose proof (dec_exp_spec v Hv) as [A B]. set (e := dec_exp v) in *. set (y := v / powerRZ 10 (e - 5)) in *. pose proof (p10_pos (e - 5)) as P.
  assert (E0 : powerRZ 10 e = powerRZ 10 (e - 5) * 100000). { replace e with ((e - 5) + 5)%Z at 1 by ring. now rewrite p10_split, p10_5. }
  assert (E1 : powerRZ 10 (e + 1) = powerRZ 10 (e - 5) * 1000000). { replace (e + 1)%Z with ((e - 5) + 6)%Z by ring. now rewrite p10_split, p10_6. }
  assert (Ey : v = y * powerRZ 10 (e - 5)) by (unfold y; field; lra).
  assert (Y : 100000 <= y < 1000000). { rewrite E0 in A. rewrite E1 in B. rewrite Ey in A, B. split; [apply (Rmult_le_reg_r (powerRZ 10 (e - 5))); lra|apply (Rmult_lt_reg_r (powerRZ 10 (e - 5))); lra]. }
  pose proof (rne_err y) as Er. assert (Er2 : - (1/2) <= y - IZR (rne y) <= 1/2). { split; [|apply (Rle_trans _ _ _ (Rle_abs _) Er)]. pose proof (Rle_abs (- (y - IZR (rne y)))) as Q. rewrite Rabs_Ropp in Q. lra. }
  assert (M : (100000 <= rne y <= 1000000)%Z). { assert (L1 : IZR 99999 < IZR (rne y)) by lra. assert (L2 : IZR (rne y) < IZR 1000001) by lra. apply lt_IZR in L1, L2. lia. }
  assert (G : Rabs (v - IZR (rne y) * powerRZ 10 (e - 5)) <= v * / 200000).
  { rewrite Ey at 1. replace (y * powerRZ 10 (e - 5) - IZR (rne y) * powerRZ 10 (e - 5)) with ((y - IZR (rne y)) * powerRZ 10 (e - 5)) by ring. rewrite Rabs_mult, (Rabs_pos_eq (powerRZ 10 (e - 5))) by lra.
    apply Rle_trans with (1 / 2 * powerRZ 10 (e - 5)); [apply Rmult_le_compat_r; lra|]. rewrite E0 in A. lra. }
  destruct (rne y =? 1000000)%Z eqn:Q; injection H as <- <-.
  - apply Z.eqb_eq in Q. split; [lia|]. rewrite Q in G. replace (IZR 100000 * powerRZ 10 (e + 1 - 5)) with (IZR 1000000 * powerRZ 10 (e - 5)); [exact G|]. replace (e + 1 - 5)%Z with ((e - 5) + 1)%Z by ring. rewrite p10_split, p10_1. lra.
  - apply Z.eqb_neq in Q. split; [lia|exact G].
Qed.
(** rounding changes a value by at most 0.0005 % *)
Lemma g6_err v : Rabs (v - g6 v) <= Rabs v * / 200000.
Proof.
  unfold g6. destruct (Reqb v 0) eqn:E0; [apply Reqb_true in E0 as ->; rewrite Rminus_0_r, Rabs_R0; lra|]. apply Reqb_false in E0. destruct (Rltb v 0) eqn:E1.
  - apply Rltb_true in E1. destruct (g_digits (- v)) as [m x] eqn:G. destruct (g_digits_spec (- v) m x ltac:(lra) G) as [_ H]. rewrite (Rabs_left v) by lra. rewrite <- Rabs_Ropp. replace (- (v - - (IZR m * powerRZ 10 (x - 5)))) with (- v - IZR m * powerRZ 10 (x - 5)) by ring. exact H.
  - apply Rltb_false in E1. destruct (g_digits v) as [m x] eqn:G. destruct (g_digits_spec v m x ltac:(lra) G) as [_ H]. rewrite (Rabs_pos_eq v) by lra. exact H.
Qed.

(** * Formatting is injective on the rounded values *)
Lemma sep_inj {A} (c : A) a b a' b' : ~ In c a -> ~ In c a' -> a ++ c :: b = a' ++ c :: b' -> a = a' /\ b = b'.
Proof.
  revert a'. induction a as [|x a IH]; intros [|x' a'] N N' H; cbn in *.
  - now injection H.
  - injection H as -> _. exfalso. apply N'. now left.
  - injection H as -> _. exfalso. apply N. now left.
  - injection H as -> H. destruct (IH a') as [-> ->]; auto.
Qed.
Definition isdig (c : ascii) : Prop := (48 <= nat_of_ascii c <= 57)%nat.
Lemma dig_isdig z : (0 <= z < 10)%Z -> isdig (dig z).
Proof. intros H. unfold isdig, dig. rewrite nat_ascii_embedding; lia. Qed.
Lemma dig_inj z w : (0 <= z < 10)%Z -> (0 <= w < 10)%Z -> dig z = dig w -> z = w.
Proof. intros Hz Hw H. apply (f_equal nat_of_ascii) in H. unfold dig in H. rewrite !nat_ascii_embedding in H by lia. lia. Qed.
Lemma digits6_dig m c : In c (digits6 m) -> isdig c.
Proof. unfold digits6. rewrite in_map_iff. intros (k & <- & _). apply dig_isdig. apply Z.mod_pos_bound. lia. Qed.
Lemma digits6_inj m m' : (0 <= m < 1000000)%Z -> (0 <= m' < 1000000)%Z -> digits6 m = digits6 m' -> m = m'.
Proof.
  intros Hm Hm' H. unfold digits6 in H. cbn [map] in H. injection H as H5 H4 H3 H2 H1 H0.
  assert (B : forall z, (0 <= z mod 10 < 10)%Z) by (intros z; apply Z.mod_pos_bound; lia).
  apply dig_inj in H5, H4, H3, H2, H1, H0; try apply B.
  change (Z.pow_pos 10 5)%Z with 100000%Z in *. change (Z.pow_pos 10 4)%Z with 10000%Z in *. change (Z.pow_pos 10 3)%Z with 1000%Z in *. change (Z.pow_pos 10 2)%Z with 100%Z in *. change (Z.pow_pos 10 1)%Z with 10%Z in *.
  assert (D : forall z, (0 <= z < 1000000)%Z -> z = (z / 100000 mod 10 * 100000 + z / 10000 mod 10 * 10000 + z / 1000 mod 10 * 1000 + z / 100 mod 10 * 100 + z / 10 mod 10 * 10 + z / 1 mod 10)%Z).
  { intros z Hz. Z.div_mod_to_equations. lia. }
  rewrite (D m Hm), (D m' Hm'), H5, H4, H3, H2, H1, H0. reflexivity.
Qed.
Lemma digits6_head m : (100000 <= m <= 999999)%Z -> exists c l, digits6 m = c :: l /\ c <> "0"%char /\ length l = 5%nat.
Proof.
  intros H. unfold digits6. cbn [map]. eexists. eexists. split; [reflexivity|]. split; [|reflexivity]. intros E. change "0"%char with (dig 0) in E. apply dig_inj in E; [|apply Z.mod_pos_bound; lia|lia].
  change (10 ^ 5)%Z with 100000%Z in E. Z.div_mod_to_equations. lia.
Qed.
Lemma digits6_length m : length (digits6 m) = 6%nat. Proof. reflexivity. Qed.
Local Opaque digits6.
Lemma strip_pad l : exists n, l = strip l ++ repeat "0"%char n.
Proof.
  induction l as [|c l [n IH]]; [now exists 0%nat|]. cbn. destruct (strip l) as [|a t] eqn:E.
  - destruct (Ascii.eqb_spec c "0") as [->|N]; [exists (S n)|exists n]; cbn; f_equal; exact IH.
  - exists n. cbn. f_equal. exact IH.
Qed.
Lemma strip_inj l l' : length l = length l' -> strip l = strip l' -> l = l'.
Proof.
  intros L H. destruct (strip_pad l) as [n E]. destruct (strip_pad l') as [n' E']. rewrite H in E. set (t := strip l') in *. clearbody t. subst l l'. f_equal. f_equal. rewrite !app_length, !repeat_length in L. lia.
Qed.
Lemma strip_nil l : strip l = [] -> forall c, In c l -> c = "0"%char.
Proof. intros H c Hc. destruct (strip_pad l) as [n E]. rewrite H in E. cbn in E. rewrite E in Hc. now apply repeat_spec in Hc. Qed.
Lemma strip_in l c : In c (strip l) -> In c l.
Proof. intros H. destruct (strip_pad l) as [n E]. rewrite E. apply in_or_app. now left. Qed.
Lemma frac_inj l l' : frac l = frac l' -> strip l = strip l'.
Proof. unfold frac. destruct (strip l), (strip l'); intros H; try discriminate; [reflexivity|now injection H as -> ->]. Qed.
Lemma frac_in l c : In c (frac l) -> c = "."%char \/ In c l.
Proof. unfold frac. destruct (strip l) eqn:E; [intros []|]. rewrite <- E. intros [<-|H]; [now left|right; now apply strip_in]. Qed.
(** a list of digits followed by an optional fraction determines both *)
Lemma int_frac_inj a l a' l' : (forall c, In c a -> isdig c) -> (forall c, In c a' -> isdig c) -> a ++ frac l = a' ++ frac l' -> a = a' /\ strip l = strip l'.
Proof.
  intros Ha Ha' H. assert (nd : ~ isdig "."%char) by (unfold isdig; cbn; lia).
  assert (D : ~ In "."%char a) by (intros Q; now apply Ha in Q). assert (D' : ~ In "."%char a') by (intros Q; now apply Ha' in Q).
  unfold frac in H. destruct (strip l) as [|c t] eqn:E, (strip l') as [|c' t'] eqn:E'; rewrite ?app_nil_r in H.
  - auto.
  - exfalso. apply D. rewrite H. apply in_or_app. right. now left.
  - exfalso. apply D'. rewrite <- H. apply in_or_app. right. now left.
  - apply sep_inj in H as [-> H]; auto.
Qed.
Lemma firstn_in {A} n (l : list A) x : In x (firstn n l) -> In x l.
Proof. intros H. rewrite <- (firstn_skipn n l). apply in_or_app. now left. Qed.
Lemma skipn_in {A} n (l : list A) x : In x (skipn n l) -> In x l.
Proof. intros H. rewrite <- (firstn_skipn n l). apply in_or_app. now right. Qed.

Lemma uint_dig d c : In c (list_ascii_of_string (NilEmpty.string_of_uint d)) -> isdig c.
Proof. induction d; cbn; intros H; try (destruct H as [<-|H]; [unfold isdig; cbn; lia|auto]). destruct H. Qed.
Lemma exp_digits_dig n c : In c (exp_digits n) -> isdig c.
Proof.
  unfold exp_digits. intros H. pose proof (uint_dig (Nat.to_uint n)) as U. destruct (list_ascii_of_string (NilEmpty.string_of_uint (Nat.to_uint n))) as [|a [|b l]] eqn:E; [destruct H| |apply U; exact H].
  destruct H as [<-|[<-|[]]]; [unfold isdig; cbn; lia|apply U; now left].
Qed.
Lemma to_uint_str_inj n m : NilEmpty.string_of_uint (Nat.to_uint n) = NilEmpty.string_of_uint (Nat.to_uint m) -> n = m.
Proof.
  intros H. apply (f_equal NilEmpty.uint_of_string) in H. rewrite !NilEmpty.usu in H. injection H as H. now apply Unsigned.to_uint_inj.
Qed.
Lemma las_inj s t : list_ascii_of_string s = list_ascii_of_string t -> s = t.
Proof. intros H. rewrite <- (string_of_list_ascii_of_string s), <- (string_of_list_ascii_of_string t). now f_equal. Qed.
(** numbers of two digits do not start with zero *)
Lemma to_uint_no_lead n : n <> 0%nat -> forall l, list_ascii_of_string (NilEmpty.string_of_uint (Nat.to_uint n)) <> "0"%char :: l.
Proof.
  intros Hn l H. pose proof (Unsigned.of_to n) as O. assert (Nm : Decimal.nzhead (Nat.to_uint n) = Nat.to_uint n).
  { pose proof (Unsigned.to_of (Nat.to_uint n)) as T. rewrite O in T. clear H. set (u := Nat.to_uint n) in *. clearbody u. unfold Decimal.unorm in T.
    destruct (Decimal.nzhead u) eqn:E; try congruence. exfalso. apply Hn. rewrite <- O, T. reflexivity. }
  destruct (Nat.to_uint n) as [|d|d|d|d|d|d|d|d|d|d] eqn:E; cbn in H; try discriminate. cbn in Nm. assert (L : forall u v, Decimal.nzhead u = Decimal.D0 v -> False).
  { induction u; cbn; intros v Hv; try discriminate. now apply IHu in Hv. }
  now apply L in Nm.
Qed.
Lemma exp_digits_inj n m : exp_digits n = exp_digits m -> n = m.
Proof.
  intros H. apply to_uint_str_inj, las_inj. unfold exp_digits in H.
  destruct (Nat.eq_dec n 0) as [->|Nn]; destruct (Nat.eq_dec m 0) as [->|Nm]; auto.
  - pose proof (to_uint_no_lead m Nm) as B. cbn in H. destruct (list_ascii_of_string (NilEmpty.string_of_uint (Nat.to_uint m))) as [|b [|b' l']] eqn:E'; [discriminate| |].
    + injection H as <-. exfalso. now apply (B []).
    + injection H as <- <- <-. exfalso. now apply (B ["0"%char]).
  - pose proof (to_uint_no_lead n Nn) as A. cbn in H. destruct (list_ascii_of_string (NilEmpty.string_of_uint (Nat.to_uint n))) as [|b [|b' l']] eqn:E'; [discriminate| |].
    + injection H as ->. exfalso. now apply (A []).
    + injection H as -> -> ->. exfalso. now apply (A ["0"%char]).
  - pose proof (to_uint_no_lead n Nn) as A. pose proof (to_uint_no_lead m Nm) as B.
    destruct (list_ascii_of_string (NilEmpty.string_of_uint (Nat.to_uint n))) as [|a [|a' l]], (list_ascii_of_string (NilEmpty.string_of_uint (Nat.to_uint m))) as [|b [|b' l']]; try discriminate; auto.
    + now injection H as ->.
    + injection H as <- <- <-. exfalso. now apply (B [a]).
    + injection H as -> -> ->. exfalso. now apply (A [b]).
Qed.

Lemma fmt_fixed_noe m x c : ((0 <=? x)%Z && (x <? 6)%Z = true \/ (-4 <=? x)%Z && (x <? 0)%Z = true) -> In c (fmt_pos m x) -> c = "."%char \/ isdig c.
Proof.
  intros Hx H. unfold fmt_pos in H. assert (z : isdig "0"%char) by (unfold isdig; cbn; lia). destruct ((0 <=? x)%Z && (x <? 6)%Z).
  - apply in_app_or in H as [H|H]; [right; eapply digits6_dig, firstn_in, H|]. apply frac_in in H as [->|H]; [now left|right; eapply digits6_dig, skipn_in, H].
  - destruct Hx as [Hx|Hx]; [discriminate|]. rewrite Hx in H. destruct H as [<-|H]; [auto|]. apply frac_in in H as [->|H]; [now left|right]. apply in_app_or in H as [H|H]; [apply repeat_spec in H as ->; exact z|eapply digits6_dig, H].
Qed.
Lemma fmt_chars m x c : In c (fmt_pos m x) -> isdig c \/ c = "."%char \/ c = "e"%char \/ c = "+"%char \/ c = "-"%char.
Proof.
  intros H. destruct ((0 <=? x)%Z && (x <? 6)%Z) eqn:E1; [destruct (fmt_fixed_noe m x c (or_introl E1) H); auto|]. destruct ((-4 <=? x)%Z && (x <? 0)%Z) eqn:E2; [destruct (fmt_fixed_noe m x c (or_intror E2) H); auto|].
  unfold fmt_pos in H. rewrite E1, E2 in H. apply in_app_or in H as [H|H]; [left; eapply digits6_dig, firstn_in, H|]. apply in_app_or in H as [H|[<-|[<-|H]]]; auto.
  - apply frac_in in H as [->|H]; [auto|left; eapply digits6_dig, skipn_in, H].
  - destruct (0 <=? x)%Z; auto 6.
  - left. now apply exp_digits_dig in H.
Qed.
Lemma repeat_prefix k k' (l l' : list ascii) c c' : c <> "0"%char -> c' <> "0"%char -> repeat "0"%char k ++ c :: l = repeat "0"%char k' ++ c' :: l' -> k = k' /\ c :: l = c' :: l'.
Proof.
  intros Hc Hc'. revert k'. induction k as [|k IH]; intros [|k'] H; cbn in H; [auto|injection H as -> _; congruence|injection H as <- _; congruence|]. injection H as H. destruct (IH k' H) as [-> ->]. auto.
Qed.
Lemma app_len_inj {A} (a a' b b' : list A) : length a = length a' -> a ++ b = a' ++ b' -> a = a' /\ b = b'.
Proof. revert a'. induction a as [|x a IH]; intros [|x' a'] L H; cbn in *; try discriminate; auto. injection H as -> H. injection L as L. destruct (IH a' L H) as [-> ->]. auto. Qed.
Lemma strip_pre l l' : strip l = strip l' -> exists n n', l ++ repeat "0"%char n = l' ++ repeat "0"%char n'.
Proof.
  intros H. destruct (strip_pad l) as [k E]. destruct (strip_pad l') as [k' E']. exists k', k. rewrite H in E. set (t := strip l') in *. clearbody t. subst l l'. rewrite <- !app_assoc, <- !repeat_app. f_equal. f_equal. lia.
Qed.
Lemma fmt_pos_inj m x m' x' : (100000 <= m <= 999999)%Z -> (100000 <= m' <= 999999)%Z -> fmt_pos m x = fmt_pos m' x' -> m = m' /\ x = x'.
Proof.
  intros Hm Hm' H. destruct (digits6_head m Hm) as (c & l & D & Nc & Ll). destruct (digits6_head m' Hm') as (c' & l' & D' & Nc' & Ll').
  assert (E0 : isdig "0"%char) by (unfold isdig; cbn; lia).
  assert (DD : digits6 m = digits6 m' -> m = m') by (apply digits6_inj; lia).
  assert (sci : forall m x, (0 <=? x)%Z && (x <? 6)%Z = false -> (-4 <=? x)%Z && (x <? 0)%Z = false -> In "e"%char (fmt_pos m x)).
  { intros m0 x0 A B. unfold fmt_pos. rewrite A, B. apply in_or_app. right. apply in_or_app. right. now left. }
  assert (nofix : forall m x, (0 <=? x)%Z && (x <? 6)%Z = true \/ (-4 <=? x)%Z && (x <? 0)%Z = true -> ~ In "e"%char (fmt_pos m x)).
  { intros m0 x0 A B. apply fmt_fixed_noe in B as [B|B]; [discriminate|unfold isdig in B; cbn in B; lia|exact A]. }
  destruct ((0 <=? x)%Z && (x <? 6)%Z) eqn:A1; destruct ((0 <=? x')%Z && (x' <? 6)%Z) eqn:A1'.
  - (* both fixed, x >= 0 *)
    unfold fmt_pos in H. rewrite A1, A1' in H. apply andb_true_iff in A1 as [B1 B2]. apply andb_true_iff in A1' as [B1' B2']. apply Z.leb_le in B1, B1'. apply Z.ltb_lt in B2, B2'.
    apply int_frac_inj in H as [H1 H2]; [|intros; eapply digits6_dig, firstn_in; eassumption|intros; eapply digits6_dig, firstn_in; eassumption].
    assert (Lx : S (Z.to_nat x) = S (Z.to_nat x')).
    { apply (f_equal (@length ascii)) in H1. rewrite !firstn_length, !digits6_length in H1. lia. }
    assert (x = x') by lia. subst x'. split; [|reflexivity]. apply DD. rewrite <- (firstn_skipn (S (Z.to_nat x)) (digits6 m)), <- (firstn_skipn (S (Z.to_nat x)) (digits6 m')), H1. f_equal.
    apply strip_inj; [|exact H2]. rewrite !skipn_length, !digits6_length. reflexivity.
  - destruct ((-4 <=? x')%Z && (x' <? 0)%Z) eqn:A2'.
    + exfalso. unfold fmt_pos in H. rewrite A1, A1', A2' in H. rewrite D in H. cbn in H. injection H as H _. congruence.
    + exfalso. apply (nofix m x); auto. rewrite H. now apply sci.
  - destruct ((-4 <=? x)%Z && (x <? 0)%Z) eqn:A2.
    + exfalso. unfold fmt_pos in H. rewrite A1, A1', A2 in H. rewrite D' in H. cbn in H. injection H as H _. congruence.
    + exfalso. apply (nofix m' x'); auto. rewrite <- H. now apply sci.
  - destruct ((-4 <=? x)%Z && (x <? 0)%Z) eqn:A2; destruct ((-4 <=? x')%Z && (x' <? 0)%Z) eqn:A2'.
    + unfold fmt_pos in H. rewrite A1, A1', A2, A2' in H. injection H as H. apply frac_inj, strip_pre in H as (n & n' & H). rewrite D, D' in H. rewrite <- !app_assoc in H. cbn [app] in H. apply repeat_prefix in H as [Hk H]; [|assumption..].
      apply andb_true_iff in A2 as [B1 B2]. apply andb_true_iff in A2' as [B1' B2']. apply Z.leb_le in B1, B1'. apply Z.ltb_lt in B2, B2'. split; [|lia]. apply DD. rewrite D, D'.
      apply (app_len_inj (c :: l) (c' :: l') (repeat "0"%char n) (repeat "0"%char n')); [cbn; lia|exact H].
    + exfalso. apply (nofix m x); auto. rewrite H. now apply sci.
    + exfalso. apply (nofix m' x'); auto. rewrite <- H. now apply sci.
    + unfold fmt_pos in H. rewrite A1, A1', A2, A2' in H. rewrite !app_assoc in H. assert (ne : forall k, ~ In "e"%char (firstn 1 (digits6 k) ++ frac (skipn 1 (digits6 k)))).
      { intros k Q. apply in_app_or in Q as [Q|Q]; [apply firstn_in, digits6_dig in Q; unfold isdig in Q; cbn in Q; lia|]. apply frac_in in Q as [Q|Q]; [discriminate|]. apply skipn_in, digits6_dig in Q. unfold isdig in Q; cbn in Q; lia. }
      apply sep_inj in H as [H1 H2]; [|apply ne..]. apply int_frac_inj in H1 as [H1 H3]; [|intros; eapply digits6_dig, firstn_in; eassumption|intros; eapply digits6_dig, firstn_in; eassumption].
      split.
      * apply DD. rewrite <- (firstn_skipn 1 (digits6 m)), <- (firstn_skipn 1 (digits6 m')), H1. f_equal. apply strip_inj; [|exact H3]. rewrite !skipn_length, !digits6_length. reflexivity.
      * injection H2 as Hs Hx. apply exp_digits_inj in Hx. destruct (0 <=? x)%Z eqn:Z1; destruct (0 <=? x')%Z eqn:Z2; try discriminate; lia.
Qed.
Lemma fmt_pos_head m x : (100000 <= m <= 999999)%Z -> fmt_pos m x <> ["0"%char] /\ forall l, fmt_pos m x <> "-"%char :: l.
Proof.
  intros Hm. destruct (digits6_head m Hm) as (c & l & D & Nc & Ll). assert (Dc : isdig c) by (apply (digits6_dig m); rewrite D; now left). assert (c <> "-"%char) by (intros ->; unfold isdig in Dc; cbn in Dc; lia).
  unfold fmt_pos. rewrite D. destruct ((0 <=? x)%Z && (x <? 6)%Z); [cbn; split; [intros [= Q _]; congruence|intros t [= Q _]; congruence]|]. destruct ((-4 <=? x)%Z && (x <? 0)%Z); [|cbn; split; [intros [= Q _]; congruence|intros t [= Q _]; congruence]].
  split; [|discriminate]. intros [= Q]. unfold frac in Q. destruct (strip _) eqn:E; [|discriminate]. apply Nc, (strip_nil _ E). apply in_or_app. right. now left.
Qed.
Lemma gv_inj m x m' x' : (100000 <= m <= 999999)%Z -> (100000 <= m' <= 999999)%Z -> IZR m * powerRZ 10 (x - 5) = IZR m' * powerRZ 10 (x' - 5) -> m = m' /\ x = x'.
Proof.
  assert (G : forall m x m' x', (100000 <= m <= 999999)%Z -> (100000 <= m' <= 999999)%Z -> IZR m * powerRZ 10 (x - 5) = IZR m' * powerRZ 10 (x' - 5) -> (x <= x')%Z).
  { intros a p b q Ha Hb H. destruct (Z.le_gt_cases p q) as [|C]; [assumption|exfalso]. assert (P : powerRZ 10 (q - 5) * 10 <= powerRZ 10 (p - 5)).
    { rewrite <- p10_1 at 2. rewrite <- p10_split. apply p10_mono. lia. }
    pose proof (p10_pos (q - 5)). assert (IZR 100000 <= IZR a) by (apply IZR_le; lia). assert (IZR b <= IZR 999999) by (apply IZR_le; lia). nra. }
  intros Ha Hb H. assert (x = x') by (apply Z.le_antisymm; [eapply (G m x m' x')|eapply (G m' x' m x)]; eauto). subst x'. split; [|reflexivity]. apply eq_IZR. apply (Rmult_eq_reg_r (powerRZ 10 (x - 5))); [exact H|]. pose proof (p10_pos (x - 5)). lra.
Qed.
Lemma fmt_g_spec v w : fmt_g v = fmt_g w <-> g6 v = g6 w.
Proof.
  unfold fmt_g, g6.
  assert (P : forall u, 0 < u -> exists m x, g_digits u = (m, x) /\ (100000 <= m <= 999999)%Z /\ 0 < IZR m * powerRZ 10 (x - 5)).
  { intros u Hu. destruct (g_digits u) as [m x] eqn:E. exists m, x. destruct (g_digits_spec u m x Hu E) as [Hm _]. split; [reflexivity|]. split; [exact Hm|]. apply Rmult_lt_0_compat; [apply IZR_lt; lia|apply p10_pos]. }
  destruct (Reqb v 0) eqn:V0; [apply Reqb_true in V0|apply Reqb_false in V0]; (destruct (Reqb w 0) eqn:W0; [apply Reqb_true in W0|apply Reqb_false in W0]); [tauto|..].
  - destruct (Rltb w 0) eqn:W1; [apply Rltb_true in W1; destruct (P (- w) ltac:(lra)) as (m & x & -> & Hm & Hp)|apply Rltb_false in W1; destruct (P w ltac:(lra)) as (m & x & -> & Hm & Hp)].
    + split; [discriminate|lra].
    + split; [intros Q; symmetry in Q; now apply (proj1 (fmt_pos_head m x Hm)) in Q|lra].
  - destruct (Rltb v 0) eqn:V1; [apply Rltb_true in V1; destruct (P (- v) ltac:(lra)) as (m & x & -> & Hm & Hp)|apply Rltb_false in V1; destruct (P v ltac:(lra)) as (m & x & -> & Hm & Hp)].
    + split; [discriminate|lra].
    + split; [intros Q; now apply (proj1 (fmt_pos_head m x Hm)) in Q|lra].
  - destruct (Rltb v 0) eqn:V1; [apply Rltb_true in V1; destruct (P (- v) ltac:(lra)) as (m & x & -> & Hm & Hp)|apply Rltb_false in V1; destruct (P v ltac:(lra)) as (m & x & -> & Hm & Hp)];
    (destruct (Rltb w 0) eqn:W1; [apply Rltb_true in W1; destruct (P (- w) ltac:(lra)) as (m' & x' & -> & Hm' & Hp')|apply Rltb_false in W1; destruct (P w ltac:(lra)) as (m' & x' & -> & Hm' & Hp')]).
    + split; intros Q; [injection Q as Q; destruct (fmt_pos_inj _ _ _ _ Hm Hm' Q) as [-> ->]; reflexivity|]. apply (f_equal Ropp) in Q. rewrite !Ropp_involutive in Q. destruct (gv_inj _ _ _ _ Hm Hm' Q) as [-> ->]. reflexivity.
    + split; [intros Q; symmetry in Q; now apply (proj2 (fmt_pos_head m' x' Hm')) in Q|lra].
    + split; [intros Q; now apply (proj2 (fmt_pos_head m x Hm)) in Q|lra].
    + split; intros Q; [destruct (fmt_pos_inj _ _ _ _ Hm Hm' Q) as [-> ->]; reflexivity|]. destruct (gv_inj _ _ _ _ Hm Hm' Q) as [-> ->]. reflexivity.
Qed.
Lemma fmt_g_no_underscore v : ~ In "_"%char (fmt_g v).
Proof.
  assert (G : forall m x, ~ In "_"%char (fmt_pos m x)).
  { intros m x H. apply fmt_chars in H. unfold isdig in H. destruct H as [H|[H|[H|[H|H]]]]; [cbn in H; lia|discriminate..]. }
  unfold fmt_g. intros H. destruct (Reqb v 0); [destruct H as [H|[]]; discriminate|]. destruct (Rltb v 0).
  - destruct (g_digits (- v)). destruct H as [H|H]; [discriminate|]. now apply G in H.
  - destruct (g_digits v). now apply G in H.
Qed.
Lemma join_inj l l' : (forall a, In a l -> ~ In "_"%char a) -> (forall a, In a l' -> ~ In "_"%char a) -> l <> [] -> l' <> [] -> join l = join l' -> l = l'.
Proof.
  revert l'. induction l as [|a l IH]; intros l' Hl Hl' N N' H; [congruence|]. destruct l' as [|a' l']; [congruence|].
  destruct l as [|b l], l' as [|b' l'].
  - cbn in H. now rewrite H.
  - exfalso. apply (Hl a); [now left|]. change (a = a' ++ "_"%char :: join (b' :: l')) in H. rewrite H. apply in_or_app. right. now left.
  - exfalso. apply (Hl' a'); [now left|]. change (a ++ "_"%char :: join (b :: l) = a') in H. rewrite <- H. apply in_or_app. right. now left.
  - change (a ++ "_"%char :: join (b :: l) = a' ++ "_"%char :: join (b' :: l')) in H. apply sep_inj in H as [-> H]; [|apply Hl; now left|apply Hl'; now left]. f_equal. apply IH; auto; try discriminate; intros x Hx; [apply Hl|apply Hl']; now right.
Qed.

(** * C45 *)
(** Two hypotheses of the same model have the same sample file exactly when their values agree to six significant digits. *)
Theorem C45_same_file_iff : forall root suffix vals vals', vals <> [] -> vals' <> [] ->
  (file_name root vals suffix = file_name root vals' suffix <-> map g6 vals = map g6 vals').
Proof.
  intros root suffix vs ws N N'. unfold file_name. assert (J : forall r ls, ls <> [] -> join (r :: ls) = r ++ "_"%char :: join ls) by (intros r [|a ls] H; [congruence|reflexivity]).
  assert (M : forall us : list R, us <> [] -> map fmt_g us <> []) by (intros [|u us] H; [congruence|discriminate]). split.
  - intros H. apply (f_equal list_ascii_of_string) in H. rewrite !list_ascii_of_string_of_list_ascii in H. apply app_inv_tail in H. rewrite !J in H by auto. apply app_inv_head in H. injection H as H.
    apply join_inj in H; auto; [|intros a Ha; apply in_map_iff in Ha as (v & <- & _); apply fmt_g_no_underscore..]. clear -H. revert ws H. induction vs as [|v vs IH]; intros [|w ws] H; try discriminate; [reflexivity|]. cbn in *. injection H as H1 H2. f_equal; [now apply fmt_g_spec|now apply IH].
  - intros H. f_equal. f_equal. f_equal. f_equal. clear -H. revert ws H. induction vs as [|v vs IH]; intros [|w ws] H; try discriminate; [reflexivity|]. cbn in *. injection H as H1 H2. f_equal; [now apply fmt_g_spec|now apply IH].
Qed.
Print Assumptions C45_same_file_iff.
(** hypotheses with some value that differs by more than 0.001 % have different files *)
Theorem C45_distinct_files : forall root suffix vals vals' i v w, nth_error vals i = Some v -> nth_error vals' i = Some w ->
  Rabs (v - w) > Rmax (Rabs v) (Rabs w) * / 100000 -> file_name root vals suffix <> file_name root vals' suffix.
Proof.
  intros root suffix vs ws i v w Hv Hw D H. apply C45_same_file_iff in H; [|intros ->; destruct i; discriminate|intros ->; destruct i; discriminate].
  assert (E : g6 v = g6 w). { apply (f_equal (fun l => nth_error l i)) in H. rewrite !nth_error_map, Hv, Hw in H. cbn in H. now injection H. }
  pose proof (g6_err v) as A. pose proof (g6_err w) as B. rewrite E in A. assert (T : Rabs (v - w) <= Rabs (v - g6 w) + Rabs (w - g6 w)).
  { replace (v - w) with ((v - g6 w) - (w - g6 w)) by ring. eapply Rle_trans; [apply Rabs_triang|]. rewrite Rabs_Ropp. lra. }
  pose proof (Rmax_l (Rabs v) (Rabs w)). pose proof (Rmax_r (Rabs v) (Rabs w)). lra.
Qed.
Print Assumptions C45_distinct_files.
Lemma g6_near_one v : 1 <= v < 1 + / 1000000 -> g6 v = 1.
Proof.
  intros H. unfold g6. rewrite (proj2 (Reqb_false v 0)), (proj2 (Rltb_false v 0)) by lra.
  assert (E : dec_exp v = 0%Z).
  { pose proof (dec_exp_spec v ltac:(lra)) as [A B]. destruct (Z.lt_trichotomy (dec_exp v) 0) as [C|[C|C]]; [exfalso|exact C|exfalso].
    - assert (P : powerRZ 10 (dec_exp v + 1) <= powerRZ 10 0) by (apply p10_mono; lia). change (powerRZ 10 0) with 1 in P. lra.
    - assert (P : powerRZ 10 1 <= powerRZ 10 (dec_exp v)) by (apply p10_mono; lia). rewrite p10_1 in P. lra. }
  unfold g_digits. rewrite E. pose proof p10_m5 as P5. rewrite P5.
  assert (rne (v / / 100000) = 100000%Z) as ->. { apply rne_eq. unfold Rdiv. rewrite Rinv_inv. rewrite Rabs_pos_eq; lra. }
  change (100000 =? 1000000)%Z with false. cbv iota. rewrite P5. lra.
Qed.
(** the hypotheses 1 and 1.0000005 share their file: the samples of the first are used for the second *)
Theorem C45_collision_refuted : forall root suffix, exists v w, v <> w /\ file_name root [v] suffix = file_name root [w] suffix.
Proof.
  intros root suffix. exists 1, (1 + / 2000000). split; [lra|]. apply C45_same_file_iff; try discriminate. cbn. now rewrite !g6_near_one by lra.
Qed.
Print Assumptions C45_collision_refuted.
(** examples of '%g': 1 and 0.5 *)
Example C45_nonvacuous : fmt_pos 100000 0 = ["1"%char] /\ fmt_pos 500000 (-1) = list_ascii_of_string "0.5" /\ fmt_pos 123456 7 = list_ascii_of_string "1.23456e+07" /\
  fmt_pos 100000 5 = list_ascii_of_string "100000" /\ fmt_pos 123000 (-5) = list_ascii_of_string "1.23e-05" /\ file_name "toys" [1; 1] ".npy" = "toys_1_1.npy"%string.
Proof.
  repeat split; try reflexivity. assert (E : fmt_g 1 = ["1"%char]).
  { unfold fmt_g. rewrite (proj2 (Reqb_false 1 0)), (proj2 (Rltb_false 1 0)) by lra. pose proof (g6_near_one 1 ltac:(lra)) as G. unfold g6 in G. rewrite (proj2 (Reqb_false 1 0)), (proj2 (Rltb_false 1 0)) in G by lra.
    destruct (g_digits 1) as [m x] eqn:D. destruct (g_digits_spec 1 m x ltac:(lra) D) as [Hm _]. destruct (gv_inj m x 100000 0 Hm ltac:(lia)) as [-> ->]; [rewrite G, p10_m5; lra|reflexivity]. }
  unfold file_name. cbn [map]. rewrite E. reflexivity.
Qed.
