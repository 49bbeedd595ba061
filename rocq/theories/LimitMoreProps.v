(** C90 (names of the bands) and C93 (integer logarithmic positions). *)
From Verif Require Import Py PyFacts Base Expressions Norms Sample Channels Params Core PoiMin UtilTools UtilFacts LimitTools LimitToolsProps LimitOptProps.
Local Open Scope string_scope.
Local Open Scope list_scope.
Local Open Scope R_scope.

Lemma seq_shift_by k n : map (Nat.add k) (seq 0 n) = seq k n.
Proof.
  revert k. induction n as [|n IH]; intros k; [reflexivity|]. cbn [seq map]. rewrite Nat.add_0_r. f_equal. rewrite <- (IH (S k)), <- seq_shift, map_map. apply map_ext. intros; lia.
Qed.
(** C90: with n bands the keys looked for are, in order, key_expected_band_-n ... key_expected_band_-1,
    key_expected_band_+0, key_expected_band_+1 ... key_expected_band_+n. *)
Theorem C90_band_keys : forall dec key n,
  map (band_key dec key) (band_ids n) =
  map (fun i => (key ++ "_expected_band_-" ++ dec (S i))%string) (rev (seq 0 n)) ++ map (fun i => (key ++ "_expected_band_+" ++ dec i)%string) (seq 0 (S n)).
Proof.
  intros dec key n. unfold band_ids. replace (2 * n + 1)%nat with (n + S n)%nat by lia. rewrite seq_app, !map_app, !map_map. f_equal.
  - apply nth_ext with (d := ""%string) (d' := ""%string); [now rewrite !map_length, rev_length|]. intros i Hi. rewrite map_length, seq_length in Hi.
    rewrite (nth_indep _ ""%string (band_key dec key (Z.of_nat 0 - Z.of_nat n)%Z)) by (rewrite map_length, seq_length; exact Hi).
    rewrite (map_nth (fun x => band_key dec key (Z.of_nat x - Z.of_nat n)%Z)), seq_nth by exact Hi.
    rewrite (nth_indep _ ""%string ((fun i => (key ++ "_expected_band_-" ++ dec (S i))%string) 0%nat)) by (rewrite map_length, rev_length, seq_length; exact Hi).
    rewrite (map_nth (fun i => (key ++ "_expected_band_-" ++ dec (S i))%string)), rev_nth by (rewrite seq_length; exact Hi). rewrite seq_length, seq_nth by lia. cbn [Nat.add].
    unfold band_key. destruct (Z.ltb_spec (Z.of_nat i - Z.of_nat n) 0); [|lia]. replace (Z.to_nat (Z.abs (Z.of_nat i - Z.of_nat n))) with (S (n - S i)) by lia. reflexivity.
  - cbn [Nat.add]. rewrite <- (seq_shift_by n (S n)). rewrite map_map. apply map_ext. intros i. unfold band_key. destruct (Z.ltb_spec (Z.of_nat (n + i) - Z.of_nat n) 0); [lia|].
    replace (Z.to_nat (Z.abs (Z.of_nat (n + i) - Z.of_nat n))) with i by lia. reflexivity.
Qed.
Print Assumptions C90_band_keys.

Lemma floor_spec x : IZR (Int_part x) <= x < IZR (Int_part x) + 1.
Proof. destruct (base_Int_part x). lra. Qed.
Lemma midpoints_length l : length (midpoints l) = pred (length l).
Proof. induction l as [|x [|y l] IH]; [reflexivity|reflexivity|]. change (midpoints (x :: y :: l)) with (pfloor ((x + y + 1) / 2) :: midpoints (y :: l)). cbn [length pred] in *. now rewrite IH. Qed.
Lemma nth_midpoints l : forall i, (S i < length l)%nat -> nth i (midpoints l) 0%Z = pfloor ((nth i l 0 + nth (S i) l 0 + 1) / 2).
Proof.
  induction l as [|x [|y l] IH]; intros i Hi; cbn [length] in Hi; [lia|lia|]. change (midpoints (x :: y :: l)) with (pfloor ((x + y + 1) / 2) :: midpoints (y :: l)).
  destruct i as [|i]; [reflexivity|]. cbn [nth]. rewrite (IH i) by (cbn [length]; lia). reflexivity.
Qed.
(** C93: vmin:vmax:nvals:logint: nvals integers, the i-th one being the middle of the i-th of nvals intervals in geometric
    progression between vmin and vmax, rounded to the closest integer (upwards if it is half-way). *)
Theorem C93_logint_positions : forall pf pi a b n x y k, free_of ":" a -> free_of ":" b -> free_of ":" n -> pf a = Some x -> pf b = Some y -> pi n = Some (Z.of_nat k) ->
  0 < x -> 0 < y -> x <> 1 -> (0 < k)%nat ->
  exists l, positions pf pi (a ++ ":" ++ b ++ ":" ++ n ++ ":logint")%string = Ok (map PInt l) /\ length l = k /\
    forall i, (i < k)%nat -> let edge := fun j => x * Rpower (y / x) (INR j / INR k) in
      IZR (nth i l 0%Z) - 1 / 2 <= (edge i + edge (S i)) / 2 < IZR (nth i l 0%Z) + 1 / 2.
Proof.
  intros pf pi a b n x y k Ha Hb Hn Hx Hy Hk Px Py N1 K.
  destruct (C93_log_positions pf pi a b n x y k Ha Hb Hn Hx Hy Hk Px Py N1 K) as (l & Hl & _ & _ & HN).
  assert (E : positions pf pi (a ++ ":" ++ b ++ ":" ++ n ++ ":logint")%string = Ok (map PInt (midpoints l)) /\ length l = S k).
  { revert Hl. unfold positions. change (n ++ ":log")%string with (n ++ ":" ++ "log")%string. change (n ++ ":logint")%string with (n ++ ":" ++ "logint")%string.
    rewrite !split4; try assumption; try (repeat split; discriminate). change (String.eqb "log" "int") with false. change (String.eqb "log" "log") with true.
    change (String.eqb "logint" "int") with false. change (String.eqb "logint" "log") with false. change (String.eqb "logint" "logint") with true. cbv iota. rewrite Hx, Hy, Hk.
    unfold logspace. destruct (Rleb_spec y 0) as [H|_]; [lra|]. destruct (Rleb_spec x 0) as [H|_]; [lra|]. pose proof (ln_nz x Px N1). destruct (Reqb_spec (ln x) 0) as [H'|_]; [contradiction|].
    destruct (Z.ltb_spec (Z.of_nat k + 1) 0); [lia|]. cbn [bind]. intros E. injection E as E.
    assert (El : l = map (fun e => Rpower x e) (linspace 1 (ln y / ln x) (Z.to_nat (Z.of_nat k + 1)) true)).
    { clear -E. revert E. generalize (map (fun e => Rpower x e) (linspace 1 (ln y / ln x) (Z.to_nat (Z.of_nat k + 1)) true)) as l2. revert l. induction l as [|u l IH]; intros [|v l2] E; try discriminate; [reflexivity|]. injection E as -> E. f_equal. now apply IH. }
    rewrite <- El. split; [reflexivity|]. rewrite El, map_length, linspace_length. lia. }
  destruct E as (E & L). exists (midpoints l). split; [exact E|]. split; [rewrite midpoints_length, L; reflexivity|].
  intros i Hi edge. rewrite nth_midpoints by lia. rewrite !HN by lia. fold (edge i) (edge (S i)). unfold pfloor. pose proof (floor_spec ((edge i + edge (S i) + 1) / 2)). lra.
Qed.
Print Assumptions C93_logint_positions.
Example C93_logint_nonvacuous : exists pf pi, pf "2" = Some 2 /\ pf "8" = Some 8 /\ pi "3" = Some (Z.of_nat 3) /\ free_of ":" "2" /\ 0 < 2 /\ 2 <> 1 /\
  (fun j => 2 * Rpower (8 / 2) (INR j / INR 3)) 3%nat = 8.
Proof.
  exists (fun s => if String.eqb s "2" then Some 2 else Some 8), (fun _ => Some 3%Z). repeat split; try discriminate; try lra. 
  replace (INR 3 / INR 3) with 1 by (field; apply not_0_INR; lia). rewrite Rpower_1 by lra. lra.
Qed.
