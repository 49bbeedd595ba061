(** C99: rows of the validation file (convert_ws.py:520-526); C100: bin specifications (convert_ws.py:113-131). *)
From Coq Require Import Sorted.
From Verif Require Import Py PyFacts Base Expressions Norms Sample Channels Params Core UtilTools UtilFacts ConvertWs ConvertBins.
Local Open Scope string_scope.
Local Open Scope list_scope.
Local Open Scope R_scope.

(** * C99: the rows of the samples that are in the model *)
Fixpoint kept_rows {A} (zero : list bool) (rows : list A) : list A :=
  match zero, rows with
  | z :: zero', r :: rows' => if z then kept_rows zero' rows' else r :: kept_rows zero' rows'
  | _, _ => []
  end.
Definition count (l : list bool) : nat := length (filter (fun b => b) l).

Lemma drop_none {A} zero : count zero = 0%nat -> forall i (rows : list A), drop_rows zero i rows = rows.
Proof. induction zero as [|z zero IH]; intros H i rows; [reflexivity|]. unfold count in H. cbn in H. destruct z; [discriminate|]. cbn. now apply IH. Qed.
Lemma kept_none {A} zero : count zero = 0%nat -> forall rows : list A, length rows = length zero -> kept_rows zero rows = rows.
Proof. induction zero as [|z zero IH]; intros H [|r rows] L; try discriminate; [reflexivity|]. unfold count in H. cbn in H. destruct z; [discriminate|]. cbn. f_equal. apply IH; [exact H|now injection L]. Qed.
Lemma drop_row_app {A} (pre : list A) r post : drop_row (length pre) (pre ++ r :: post) = pre ++ post.
Proof. unfold drop_row. rewrite firstn_app, firstn_all, Nat.sub_diag. cbn [firstn]. rewrite app_nil_r. f_equal. rewrite skipn_app. rewrite skipn_all2 by lia. replace (S (length pre) - length pre)%nat with 1%nat by lia. reflexivity. Qed.
(** what is before the position is not touched *)
Lemma drop_keeps {A} zero : forall i j (rows : list A) x, (j < i)%nat -> nth_error rows j = Some x -> nth_error (drop_rows zero i rows) j = Some x.
Proof.
  induction zero as [|z zero IH]; intros i j rows x Hj Hx; [exact Hx|]. cbn. apply IH; [lia|]. destruct z; [|exact Hx]. unfold drop_row.
  assert (j < length rows)%nat by (apply nth_error_Some; congruence). rewrite nth_error_app1 by (rewrite firstn_length; lia). rewrite <- Hx. clear -Hj. revert i Hj. induction j as [|j IH] in rows |- *; intros i Hj.
  - destruct i; [lia|]. destruct rows; reflexivity.
  - destruct i; [lia|]. destruct rows; [reflexivity|]. cbn. apply IH. lia.
Qed.
Lemma drop_split {A} zero : forall (pre rows : list A), length rows = length zero -> (count zero <= 1)%nat -> drop_rows zero (length pre) (pre ++ rows) = pre ++ kept_rows zero rows.
Proof.
  induction zero as [|z zero IH]; intros pre [|r rows] L C; try discriminate; [reflexivity|]. injection L as L. unfold count in C. cbn in C. cbn [drop_rows kept_rows]. destruct z.
  - rewrite drop_row_app. cbn in C. rewrite drop_none by (unfold count; lia). now rewrite kept_none by (try exact L; unfold count; lia).
  - assert (E : S (length pre) = length (pre ++ [r])) by (rewrite app_length; cbn; lia). rewrite E. change (pre ++ r :: rows) with (pre ++ [r] ++ rows). rewrite app_assoc, IH by assumption. now rewrite <- app_assoc.
Qed.
(** With at most one sample without yields, the rows are those of the samples that are kept. *)
Theorem C99_rows_of_kept_samples {A} zero (rows : list A) : length rows = length zero -> (count zero <= 1)%nat -> drop_rows zero 0 rows = kept_rows zero rows.
Proof. intros L C. apply (drop_split zero [] rows L C). Qed.
Print Assumptions C99_rows_of_kept_samples.

(** With more than one, they never are: the second one is taken out at a position that has moved. *)
Lemma kept_in {A} zero : forall (rows : list A) x, In x (kept_rows zero rows) -> In x rows.
Proof. induction zero as [|z zero IH]; intros [|r rows] x H; try contradiction; cbn in H. destruct z; [right; now apply IH|]. destruct H as [<-|H]; [now left|right; now apply IH]. Qed.
Lemma kept_at {A} zero : forall (rows : list A) j x, NoDup rows -> nth_error zero j = Some true -> nth_error rows j = Some x -> ~ In x (kept_rows zero rows).
Proof.
  induction zero as [|z zero IH]; intros [|r rows] j x ND Hz Hx; try (destruct j; discriminate). inversion ND; subst. destruct j as [|j]; cbn in Hz, Hx.
  - injection Hz as ->. injection Hx as ->. cbn. intros X. now apply kept_in in X.
  - assert (In x rows) by (eapply nth_error_In; exact Hx). cbn. destruct z; [now apply (IH rows j)|]. intros [->|X]; [contradiction|]. revert X. now apply (IH rows j).
Qed.
Lemma two_dropped {A} zero : forall (pre rows : list A), length rows = length zero -> (2 <= count zero)%nat ->
  exists j x, nth_error zero j = Some true /\ nth_error rows j = Some x /\ In x (drop_rows zero (length pre) (pre ++ rows)).
Proof.
  (* after one row has been taken out *)
  assert (G : forall zero (pre rows : list A) i, length rows = length zero -> i = S (length pre) -> (1 <= count zero)%nat ->
    exists j x, nth_error zero j = Some true /\ nth_error rows j = Some x /\ In x (drop_rows zero i (pre ++ rows))).
  { induction zero0 as [|z zero0 IH]; intros pre [|r rows] i L E C; try discriminate; [unfold count in C; cbn in C; lia|]. injection L as L. destruct z.
    - exists 0%nat, r. split; [reflexivity|]. split; [reflexivity|]. cbn [drop_rows]. apply (nth_error_In _ (length pre)). apply drop_keeps; [lia|]. unfold drop_row. rewrite nth_error_app1 by (rewrite firstn_length, app_length; cbn; lia).
      rewrite firstn_app. replace (i - length pre)%nat with 1%nat by lia. cbn [firstn]. rewrite firstn_all2 by lia. rewrite nth_error_app2 by lia. rewrite Nat.sub_diag. reflexivity.
    - destruct (IH (pre ++ [r]) rows (S i) L) as (j & x & H1 & H2 & H3); [rewrite app_length; cbn; lia|exact C|]. exists (S j), x. split; [exact H1|]. split; [exact H2|]. cbn [drop_rows]. rewrite <- app_assoc in H3. exact H3. }
  induction zero as [|z zero IH]; intros pre [|r rows] L C; try discriminate; [unfold count in C; cbn in C; lia|]. injection L as L. unfold count in C. cbn in C. destruct z.
  - cbn in C. destruct (G zero pre rows (S (length pre)) L eq_refl) as (j & x & H1 & H2 & H3); [unfold count; lia|]. exists (S j), x. split; [exact H1|]. split; [exact H2|]. cbn [drop_rows]. now rewrite drop_row_app.
  - destruct (IH (pre ++ [r]) rows L C) as (j & x & H1 & H2 & H3). exists (S j), x. split; [exact H1|]. split; [exact H2|]. cbn [drop_rows]. rewrite app_length in H3. cbn in H3. rewrite Nat.add_1_r, <- app_assoc in H3. exact H3.
Qed.
Theorem C99_two_empty_samples_refuted {A} zero (rows : list A) : NoDup rows -> length rows = length zero -> (2 <= count zero)%nat ->
  exists j x, nth_error zero j = Some true /\ nth_error rows j = Some x /\ In x (drop_rows zero 0 rows) /\ ~ In x (kept_rows zero rows).
Proof.
  intros ND L C. destruct (two_dropped zero [] rows L C) as (j & x & H1 & H2 & H3). exists j, x. split; [exact H1|]. split; [exact H2|]. split; [exact H3|]. now apply (kept_at zero rows j).
Qed.
Print Assumptions C99_two_empty_samples_refuted.
Example C99_nonvacuous : drop_rows [false; true; false] 0 [1; 2; 3]%nat = [1; 3]%nat /\ kept_rows [true; true; false] [1; 2; 3]%nat = [3]%nat /\ drop_rows [true; true; false] 0 [1; 2; 3]%nat = [2]%nat.
Proof. repeat split; reflexivity. Qed.

(** * C100: bin edges *)
(** a specification as it is written *)
Record Written := mkWritten { x_lo : string; x_hi : string; x_n : string; x_plus : bool; x_log : bool }.
Definition write_spec (w : Written) : string := join ":" ([x_lo w; x_hi w; if x_plus w then (x_n w ++ "+")%string else x_n w] ++ (if x_log w then ["log"] else [])).
Definition clean (s : string) : Prop := free_of ":" s /\ free_of "~" s.
Definition reads (pf : string -> option R) (pi : string -> option Z) (w : Written) (b : BinSpec) : Prop :=
  clean (x_lo w) /\ clean (x_hi w) /\ clean (x_n w) /\ (exists i c, last_char (x_n w) = Some (c, i) /\ c <> "+"%char) /\
  pf (x_lo w) = Some (b_lo b) /\ pf (x_hi w) = Some (b_hi b) /\ pi (x_n w) = Some (Z.of_nat (b_n b)) /\ x_plus w = b_last b /\ x_log w = b_log b.
Lemma last_char_snoc s c : last_char (s ++ String c "")%string = Some (c, s).
Proof. induction s as [|a s IH]; [reflexivity|]. cbn. now rewrite IH. Qed.
Lemma read_spec pf pi w b : reads pf pi w b -> parse_spec pf pi (write_spec w) = Ok b.
Proof.
  intros ((C1 & _) & (C2 & _) & (C3 & _) & (i & c & L1 & L2) & P1 & P2 & P3 & P4 & P5). unfold parse_spec, write_spec.
  assert (Cn : free_of ":" (if x_plus w then (x_n w ++ "+")%string else x_n w)) by (destruct (x_plus w); [apply free_app; [exact C3|split; [discriminate|exact Logic.I]]|exact C3]).
  rewrite split_join; [|discriminate|].
  - cbn [app]. assert (EL : exists c' i', last_char (if x_plus w then (x_n w ++ "+")%string else x_n w) = Some (c', i') /\ Ascii.eqb c' "+" = x_plus w /\ (if x_plus w then i' else if x_plus w then (x_n w ++ "+")%string else x_n w) = x_n w).
    { destruct (x_plus w); [exists "+"%char, (x_n w); split; [apply last_char_snoc|split; reflexivity]|exists c, i; split; [exact L1|split; [now apply Ascii.eqb_neq|reflexivity]]]. }
    destruct EL as (c' & i' & E1 & E2 & E3). rewrite E1, E2, E3, P1, P2, P3. assert ((Z.of_nat (b_n b) <? 0)%Z = false) as -> by (apply Z.ltb_ge; lia). rewrite Nat2Z.id, P4, P5. destruct b as [lo hi n la lg]. cbn. destruct lg; reflexivity.
  - intros s Hs. cbn in Hs. destruct Hs as [<-|[<-|[<-|Hs]]]; [exact C1|exact C2|exact Cn|]. destruct (x_log w); [|contradiction]. destruct Hs as [<-|[]]. repeat split; discriminate.
Qed.
Lemma free_join c d l : (forall s, In s l -> free_of c s) -> c <> d -> free_of c (join d l).
Proof.
  intros H Hd. induction l as [|s l IH]; [exact Logic.I|]. destruct l as [|s2 l]; [apply H; now left|]. change (join d (s :: s2 :: l)) with (s ++ String d (join d (s2 :: l)))%string.
  apply free_app; [apply H; now left|]. split; [congruence|]. apply IH. intros; apply H; now right.
Qed.
(** What is written is what is used: the edges are those of the specifications, in order. *)
Theorem C100_binning_read pf pi ws bs es : ws <> [] -> Forall2 (reads pf pi) ws bs -> mapM edges bs = Ok es ->
  parse_binning pf pi (join "~" (map write_spec ws)) = Ok (concat es).
Proof.
  intros Hn HR HE. unfold parse_binning. rewrite split_join.
  - assert (G : forall acc, foldM (fun bins sp => let! b := parse_spec pf pi sp in let! l := edges b in Ok (bins ++ l)) (map write_spec ws) acc = Ok (acc ++ concat es)); [|now rewrite G].
    clear Hn. revert es HE. induction HR as [|w b ws bs Hw HR IH]; intros es HE acc; cbn in HE.
    + injection HE as <-. cbn. now rewrite app_nil_r.
    + destruct (edges b) as [l|] eqn:E; [|discriminate]. cbn [bind] in HE. destruct (mapM edges bs) as [ls|]; [|discriminate]. injection HE as <-.
      cbn [map foldM]. rewrite (read_spec _ _ _ _ Hw). cbn [bind]. rewrite E. cbn [bind]. rewrite (IH ls eq_refl). cbn. now rewrite app_assoc.
  - destruct ws; [contradiction|discriminate].
  - intros s Hs. apply in_map_iff in Hs. destruct Hs as (w & <- & Hw). assert (exists b, reads pf pi w b) as (b & Hb).
    { clear -HR Hw. induction HR as [|w' b ws bs H HR IH]; [contradiction|]. destruct Hw as [<-|Hw]; eauto. }
    destruct Hb as ((_ & D1) & (_ & D2) & (_ & D3) & _). unfold write_spec. apply free_join; [|discriminate]. intros s Hs. cbn in Hs. destruct Hs as [<-|[<-|[<-|Hs]]]; [exact D1|exact D2| |].
    + destruct (x_plus w); [apply free_app; [exact D3|split; [discriminate|exact Logic.I]]|exact D3].
    + destruct (x_log w); [|contradiction]. destruct Hs as [<-|[]]. repeat split; discriminate.
Qed.
Print Assumptions C100_binning_read.

(** The edges of one specification: equal steps; the end is reached only with '+'. *)
Theorem C100_equal_bins b l : b_log b = false -> edges b = Ok l -> (2 <= b_n b)%nat ->
  let d := if b_last b then INR (b_n b) - 1 else INR (b_n b) in
  length l = b_n b /\ length (bin_list l) = (b_n b - 1)%nat /\ nth 0 l 0 = b_lo b /\
  (forall k, (k < b_n b)%nat -> nth k l 0 = b_lo b + INR k * ((b_hi b - b_lo b) / d)) /\
  nth (b_n b - 1) l 0 = if b_last b then b_hi b else b_hi b - (b_hi b - b_lo b) / INR (b_n b).
Proof.
  intros Hl HE Hn d. unfold edges in HE. rewrite Hl in HE. injection HE as <-. set (n := b_n b) in *.
  assert (Hd : (if b_last b then INR (n - 1) else INR n) = d) by (unfold d; destruct (b_last b); [rewrite minus_INR by lia; reflexivity|reflexivity]).
  assert (LL : length (linspace (b_lo b) (b_hi b) n (b_last b)) = n) by (unfold linspace; rewrite map_length, seq_length; reflexivity).
  assert (N : forall k, (k < n)%nat -> nth k (linspace (b_lo b) (b_hi b) n (b_last b)) 0 = b_lo b + INR k * ((b_hi b - b_lo b) / d)).
  { intros k Hk. unfold linspace. rewrite Hd. rewrite (nth_indep _ 0 ((fun k => b_lo b + INR k * ((b_hi b - b_lo b) / d)) 0%nat)) by (rewrite map_length, seq_length; exact Hk).
    rewrite (map_nth (fun k => b_lo b + INR k * ((b_hi b - b_lo b) / d))). rewrite seq_nth by exact Hk. reflexivity. }
  assert (HN : 2 <= INR n) by (apply (le_INR 2) in Hn; cbn in Hn; lra).
  split; [exact LL|]. split; [|split; [|split]].
  - assert (Q : forall l : list R, length (bin_list l) = (length l - 1)%nat).
    { induction l as [|a l IH]; [reflexivity|]. destruct l as [|a2 l]; [reflexivity|]. change (bin_list (a :: a2 :: l)) with ((a, a2) :: bin_list (a2 :: l)). cbn [length] in *. rewrite IH. lia. }
    rewrite Q, LL. reflexivity.
  - rewrite N by lia. cbn. ring.
  - exact N.
  - rewrite N by lia. rewrite minus_INR by lia. unfold d. cbn [INR]. destruct (b_last b); field; lra.
Qed.
Print Assumptions C100_equal_bins.

(** "xmin:xmax:n" does not give n bins from xmin to xmax. *)
Theorem C100_last_bin_missing_refuted : exists l, edges (mkBin 0 10 5 false false) = Ok l /\ length (bin_list l) = 4%nat /\ (forall x, In x l -> x <= 8).
Proof.
  eexists. split; [reflexivity|]. split; [reflexivity|]. intros x Hx. unfold linspace in Hx. apply in_map_iff in Hx. destruct Hx as (k & <- & Hk). apply in_seq in Hk. cbn [b_lo b_hi b_n b_last] in *.
  assert (Hk4 : (k <= 4)%nat) by lia. apply le_INR in Hk4. replace (INR 4) with 4 in Hk4 by (simpl; lra). replace (INR 5) with 5 by (simpl; lra).
  replace (0 + INR k * ((10 - 0) / 5)) with (2 * INR k) by field. lra.
Qed.
Print Assumptions C100_last_bin_missing_refuted.

(** Consecutive ranges, the last one with '+': the edges increase, from the start of the first range to the end of the last one, and
    include the end of every range. *)
Fixpoint chain (lo : R) (l : list (R * nat)) : list BinSpec :=
  match l with [] => [] | [(hi, n)] => [mkBin lo hi n true false] | (hi, n) :: l' => mkBin lo hi n false false :: chain hi l' end.
Fixpoint increasing (lo : R) (l : list (R * nat)) : Prop :=
  match l with [] => False | [(hi, n)] => lo < hi /\ (2 <= n)%nat | (hi, n) :: l' => lo < hi /\ (1 <= n)%nat /\ increasing hi l' end.
Definition top (lo : R) (l : list (R * nat)) : R := fst (last l (lo, 0%nat)).
Definition total (l : list (R * nat)) : nat := fold_right (fun x n => (snd x + n)%nat) 0%nat l.
Lemma steps_sorted lo st n : 0 < st -> forall a, StronglySorted Rlt (map (fun k => lo + INR k * st) (seq a n)).
Proof.
  intros Hs. induction n as [|n IH]; intros a; cbn; [constructor|]. constructor; [apply IH|]. apply Forall_forall. intros x Hx. apply in_map_iff in Hx. destruct Hx as (k & <- & Hk). apply in_seq in Hk.
  assert (INR a < INR k) by (apply lt_INR; lia). assert (INR a * st < INR k * st) by (apply Rmult_lt_compat_r; assumption). lra.
Qed.
Lemma sorted_app (l m : list R) c : StronglySorted Rlt l -> StronglySorted Rlt m -> (forall x, In x l -> x < c) -> (forall x, In x m -> c <= x) -> StronglySorted Rlt (l ++ m).
Proof.
  intros Hl Hm H1 H2. induction Hl as [|a l Hl IH HF]; [exact Hm|]. cbn. constructor; [apply IH; intros; apply H1; now right|]. apply Forall_app. split; [exact HF|]. apply Forall_forall. intros x Hx.
  specialize (H1 a (or_introl eq_refl)). specialize (H2 x Hx). lra.
Qed.
Lemma last_app_ne {A} (l m : list A) d : m <> [] -> last (l ++ m) d = last m d.
Proof. intros H. induction l as [|a l IH]; [reflexivity|]. cbn. destruct (l ++ m) eqn:E; [destruct l; [contradiction|discriminate]|exact IH]. Qed.
Lemma last_default {A} (l : list A) : forall a d d', last (a :: l) d = last (a :: l) d'.
Proof. induction l as [|b l IH]; intros a d d'; [reflexivity|]. change (last (b :: l) d = last (b :: l) d'). apply IH. Qed.
Theorem C100_contiguous_ranges lo l : increasing lo l ->
  exists es, mapM edges (chain lo l) = Ok es /\ StronglySorted Rlt (concat es) /\ length (concat es) = total l /\ length (bin_list (concat es)) = (total l - 1)%nat /\
    nth 0 (concat es) 0 = lo /\ last (concat es) 0 = top lo l /\ forall hi n, In (hi, n) l -> In hi (concat es).
Proof.
  assert (Q : forall l : list R, length (bin_list l) = (length l - 1)%nat).
  { induction l0 as [|a l0 IH]; [reflexivity|]. destruct l0 as [|a2 l0]; [reflexivity|]. change (bin_list (a :: a2 :: l0)) with ((a, a2) :: bin_list (a2 :: l0)). cbn [length] in *. rewrite IH. lia. }
  intros H. assert (G : exists es, mapM edges (chain lo l) = Ok es /\ StronglySorted Rlt (concat es) /\ length (concat es) = total l /\
    nth 0 (concat es) 0 = lo /\ last (concat es) 0 = top lo l /\ (forall hi n, In (hi, n) l -> In hi (concat es)) /\ (forall x, In x (concat es) -> lo <= x) /\ concat es <> []).
  2: { destruct G as (es & G1 & G2 & G3 & G4 & G5 & G6 & _). exists es. split; [exact G1|]. split; [exact G2|]. split; [exact G3|]. split; [rewrite Q, G3; reflexivity|]. split; [exact G4|]. split; [exact G5|exact G6]. }
  revert lo H. induction l as [|(hi, n) l IH]; intros lo H; [contradiction|]. destruct l as [|p l].
  - destruct H as (H1 & H2). cbn [chain mapM edges b_log]. eexists. split; [reflexivity|]. cbn [concat b_lo b_hi b_n b_last]. rewrite app_nil_r.
    assert (HN : 1 <= INR (n - 1)) by (replace 1 with (INR 1) by reflexivity; apply le_INR; lia). assert (Hs : 0 < (hi - lo) / INR (n - 1)) by (apply Rdiv_lt_0_compat; lra).
    assert (HL : In hi (linspace lo hi n true)).
    { unfold linspace. apply in_map_iff. exists (n - 1)%nat. split; [field; lra|apply in_seq; lia]. }
    split; [unfold linspace; now apply steps_sorted|]. split; [unfold linspace, total; cbn; rewrite map_length, seq_length; lia|]. split; [destruct n; [lia|]; unfold linspace; cbn; ring|]. split.
    + unfold top, linspace. cbn [last fst]. assert (ES : seq 0 n = seq 0 (n - 1) ++ [(n - 1)%nat]) by (replace n with (S (n - 1)) at 1 by lia; now rewrite seq_S). rewrite ES, map_app. cbn [map]. rewrite last_last. field. lra.
    + split; [intros hi' n' [X|[]]; injection X as <- <-; exact HL|]. split; [|destruct (linspace lo hi n true); [contradiction|discriminate]].
      intros x Hx. unfold linspace in Hx. apply in_map_iff in Hx. destruct Hx as (k & <- & _). assert (0 <= INR k * ((hi - lo) / INR (n - 1))) by (apply Rmult_le_pos; [apply pos_INR|lra]). lra.
  - cbn [increasing] in H. destruct H as (H1 & H2 & H3). destruct (IH hi H3) as (es & E1 & E2 & E3 & E4 & E5 & E6 & E7 & E8). clear IH.
    change (chain lo ((hi, n) :: p :: l)) with (mkBin lo hi n false false :: chain hi (p :: l)). cbn [mapM]. unfold edges at 1. cbn [b_log b_lo b_hi b_n b_last bind]. rewrite E1. cbn [bind].
    eexists. split; [reflexivity|]. cbn [concat].
    assert (HN : 1 <= INR n) by (replace 1 with (INR 1) by reflexivity; apply le_INR; lia). assert (Hs : 0 < (hi - lo) / INR n) by (apply Rdiv_lt_0_compat; lra).
    assert (B : forall x, In x (linspace lo hi n false) -> lo <= x < hi).
    { intros x Hx. unfold linspace in Hx. apply in_map_iff in Hx. destruct Hx as (k & <- & Hk). apply in_seq in Hk. assert (0 <= INR k * ((hi - lo) / INR n)) by (apply Rmult_le_pos; [apply pos_INR|lra]). split; [lra|].
      assert (INR k < INR n) by (apply lt_INR; lia). assert (INR k * ((hi - lo) / INR n) < INR n * ((hi - lo) / INR n)) by (apply Rmult_lt_compat_r; assumption). replace (INR n * ((hi - lo) / INR n)) with (hi - lo) in H4 by (field; lra). lra. }
    split; [apply (sorted_app _ _ hi); [unfold linspace; now apply steps_sorted|exact E2|intros x Hx; now apply B|exact E7]|].
    split; [rewrite app_length, E3; unfold linspace, total; rewrite map_length, seq_length; reflexivity|].
    split; [destruct n; [lia|]; unfold linspace; cbn; ring|]. split; [rewrite last_app_ne by exact E8; rewrite E5; unfold top; f_equal; change (last ((hi, n) :: p :: l) (lo, 0%nat)) with (last (p :: l) (lo, 0%nat)); apply last_default|]. split; [|split].
    + intros hi' n' [X|Hin]; apply in_or_app; right; [injection X as <- <-|now apply (E6 hi' n')]. destruct (concat es) as [|x0 xs]; [contradiction|]. cbn in E4. left. exact E4.
    + intros x Hx. apply in_app_or in Hx. destruct Hx as [Hx|Hx]; [apply B in Hx; lra|apply E7 in Hx; lra].
    + intros X. apply app_eq_nil in X. destruct X as (_ & X). contradiction.
Qed.
Print Assumptions C100_contiguous_ranges.

(** Logarithmic bins: the ratio of consecutive edges is constant; a start of one is refused. *)
Theorem C100_log_bins b l : b_log b = true -> edges b = Ok l -> (2 <= b_n b)%nat ->
  let d := if b_last b then INR (b_n b) - 1 else INR (b_n b) in
  length l = b_n b /\ nth 0 l 0 = b_lo b /\ (forall k, (S k < b_n b)%nat -> nth (S k) l 0 = nth k l 0 * Rpower (b_hi b / b_lo b) (/ d)) /\
  (b_last b = true -> nth (b_n b - 1) l 0 = b_hi b).
Proof.
  intros Hl HE Hn d. unfold edges in HE. rewrite Hl in HE. destruct (_ || _)%bool eqn:E; [discriminate|]. apply orb_false_iff in E. destruct E as (E & E3). apply orb_false_iff in E. destruct E as (E1 & E2).
  apply Rleb_false in E1, E2. apply Reqb_false in E3. injection HE as <-. set (n := b_n b) in *. set (lo := b_lo b) in *. set (hi := b_hi b) in *.
  assert (Hd : (if b_last b then INR (n - 1) else INR n) = d) by (unfold d; destruct (b_last b); [rewrite minus_INR by lia; reflexivity|reflexivity]).
  assert (HN : 2 <= INR n) by (apply (le_INR 2) in Hn; cbn in Hn; lra). assert (Hd0 : 1 <= d) by (unfold d; destruct (b_last b); lra).
  assert (Hln : ln lo <> 0) by (intros X; apply E3; rewrite <- ln_1 in X; apply ln_inv in X; lra).
  set (L := ln hi / ln lo) in *.
  assert (N : forall k, (k < n)%nat -> nth k (map (fun x => Rpower lo x) (linspace 1 L n (b_last b))) 0 = Rpower lo (1 + INR k * ((L - 1) / d))).
  { intros k Hk. unfold linspace. rewrite Hd, map_map. rewrite (nth_indep _ 0 ((fun k => Rpower lo (1 + INR k * ((L - 1) / d))) 0%nat)) by (rewrite map_length, seq_length; exact Hk).
    rewrite (map_nth (fun k => Rpower lo (1 + INR k * ((L - 1) / d)))). rewrite seq_nth by exact Hk. reflexivity. }
  split; [unfold linspace; now rewrite !map_length, seq_length|]. split; [|split].
  - rewrite N by lia. cbn [INR]. replace (1 + 0 * ((L - 1) / d)) with 1 by ring. apply Rpower_1. exact E1.
  - intros k Hk. rewrite !N by lia. rewrite S_INR. unfold Rpower. rewrite <- exp_plus. f_equal. assert (HL : ln (hi / lo) = ln hi - ln lo) by (unfold Rdiv; rewrite ln_mult, ln_Rinv by (try assumption; now apply Rinv_0_lt_compat); ring). rewrite HL. unfold L. field. split; [lra|exact Hln].
  - intros Hlast. rewrite N by lia. rewrite minus_INR by lia. unfold d. rewrite Hlast. cbn [INR]. unfold Rpower. transitivity (exp (ln hi)); [f_equal|apply exp_ln; exact E2]. unfold L. field. split; [exact Hln|lra].
Qed.
Print Assumptions C100_log_bins.
Theorem C100_log_from_one_rejected b : b_log b = true -> b_lo b = 1 -> edges b = Err ValueError.
Proof. intros H1 H2. unfold edges. rewrite H1, H2. rewrite (proj2 (Reqb_true 1 1) eq_refl), orb_true_r. reflexivity. Qed.
Print Assumptions C100_log_from_one_rejected.
Example C100_nonvacuous : increasing 100 [(150, 5%nat); (200, 3%nat)] /\ (exists l, edges (mkBin 100 400 3 true true) = Ok l) /\
  write_spec (mkWritten "100" "150" "5" true false) = "100:150:5+" /\
  reads (fun s => if String.eqb s "100" then Some 100 else Some 150) (fun s => Some 5%Z) (mkWritten "100" "150" "5" true false) (mkBin 100 150 5 true false).
Proof.
  split; [cbn; repeat split; try lra; lia|]. split; [|split; [reflexivity|]].
  - unfold edges. cbn [b_log b_lo b_hi b_n b_last]. rewrite (proj2 (Rleb_false 100 0)), (proj2 (Rleb_false 400 0)), (proj2 (Reqb_false 100 1)) by lra. cbn. eauto.
  - unfold reads, clean. cbn. repeat split; try discriminate. exists "", "5"%char. split; [reflexivity|discriminate].
Qed.
