(** Property theorems C09-C13 and C65 (src/fastprof/norms.py, src/fastprof/sample.py).
    [float_of] is Python's float() on strings, [fmt] the '%+g' formatting, [inv] np.linalg.inv. *)
From Verif Require Import Py PyFacts Base Expressions Norms RSort Sample Vander SampleFacts.
Local Open Scope string_scope.
Local Open Scope list_scope.

(** C09 *)
Theorem C09_absent_norm_is_one : forall float_of d, dget "norm" d = None -> norm_instantiate float_of d = Ok (NumberNorm (Some 1)).
Proof. intros f d H. unfold norm_instantiate, load_field. rewrite H. reflexivity. Qed.
Print Assumptions C09_absent_norm_is_one.

Theorem C09_number_norm : forall float_of d v x, dget "norm" d = Some v -> jnum v = Some x ->
  norm_instantiate float_of d = Ok (NumberNorm (Some x)).
Proof.
  intros f d v x H Hx. unfold norm_instantiate, load_field. rewrite H.
  destruct v; try discriminate; cbn [negb andb existsb isinstance orb bind jnum] in *; inversion Hx; reflexivity.
Qed.
Print Assumptions C09_number_norm.

Theorem C09_null_norm_is_null_number : forall float_of d, dget "norm" d = Some JNull -> norm_instantiate float_of d = Ok (NumberNorm None).
Proof. intros f d H. unfold norm_instantiate, load_field. rewrite H. reflexivity. Qed.
Print Assumptions C09_null_norm_is_null_number.

Theorem C09_string_norm : forall float_of d s, dget "norm" d = Some (JStr s) -> float_of s = None ->
  norm_instantiate float_of d = Ok (ExprNorm s).
Proof.
  intros f d s H Hf. unfold norm_instantiate, load_field. rewrite H. cbn [negb andb existsb isinstance orb bind]. rewrite Hf. reflexivity.
Qed.
Print Assumptions C09_string_norm.

(** lists and dictionaries are rejected *)
Theorem C09_other_norm_rejected : forall float_of d v, dget "norm" d = Some v -> jnum v = None -> v <> JNull ->
  (forall s, v <> JStr s) -> norm_instantiate float_of d = Err TypeError.
Proof.
  intros f d v H Hx Hn Hs. unfold norm_instantiate, load_field. rewrite H.
  destruct v; try discriminate; try contradiction; try reflexivity. exfalso; apply (Hs s); reflexivity.
Qed.
Print Assumptions C09_other_norm_rejected.

(** a string that reads as a number (e.g. "2.5") is taken for a number and then refused *)
Theorem C09_numerical_string_rejected : forall float_of d s x, dget "norm" d = Some (JStr s) -> float_of s = Some x -> s <> "" ->
  norm_instantiate float_of d = Err ValueError.
Proof.
  intros f d s x H Hf Hs. unfold norm_instantiate, load_field. rewrite H. cbn [negb andb existsb isinstance orb bind]. rewrite Hf.
  apply String.eqb_neq in Hs. rewrite Hs. reflexivity.
Qed.
Print Assumptions C09_numerical_string_rejected.

Theorem C09_norm_save_load_roundtrip : forall float_of n d,
  (forall s, n = ExprNorm s -> float_of s = None) -> norm_instantiate float_of (norm_fill n d) = Ok n.
Proof. intros f n d H. apply norm_roundtrip. destruct n; cbn; auto. Qed.
Print Assumptions C09_norm_save_load_roundtrip.

Example C09_nonvacuous : norm_instantiate (fun s => if String.eqb s "2.5" then Some (5 / 2) else None) [("norm", JStr "mu")] = Ok (ExprNorm "mu").
Proof. reflexivity. Qed.

(** C10: the coefficient computation succeeds and the polynomial goes through every tabulated impact, on the
    positive and on the negative side, and vanishes at 0; in exponential mode it goes through the logarithm of the
    yield ratio 1+impact, limited to [1/100, 100]. *)
Theorem C10_interpolation_exact : forall float_of fmt inv s par is_log av,
  inv_ok inv -> available_variations float_of s par = Ok av -> NoDup av ->
  length (filter (fun v => Rltb 0 v) av) = length (filter (fun v => Rltb v 0) av) ->
  (exists v, In v av /\ v <> 0) ->
  (forall v, In v av -> v <> 0 -> exists im, impact fmt s par v = Ok (Some im)) ->
  exists pc nc, impact_coefficients float_of fmt inv s par is_log = Ok (pc, nc) /\
    (forall b, poly pc b 0 = 0 /\ poly nc b 0 = 0) /\
    forall v im b, In v av -> v <> 0 -> impact fmt s par v = Ok (Some im) -> (b < length im)%nat ->
      let p := poly (if Rltb 0 v then pc else nc) b v in
      (is_log = false -> p = nth b im 0) /\
      (is_log = true -> 1 / 100 <= 1 + nth b im 0 <= 100 -> exp p = 1 + nth b im 0).
Proof.
  intros f fm inv s par is_log av H1 H2 H3 H4 H5 H6.
  destruct (coefficients_ok f fm inv s par is_log av H1 H2 H3 H4 H5 H6) as (pc & nc & E & P).
  exists pc, nc. split; [exact E|]. split; [intros b; split; apply poly_0|].
  intros v im b Hv Hz Him Hb p. unfold p. rewrite (P v im b Hv Hz Him Hb).
  split; intros ->; [reflexivity|]. apply impact_scale_exp.
Qed.
Print Assumptions C10_interpolation_exact.

(** hypotheses are met by a two-variation, two-bin table with a nonlinear dependence; an [inv] with the assumed
    property exists (classically) *)
Definition ex_fmt (r : R) : string := if Reqb r 1 then "+1" else if Reqb r (-1) then "-1" else if Reqb r 2 then "+2" else "-2".
Definition ex_float (s : string) : option R :=
  if String.eqb s "+1" then Some 1 else if String.eqb s "-1" then Some (-1) else if String.eqb s "+2" then Some 2
  else if String.eqb s "-2" then Some (-2) else None.
Definition ex_sample : Sample :=
  mkSample "sig" (ExprNorm "mu") (Some 1) (Some [10; 20])
    [("np1", JList [JObj [("+1", JFlt (1/10)); ("-1", JFlt (-1/10)); ("+2", JFlt (1/4)); ("-2", JFlt (-1/5))];
                    JObj [("+1", JFlt (1/5)); ("-1", JFlt (-1/10)); ("+2", JFlt (1/4)); ("-2", JFlt (-1/3))]])].
Example C10_nonvacuous :
  available_variations ex_float ex_sample "np1" = Ok [1; -1; 2; -2] /\ NoDup [1; -1; 2; -2] /\
  length (filter (fun v => Rltb 0 v) [1; -1; 2; -2]) = length (filter (fun v => Rltb v 0) [1; -1; 2; -2]) /\
  (forall v, In v [1; -1; 2; -2] -> v <> 0 -> exists im, impact ex_fmt ex_sample "np1" v = Ok (Some im)).
Proof.
  split; [reflexivity|]. split; [repeat constructor; cbn; intuition lra|]. split.
  - cbn [filter]. unfold Rltb.
    repeat match goal with |- context [Rlt_dec ?a ?b] => destruct (Rlt_dec a b); try lra end. reflexivity.
  - intros v Hv _. unfold ex_fmt, impact. cbn -[Reqb]. 
    destruct Hv as [<-|[<-|[<-|[<-|[]]]]]; unfold Reqb;
      repeat match goal with |- context [Req_EM_T ?a ?b] => destruct (Req_EM_T a b); try lra end; cbn; eauto.
Qed.

(** C10 fails if there is one positive and more negative variations: only the most negative is used.
    Impacts +1: 0.1, -1: -0.1, -2: -0.4 give the value -0.2 at -1. *)
Theorem C10_unbalanced_variations_refuted : exists float_of fmt s av pc nc im,
  (forall inv, impact_coefficients float_of fmt inv s "np1" false = Ok (pc, nc)) /\
  available_variations float_of s "np1" = Ok av /\ NoDup av /\ In (-1) av /\
  impact fmt s "np1" (-1) = Ok (Some im) /\ poly nc 0 (-1) <> nth 0 im 0.
Proof.
  set (s := mkSample "sig" (ExprNorm "mu") (Some 1) (Some [10])
              [("np1", JObj [("+1", JFlt (1/10)); ("-1", JFlt (-1/10)); ("-2", JFlt (-2/5))])]).
  exists ex_float, ex_fmt, s, [1; -1; -2], [[1/10/1]], [[(-2/5)/(-2)]], [-1/10].
  assert (E1 : impact ex_fmt s "np1" 1 = Ok (Some [1/10])).
  { unfold impact, ex_fmt, s. rewrite (proj2 (Reqb_true 1 1)) by lra. reflexivity. }
  assert (E2 : impact ex_fmt s "np1" (-1) = Ok (Some [-1/10])).
  { unfold impact, ex_fmt, s. rewrite (proj2 (Reqb_false (-1) 1)) by lra. rewrite (proj2 (Reqb_true (-1) (-1))) by lra. reflexivity. }
  assert (E3 : impact ex_fmt s "np1" (-2) = Ok (Some [-2/5])).
  { unfold impact, ex_fmt, s. rewrite !(proj2 (Reqb_false (-2) _)) by lra. reflexivity. }
  split; [|split; [reflexivity|]].
  - intros inv. unfold impact_coefficients.
    change (available_variations ex_float s "np1") with (@Ok (list R) [1; -1; -2]). cbn [bind].
    assert (Ef1 : rsort (filter (fun v => Rltb 0 v) [1; -1; -2]) = [1]).
    { cbn [filter]. rewrite (proj2 (Rltb_true 0 1)) by lra. rewrite !(proj2 (Rltb_false 0 _)) by lra. reflexivity. }
    assert (Ef2 : rsort (filter (fun v => Rltb v 0) [1; -1; -2]) = [-2; -1]).
    { cbn [filter]. rewrite (proj2 (Rltb_false 1 0)) by lra. rewrite !(proj2 (Rltb_true _ 0)) by lra. cbn [rsort rinsert].
      rewrite (proj2 (Rleb_false (-1) (-2))) by lra. reflexivity. }
    rewrite Ef1, Ef2. cbn [mapM]. rewrite E1, E2, E3. reflexivity.
  - split; [repeat constructor; cbn; intuition lra|]. split; [right; left; reflexivity|]. split; [exact E2|].
    unfold poly. cbn. lra.
Qed.
Print Assumptions C10_unbalanced_variations_refuted.

(** C10 in exponential mode: an impact below -99% is replaced by -99% *)
Theorem C10_large_impact_clipped : forall imp, 1 + imp < 1 / 100 -> exp (impact_scale true imp) = 1 / 100.
Proof.
  intros imp H. unfold impact_scale. rewrite Rmin_left by lra. rewrite Rmax_right by lra. apply exp_ln. lra.
Qed.
Print Assumptions C10_large_impact_clipped.
Theorem C10_large_positive_impact_clipped : forall imp, 100 < 1 + imp -> exp (impact_scale true imp) = 100.
Proof. intros imp H. unfold impact_scale. rewrite Rmin_right by lra. rewrite Rmax_left by lra. apply exp_ln. lra. Qed.
Print Assumptions C10_large_positive_impact_clipped.

(** C11 *)
Theorem C11_no_impact_is_zero : forall fmt s par v y, dget par (s_impacts s) = None -> s_yields s = Some y ->
  impact fmt s par v = Ok (Some (repeat 0 (length y))).
Proof. intros fm s par v y H Hy. unfold impact, nyields. rewrite H, Hy. reflexivity. Qed.
Print Assumptions C11_no_impact_is_zero.

Theorem C11_single_number_is_proportional : forall fmt s par v y x, dget par (s_impacts s) = Some (JFlt x) -> s_yields s = Some y ->
  impact fmt s par v = Ok (Some (repeat (x * v) (length y))).
Proof. intros fm s par v y x H Hy. unfold impact, nyields. rewrite H, Hy. reflexivity. Qed.
Print Assumptions C11_single_number_is_proportional.

Theorem C11_common_table_lookup : forall fmt s par v y d e x, dget par (s_impacts s) = Some (JObj d) -> s_yields s = Some y ->
  dget (fmt v) d = Some e -> jnum e = Some x -> impact fmt s par v = Ok (Some (repeat x (length y))).
Proof. intros fm s par v y d e x H Hy Hd He. unfold impact, nyields, table_entry, dgetE. rewrite H, Hd. cbn [bind]. rewrite He, Hy. reflexivity. Qed.
Print Assumptions C11_common_table_lookup.

Theorem C11_per_bin_table_lookup : forall fmt s par v tables im, dget par (s_impacts s) = Some (JList (map JObj tables)) ->
  impact fmt s par v = Ok (Some im) ->
  length im = length tables /\
  forall b, (b < length tables)%nat -> exists e, dget (fmt v) (nth b tables []) = Some e /\ jnum e = Some (nth b im 0).
Proof.
  intros fm s par v tables im H Hi. unfold impact in Hi. rewrite H in Hi. inv_bind Hi. inversion Hi; subst; clear Hi.
  match goal with Hm : mapM _ _ = Ok _ |- _ => rename Hm into Hm' end.
  split; [rewrite (mapM_Ok_length _ _ _ Hm'), map_length; reflexivity|].
  intros b Hb. pose proof (mapM_nth _ _ _ b (JObj []) 0 Hm') as E. rewrite map_length in E. specialize (E Hb).
  rewrite (map_nth JObj tables [] b) in E. unfold table_entry, dgetE in E.
  destruct (dget (fm v) (nth b tables [])) as [e|]; cbn [bind] in E; [|discriminate].
  exists e; split; [reflexivity|]. destruct (jnum e); inversion E; reflexivity.
Qed.
Print Assumptions C11_per_bin_table_lookup.

(** a missing variation is an error, never a silent zero *)
Theorem C11_missing_variation_rejected : forall fmt s par v d, dget par (s_impacts s) = Some (JObj d) -> dget (fmt v) d = None ->
  impact fmt s par v = Err KeyError.
Proof. intros fm s par v d H Hd. unfold impact, table_entry, dgetE. rewrite H, Hd. reflexivity. Qed.
Print Assumptions C11_missing_variation_rejected.

Lemma half_sub a b : zipwith Rminus a b = map (fun p => fst p - snd p) (combine a b).
Proof. revert b; induction a as [|x a IH]; intros [|y b]; cbn; [reflexivity..|]. rewrite IH; reflexivity. Qed.

Theorem C11_symmetric_impact : forall fmt s par a b, impact fmt s par 1 = Ok (Some a) -> impact fmt s par (-1) = Ok (Some b) ->
  exists sym, sym_impact fmt s par = Ok (Some sym) /\ length sym = length a /\
    forall i, (i < length a)%nat -> nth i sym 0 = (nth i a 0 - nth i b 0) / 2.
Proof.
  intros fm s par a b Ha Hb. pose proof (impact_length _ _ _ _ _ _ _ Ha Hb) as L.
  unfold sym_impact. rewrite Ha, Hb. cbn [bind]. unfold np_sub. rewrite L, Nat.eqb_refl. cbn [bind].
  eexists; split; [reflexivity|]. rewrite map_length, zipwith_length, L, Nat.min_id. split; [reflexivity|].
  intros i Hi. rewrite (nth_map_lt _ _ _ 0) by (rewrite zipwith_length; lia).
  assert (E : forall (l m : list R) k, (k < length l)%nat -> (k < length m)%nat -> nth k (zipwith Rminus l m) 0 = nth k l 0 - nth k m 0).
  { induction l as [|x l IH]; intros [|y m] k H1 H2; cbn [length] in *; try lia. destruct k; cbn [zipwith nth]; [reflexivity|apply IH; lia]. }
  rewrite E by lia. field.
Qed.
Print Assumptions C11_symmetric_impact.

(** exchanging the +1 and -1 impacts changes the sign *)
Theorem C11_symmetric_impact_antisymmetric : forall fmt s s' par a b,
  impact fmt s par 1 = Ok (Some a) -> impact fmt s par (-1) = Ok (Some b) ->
  impact fmt s' par 1 = Ok (Some b) -> impact fmt s' par (-1) = Ok (Some a) ->
  exists sym sym', sym_impact fmt s par = Ok (Some sym) /\ sym_impact fmt s' par = Ok (Some sym') /\
    forall i, (i < length a)%nat -> nth i sym' 0 = - nth i sym 0.
Proof.
  intros fm s s' par a b H1 H2 H3 H4. pose proof (impact_length _ _ _ _ _ _ _ H1 H2) as L.
  destruct (C11_symmetric_impact fm s par a b H1 H2) as (x & E1 & _ & P1).
  destruct (C11_symmetric_impact fm s' par b a H3 H4) as (y & E2 & _ & P2).
  exists x, y. repeat split; auto. intros i Hi. rewrite P1, P2 by lia. field.
Qed.
Print Assumptions C11_symmetric_impact_antisymmetric.

(** without a -1 variation the +1 impact is used *)
Theorem C11_symmetric_impact_fallback : forall fmt s par a e, impact fmt s par 1 = Ok (Some a) -> impact fmt s par (-1) = Err e ->
  sym_impact fmt s par = Ok (Some a).
Proof. intros fm s par a e H1 H2. unfold sym_impact. rewrite H1, H2. reflexivity. Qed.
Print Assumptions C11_symmetric_impact_fallback.

(** C11 fails for the documented "pos"/"neg" keys: they are listed as variations +1, -1 but cannot be looked up *)
Theorem C11_pos_neg_keys_refuted : forall float_of inv is_log x y z, 
  let s := mkSample "sig" (ExprNorm "mu") (Some 1) (Some [z]) [("np1", JObj [("pos", JFlt x); ("neg", JFlt y)])] in
  available_variations float_of s "np1" = Ok [1; -1] /\
  forall fmt, fmt 1 = "+1" -> impact fmt s "np1" 1 = Err KeyError /\ impact_coefficients float_of fmt inv s "np1" is_log = Err KeyError.
Proof.
  intros fo inv il x y z s. split; [reflexivity|]. intros fm Hf.
  assert (E : impact fm s "np1" 1 = Err KeyError) by (unfold impact, s; cbn -[String.eqb]; rewrite Hf; reflexivity).
  split; [exact E|]. unfold impact_coefficients. change (available_variations fo s "np1") with (@Ok (list R) [1; -1]). cbn [bind filter].
  rewrite (proj2 (Rltb_true 0 1)) by lra. rewrite (proj2 (Rltb_false 0 (-1))) by lra. cbn [rsort rinsert mapM]. rewrite E. reflexivity.
Qed.
Print Assumptions C11_pos_neg_keys_refuted.

(** C12 *)
Theorem C12_nominal_yields_reproduced : forall s rv nn y, s_nominal_norm s = Some nn -> nn <> 0 -> s_yields s = Some y ->
  norm_value (s_norm s) rv = Ok nn -> sample_yields s rv = Ok y.
Proof.
  intros s rv nn y Hn Hz Hy Hv. unfold sample_yields, normalization. rewrite Hv, Hn, Hy. cbn [bind].
  rewrite (proj2 (Reqb_false nn 0) Hz). cbn [bind]. f_equal.
  rewrite (map_ext _ (fun z => z)) by (intros; field; exact Hz). apply map_id.
Qed.
Print Assumptions C12_nominal_yields_reproduced.

Theorem C12_yields_linear_in_norm : forall s rv rv' nn y v v', s_nominal_norm s = Some nn -> nn <> 0 -> s_yields s = Some y ->
  norm_value (s_norm s) rv = Ok v -> norm_value (s_norm s) rv' = Ok v' ->
  exists l l', sample_yields s rv = Ok l /\ sample_yields s rv' = Ok l' /\ length l = length y /\ length l' = length y /\
    forall b, v' * nth b l 0 = v * nth b l' 0.
Proof.
  intros s rv rv' nn y v v' Hn Hz Hy Hv Hv'. unfold sample_yields, normalization. rewrite Hv, Hv', Hn, Hy. cbn [bind].
  rewrite (proj2 (Reqb_false nn 0) Hz). cbn [bind]. eexists; eexists. split; [reflexivity|]. split; [reflexivity|].
  rewrite !map_length. repeat split. intros b.
  destruct (Nat.lt_ge_cases b (length y)) as [Hb|Hb].
  - rewrite !(nth_map_lt _ y b 0) by exact Hb. field. exact Hz.
  - rewrite !nth_overflow by (rewrite map_length; exact Hb). ring.
Qed.
Print Assumptions C12_yields_linear_in_norm.

(** the nominal normalization used when none is given: the value of the norm if it is a number or an NP, else 1 *)
Theorem C12_default_nominal_norm : forall fuel fmt nps rls rv var s s',
  set_np_data fuel fmt nps rls rv var s = Ok s' ->
  let nominals := fold_left (fun d p => dset (fst (fst p)) (snd (fst p)) d) nps [] in
  (forall x, s_nominal_norm s = Some x -> s_nominal_norm s' = Some x) /\
  (s_nominal_norm s = None -> forall x, s_norm s = NumberNorm (Some x) -> s_nominal_norm s' = Some x) /\
  (s_nominal_norm s = None -> forall e x, s_norm s = ExprNorm e -> e <> "" -> dget e nominals = Some x -> s_nominal_norm s' = Some x) /\
  (s_nominal_norm s = None -> forall e, s_norm s = ExprNorm e -> (e = "" \/ dget e nominals = None) -> s_nominal_norm s' = Some 1) /\
  s_name s' = s_name s /\ s_norm s' = s_norm s /\ (forall y, s_yields s = Some y -> s_yields s' = Some y).
Proof.
  intros fuel fm nps rls rv var s s' H nominals. unfold set_np_data in H. fold nominals in H.
  inv_bind H. inversion H; subst; clear H. cbn [s_nominal_norm s_name s_norm s_yields].
  split; [intros x ->; reflexivity|]. split; [intros -> x ->; reflexivity|].
  split. { intros -> e x -> He Hd. cbn [norm_value]. apply String.eqb_neq in He. rewrite He. unfold dgetE. rewrite Hd. reflexivity. }
  split. { intros -> e -> [->|Hd]; [reflexivity|]. cbn [norm_value]. destruct (String.eqb e ""); [reflexivity|]. unfold dgetE. rewrite Hd. reflexivity. }
  repeat split. intros y Hy. match goal with Hq : (match s_yields s with _ => _ end) = Ok _ |- _ => rewrite Hy in Hq; inversion Hq; reflexivity end.
Qed.
Print Assumptions C12_default_nominal_norm.

(** so for a norm given directly by an NP, the nominal yields are reproduced at nominal values of the NPs *)
Theorem C12_default_norm_reproduces_yields : forall fuel fmt nps rls rv var s s' e x y,
  set_np_data fuel fmt nps rls rv var s = Ok s' -> s_nominal_norm s = None -> s_norm s = ExprNorm e -> e <> "" ->
  dget e (fold_left (fun d p => dset (fst (fst p)) (snd (fst p)) d) nps []) = Some x -> x <> 0 -> s_yields s = Some y ->
  dget e rv = Some x -> sample_yields s' rv = Ok y.
Proof.
  intros fuel fm nps rls rv var s s' e x y H Hn He Hne Hd Hx Hy Hrv.
  destruct (C12_default_nominal_norm _ _ _ _ _ _ _ _ H) as (_ & _ & A & _ & _ & B & C).
  apply (C12_nominal_yields_reproduced s' rv x y); auto.
  - apply (A Hn e x); auto.
  - rewrite B, He. cbn [norm_value]. apply String.eqb_neq in Hne. rewrite Hne. unfold dgetE. rewrite Hrv. reflexivity.
Qed.
Print Assumptions C12_default_norm_reproduces_yields.

Example C12_nonvacuous : sample_yields ex_sample [("mu", 1)] = Ok [10; 20].
Proof. apply (C12_nominal_yields_reproduced _ _ 1); try reflexivity. lra. Qed.

(** C12 fails for a norm given by an expression of the NPs without a nominal_norm: here norm = 2*np1, np1 = 1
    nominally; the nominal norm is set to 1 and the yields at nominal are twice the given ones. *)
Theorem C12_expression_norm_default_refuted : exists s s' rls rv,
  real_vals [ELinComb "e" 0 [("np1", 2)]] [("np1", 1)] = Ok rv /\ rls = reals ["np1"] [ELinComb "e" 0 [("np1", 2)]] /\
  set_np_data 3 ex_fmt [(("np1", 1), 1)] rls rv 1 s = Ok s' /\ s_yields s = Some [10] /\
  sample_yields s' rv = Ok [(0 + 2 * 1) / 1 * 10].
Proof.
  exists (mkSample "sig" (ExprNorm "e") None (Some [10]) []). eexists. eexists. eexists.
  split; [reflexivity|]. split; [reflexivity|]. split.
  - cbn -[Reqb ex_fmt Rmult Rplus Rdiv Ropp]. rewrite (proj2 (Reqb_false 1 0)) by lra. cbn -[ex_fmt Rmult Rplus Rdiv Ropp]. reflexivity.
  - split; [reflexivity|]. unfold sample_yields, normalization. cbn -[Reqb Rmult Rplus Rdiv].
    rewrite (proj2 (Reqb_false 1 0)) by lra. reflexivity.
Qed.
Print Assumptions C12_expression_norm_default_refuted.

(** C13 *)
Theorem C13_sample_save_load_roundtrip : forall float_of s, (forall e, s_norm s = ExprNorm e -> float_of e = None) ->
  sample_load float_of (sample_fill s []) = Ok s.
Proof. intros f s H. apply sample_roundtrip. destruct (s_norm s); cbn; auto. Qed.
Print Assumptions C13_sample_save_load_roundtrip.

Example C13_nonvacuous : sample_load ex_float (sample_fill ex_sample []) = Ok ex_sample.
Proof. apply C13_sample_save_load_roundtrip. intros e [= <-]. reflexivity. Qed.

(** C65: impacts given explicitly are never overwritten by the implicit ones *)
Theorem C65_explicit_impacts_kept : forall fuel fmt nps rls rv var s s' par v,
  set_np_data fuel fmt nps rls rv var s = Ok s' -> dget par (s_impacts s) = Some v -> dget par (s_impacts s') = Some v.
Proof.
  intros fuel fm nps rls rv var s s' par v H Hd. unfold set_np_data in H. inv_bind H. inversion H; subst; clear H. cbn [s_impacts].
  match goal with Hf : foldM _ nps (s_impacts s) = Ok _ |- _ => revert Hf end. clear Hv. generalize dependent (s_impacts s).
  induction nps as [|p nps IH]; intros d Hd Hf; cbn [foldM] in Hf; [inversion Hf; subst; exact Hd|].
  apply bind_Ok in Hf. destruct Hf as (d1 & H1 & H2). refine (IH d1 _ H2).
  destruct (dmem (fst (fst p)) d) eqn:E; [inversion H1; subst; exact Hd|].
  apply bind_Ok in H1. destruct H1 as ([im|] & _ & H1); inversion H1; subst; [|exact Hd].
  rewrite dget_dset_neq; [exact Hd|]. intros ->. unfold dmem in E. rewrite Hd in E. discriminate.
Qed.
Print Assumptions C65_explicit_impacts_kept.

(** C65: for a sample normalized directly by an NP, the implicit impact is exactly the relative change of the
    normalization when the NP is moved by that many variations *)
Theorem C65_implicit_impact_of_np : forall fuel fmt par nominal pvar rls rv var, (1 <= fuel)%nat -> par <> "" ->
  dget par rls = Some (ESingle par) -> nominal <> 0 -> fmt var <> fmt (- var) ->
  exists d, implicit_impact fuel fmt (ExprNorm par) par nominal pvar rls rv var = Ok (Some d) /\
    (forall v0 v1, norm_value (ExprNorm par) [(par, nominal)] = Ok v0 ->
       norm_value (ExprNorm par) [(par, unscaled_value nominal pvar var)] = Ok v1 ->
       dget (fmt var) d = Some (JFlt ((v1 - v0) / v0))) /\
    (forall v0 v1, norm_value (ExprNorm par) [(par, nominal)] = Ok v0 ->
       norm_value (ExprNorm par) [(par, unscaled_value nominal pvar (- var))] = Ok v1 ->
       dget (fmt (- var)) d = Some (JFlt ((v1 - v0) / v0))).
Proof.
  intros fuel fm par nominal pvar rls rv var Hf Hp Hr Hn Hfm. destruct fuel; [lia|].
  unfold implicit_impact, norm_gradient_of. rewrite (proj2 (Reqb_false _ _) Hn). unfold dgetE. rewrite Hr.
  cbn [bind gradient nth_error]. rewrite String.eqb_refl. eexists; split; [reflexivity|].
  apply String.eqb_neq in Hp. unfold norm_value. rewrite Hp. unfold dgetE. cbn [dget]. rewrite String.eqb_refl.
  split; intros v0 v1 [= <-] [= <-]; unfold unscaled_value.
  - rewrite dget_dset_neq by exact Hfm. cbn [dget]. rewrite String.eqb_refl. do 2 f_equal. field. exact Hn.
  - rewrite dget_dset_eq. do 2 f_equal. field. exact Hn.
Qed.
Print Assumptions C65_implicit_impact_of_np.

(** C65 fails for norms given by other expressions: the derivative is divided by the nominal value of the NP and not
    of the norm.  For norm = 1 + np1 with np1 = 0 +- 1 the implicit impact is 0 although the norm doubles. *)
Theorem C65_implicit_impact_expression_refuted :
  let exprs := [ELinComb "e" 1 [("np1", 1)]] in
  exists rv d, real_vals exprs [("np1", 0)] = Ok rv /\
    implicit_impact 3 ex_fmt (ExprNorm "e") "np1" 0 1 (reals ["np1"] exprs) rv 1 = Ok (Some d) /\
    dget (ex_fmt 1) d = Some (JFlt 0) /\
    exists rv', real_vals exprs [("np1", 1)] = Ok rv' /\
      exists v0 v1, norm_value (ExprNorm "e") rv = Ok v0 /\ norm_value (ExprNorm "e") rv' = Ok v1 /\ (v1 - v0) / v0 = 1.
Proof.
  cbn zeta. eexists. eexists. split; [reflexivity|]. split.
  - unfold implicit_impact. rewrite (proj2 (Reqb_true 0 0)) by reflexivity. reflexivity.
  - split.
    + rewrite dget_dset_neq; [cbn [dget]; rewrite String.eqb_refl; reflexivity|].
      unfold ex_fmt. rewrite (proj2 (Reqb_true 1 1)) by lra. rewrite (proj2 (Reqb_false (-(1)) 1)) by lra.
      destruct (Reqb (- (1)) (-1)); [discriminate|destruct (Reqb (-(1)) 2); discriminate].
    + eexists. split; [reflexivity|]. eexists; eexists. split; [reflexivity|]. split; [reflexivity|]. field.
Qed.
Print Assumptions C65_implicit_impact_expression_refuted.
