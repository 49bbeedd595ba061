(** Properties of the parameter bounds, of the cached rasters and of the positions of the command-line programs (LimitTools). *)
From Verif Require Import Py PyFacts Base Expressions Norms Sample Channels Params Core PoiMin PoiMinFacts UtilTools UtilFacts UtilProps LimitTools.
Local Open Scope string_scope.
Local Open Scope list_scope.

Lemma Rleb_spec x y : BoolSpec (x <= y) (y < x) (Rleb x y).
Proof. destruct (Rleb x y) eqn:E; constructor; [now apply Rleb_true|now apply Rleb_false]. Qed.
Lemma Reqb_spec x y : BoolSpec (x = y) (x <> y) (Reqb x y).
Proof. destruct (Reqb x y) eqn:E; constructor; [now apply Reqb_true|now apply Reqb_false]. Qed.

(** * C91: the option --bounds *)
(** a part of a specification: no separator inside *)
Definition plain (s : string) : Prop := free_of "," s /\ free_of "=" s /\ free_of ":" s.
(** an end of a range: empty, or a number *)
Definition end_ (pf : string -> option R) (s : string) (o : option R) : Prop := (s = "" /\ o = None) \/ (s <> "" /\ exists x, pf s = Some x /\ o = Some x).
(** what the documentation says (with the separator ':' of the code): name=[min]:[max] is a range, name=value fixes *)
Inductive means (pf : string -> option R) : string -> ParBound -> Prop :=
| m_range : forall name lo hi a b, plain name -> plain lo -> plain hi -> end_ pf lo a -> end_ pf hi b -> means pf (name ++ "=" ++ lo ++ ":" ++ hi)%string (mkPB name a b)
| m_value : forall name v x, plain name -> plain v -> pf v = Some x -> means pf (name ++ "=" ++ v)%string (mkPB name (Some x) (Some x)).

Lemma opt_float_end pf s o : end_ pf s o -> opt_float pf s = Ok o.
Proof.
  unfold opt_float. intros [(-> & ->)|(N & x & Hx & ->)]; [reflexivity|]. destruct (String.eqb_spec s ""); [contradiction|]. now rewrite Hx.
Qed.
Lemma bound_spec_means pf s b : means pf s b -> bound_spec pf s = Ok [b] /\ free_of "," s /\ s <> "".
Proof.
  intros [name lo hi a c (N1 & N2 & N3) (L1 & L2 & L3) (H1 & H2 & H3) Ha Hc|name v x (N1 & N2 & N3) (V1 & V2 & V3) Hx]; cbn [append].
  - unfold bound_spec. rewrite split_app by exact N2. rewrite (split_free "="); [|apply free_app; [exact L2|split; [discriminate|exact H2]]].
    rewrite split_app by exact L3. rewrite split_free by exact H3. rewrite (opt_float_end _ _ _ Ha), (opt_float_end _ _ _ Hc). cbn [bind]. split; [reflexivity|].
    split; [|destruct name; discriminate]. apply free_app; [exact N1|]. split; [discriminate|]. apply free_app; [exact L1|]. split; [discriminate|exact H1].
  - unfold bound_spec. rewrite split_app by exact N2. rewrite (split_free "=") by exact V2. rewrite (split_free ":") by exact V3. rewrite Hx. split; [reflexivity|].
    split; [|destruct name; discriminate]. apply free_app; [exact N1|]. split; [discriminate|exact V1].
Qed.
Lemma join_empty c l : l <> [] -> (forall s, In s l -> s <> "") -> join c l <> "".
Proof. destruct l as [|s [|s2 l]]; intros N H; [contradiction|now apply H; left|]. cbn [join]. destruct s; discriminate. Qed.

(** every well-formed specification is read as documented, in order *)
Theorem C91_bounds : forall pf specs bounds, specs <> [] -> Forall2 (means pf) specs bounds -> parse_bounds pf (join "," specs) = Ok bounds.
Proof.
  intros pf specs bounds N H. unfold parse_bounds.
  assert (Hs : forall s, In s specs -> free_of "," s /\ s <> "").
  { intros s Hin. clear N. induction H as [|s0 b0 specs bounds H0 H IH]; [contradiction|]. destruct Hin as [<-|Hin]; [apply (bound_spec_means pf s0 b0 H0)|auto]. }
  destruct (String.eqb_spec (join "," specs) "") as [E|_]; [exfalso; revert E; apply join_empty; [exact N|intros s Hin; now apply Hs]|].
  rewrite split_join; [|exact N|intros s Hin; now apply Hs].
  assert (G : mapM (bound_spec pf) specs = Ok (map (fun b => [b]) bounds)).
  { clear - H. induction H as [|s b specs bounds H0 H IH]; [reflexivity|]. cbn [mapM map]. rewrite (proj1 (bound_spec_means pf s b H0)). cbn [bind]. rewrite IH. reflexivity. }
  rewrite G. cbn [bind]. f_equal. clear. induction bounds; cbn; congruence.
Qed.
Print Assumptions C91_bounds.

(** the minimizer then has these bounds, and those of the model for the other POIs *)
Theorem C91_bounds_used : forall pf specs bounds m, specs <> [] -> Forall2 (means pf) specs bounds -> NoDup (map pb_par bounds) ->
  exists l bs, parse_bounds pf (join "," specs) = Ok l /\ all_bounds m (Some l) None false = Ok bs /\
  (forall b, In b bounds -> dget (pb_par b) bs = Some b) /\
  (forall k, ~ In k (map pb_par bounds) -> dget k bs = dget k (model_bounds m)).
Proof.
  intros pf specs bounds m N H ND. exists bounds. eexists. split; [now apply C91_bounds|]. split; [reflexivity|]. generalize (model_bounds m) as d. clear N H. clear - ND.
  intros d. split.
  - intros b Hin. revert d ND. induction bounds as [|b0 bounds IH]; intros d ND; [contradiction|]. cbn [fold_left]. cbn [map] in ND. inversion ND as [|? ? Hni ND']; subst. destruct Hin as [->|Hin].
    + clear IH ND. revert Hni. set (d' := dset _ _ d). assert (Hd : dget (pb_par b) d' = Some b) by (unfold d'; rewrite dget_dset_eq; now destruct b). clearbody d'. revert d' Hd. clear ND'.
      induction bounds as [|c bounds IH]; intros d' Hd Hni; [exact Hd|]. cbn [fold_left]. apply IH; [|intros Hc; apply Hni; now right]. rewrite dget_dset_neq; [exact Hd|]. intros E. apply Hni. now left.
    + apply IH; assumption.
  - intros k Hk. revert d. clear ND. induction bounds as [|b0 bounds IH]; intros d; [reflexivity|]. cbn [fold_left]. rewrite IH by (intros Hc; apply Hk; now right). apply dget_dset_neq. intros ->. apply Hk. now left.
Qed.
Print Assumptions C91_bounds_used.

(** a specification that is not a number is refused *)
Theorem C91_bad_number_refused : forall pf name a, plain name -> plain a -> a <> "" -> pf a = None ->
  (forall b, plain b -> bound_spec pf (name ++ "=" ++ a ++ ":" ++ b)%string = Err ValueError) /\ parse_bounds pf (name ++ "=" ++ a)%string = Err ValueError.
Proof.
  intros pf name a (N1 & N2 & N3) (A1 & A2 & A3) Ne Ha. cbn [append]. split.
  - intros b (B1 & B2 & B3). unfold bound_spec. rewrite split_app by exact N2. rewrite (split_free "="); [|apply free_app; [exact A2|split; [discriminate|exact B2]]].
    rewrite split_app by exact A3. rewrite split_free by exact B3. unfold opt_float at 1. destruct (String.eqb_spec a ""); [contradiction|]. now rewrite Ha.
  - unfold parse_bounds. destruct (String.eqb_spec (name ++ String "=" a)%string "") as [E|_]; [destruct name; discriminate|].
    rewrite split_free by (apply free_app; [exact N1|split; [discriminate|exact A1]]). cbn [mapM]. unfold bound_spec. rewrite split_app by exact N2. rewrite (split_free "=") by exact A2. rewrite (split_free ":") by exact A3. now rewrite Ha.
Qed.
Print Assumptions C91_bad_number_refused.

(** a specification with too many fields is not refused: it is ignored, without any message; the form of the help text,
    with '#', is refused (it is read as one number) *)
Theorem C91_malformed_ignored_refuted : forall pf name a b c, plain name -> plain a -> plain b -> plain c ->
  parse_bounds pf (name ++ "=" ++ a ++ ":" ++ b ++ ":" ++ c)%string = Ok [].
Proof.
  intros pf name a b c (N1 & N2 & N3) (A1 & A2 & A3) (B1 & B2 & B3) (C1 & C2 & C3). cbn [append]. unfold parse_bounds.
  destruct (String.eqb_spec (name ++ String "=" (a ++ String ":" (b ++ String ":" c)))%string "") as [E|_]; [destruct name; discriminate|].
  rewrite split_free by (apply free_app; [exact N1|split; [discriminate|]]; apply free_app; [exact A1|split; [discriminate|]]; apply free_app; [exact B1|split; [discriminate|exact C1]]).
  cbn [mapM]. unfold bound_spec. rewrite split_app by exact N2. rewrite (split_free "=") by (apply free_app; [exact A2|split; [discriminate|]]; apply free_app; [exact B2|split; [discriminate|exact C2]]).
  rewrite split_app by exact A3. rewrite split_app by exact B3. rewrite split_free by exact C3. reflexivity.
Qed.
Print Assumptions C91_malformed_ignored_refuted.
Theorem C91_documented_form_refuted : forall pf name lo hi, plain name -> plain lo -> plain hi -> pf (lo ++ "#" ++ hi)%string = None ->
  parse_bounds pf (name ++ "=" ++ lo ++ "#" ++ hi)%string = Err ValueError.
Proof.
  intros pf name lo hi Hn (L1 & L2 & L3) (H1 & H2 & H3) Hp. apply C91_bad_number_refused; [exact Hn| |destruct lo; discriminate|exact Hp].
  repeat split; apply free_app; try assumption; (split; [discriminate|assumption]).
Qed.
Print Assumptions C91_documented_form_refuted.
(** a range without ends, name=:, does not free the parameter: the minimizer takes it as fixed *)
Theorem C91_unbounded_is_fixed_refuted : forall pf name m I p bs s, plain name -> exists l, parse_bounds pf (name ++ "=:")%string = Ok l /\
  (set_pois_min m I None (Some l) None false = Ok (p, bs) -> mi_init s = Some p -> mi_bounds s = Some bs -> exists fp, free_pois m s = Some fp /\ ~ In name fp).
Proof.
  intros pf name m I p bs s Hn. exists [mkPB name None None]. split.
  - change (name ++ "=:")%string with (join "," [(name ++ "=" ++ "" ++ ":" ++ "")%string]). apply C91_bounds; [discriminate|]. constructor; [|constructor].
    apply m_range; auto; try (repeat split); left; auto.
  - intros H Hi Hb. unfold free_pois. rewrite Hi, Hb. eexists. split; [reflexivity|]. intros Hin. apply filter_In in Hin as (_ & Hin).
    unfold set_pois_min in H. apply bind_Ok in H as (p0 & _ & H). cbn [bind] in H. apply bind_Ok in H as (bs' & Hbs & H). apply bind_Ok in H as (p2 & _ & H). injection H as _ <-.
    unfold all_bounds in Hbs. injection Hbs as <-. cbn [fold_left pb_par pb_min pb_max] in Hin. rewrite dget_dset_eq in Hin. discriminate.
Qed.
Print Assumptions C91_unbounded_is_fixed_refuted.
Example C91_nonvacuous : Forall2 (means u_float) ["mu=0:2"; "nu=:1"; "xi=2"] [mkPB "mu" (Some 0%R) (Some 2%R); mkPB "nu" None (Some 1%R); mkPB "xi" (Some 2%R) (Some 2%R)] /\
  join "," ["mu=0:2"; "nu=:1"; "xi=2"] = "mu=0:2,nu=:1,xi=2" /\ NoDup ["mu"; "nu"; "xi"].
Proof.
  assert (PL : forall s, In s ["mu"; "nu"; "xi"; "0"; "1"; "2"; ""] -> plain s) by (intros s [<-|[<-|[<-|[<-|[<-|[<-|[<-|[]]]]]]]]; repeat split; discriminate).
  split; [|split; [reflexivity|repeat constructor; cbn; intuition congruence]].
  constructor; [|constructor; [|constructor; [|constructor]]].
  - apply (m_range u_float "mu" "0" "2"); try (apply PL; cbn; tauto); right; (split; [discriminate|]); eexists; split; reflexivity.
  - apply (m_range u_float "nu" "" "1"); try (apply PL; cbn; tauto); [left; auto|right; (split; [discriminate|]); eexists; split; reflexivity].
  - apply (m_value u_float "xi" "2"); try (apply PL; cbn; tauto); reflexivity.
Qed.

(** * C92: results of several runs with the same output name *)
(** the input whose results the i-th run of a history should use, given the recomputation rule: its own if it recomputes *)
Theorem C92_recomputed : forall In Ra (E : RunEnv In Ra) overwrite (i : In) file r, (forall x, r_reload E x = Ok x) -> r_compute E i = Ok r ->
  (file = None \/ overwrite = true) -> limit_run E overwrite i file = (Some r, Ok r).
Proof.
  intros In Ra E overwrite i file r HR HC H. unfold limit_run. destruct file as [f|]; [|now rewrite HC]. rewrite HR. destruct H as [H| ->]; [discriminate|]. now rewrite HC.
Qed.
Print Assumptions C92_recomputed.
(** any history starting without a file: the k-th run uses the results of the last run before it (or itself) that
    recomputed, where a run recomputes if it is the first or has -x *)
Fixpoint source {In} (l : list (bool * In)) (last : option In) : list In :=
  match l with
  | [] => []
  | (o, i) :: l' => let s := match last with None => i | Some j => if o then i else j end in s :: source l' (Some s)
  end.
Theorem C92_history : forall In Ra (E : RunEnv In Ra) (comp : In -> Ra) (l : list (bool * In)), (forall x, r_reload E x = Ok x) -> (forall i, r_compute E i = Ok (comp i)) ->
  limit_runs E l None = map (fun i => Ok (comp i)) (source l None).
Proof.
  intros In Ra E comp l HR HC.
  assert (G : forall last, limit_runs E l (option_map comp last) = map (fun i => Ok (comp i)) (source l last)).
  { induction l as [|[o i] l IH]; intros last; [reflexivity|]. cbn [limit_runs source]. unfold limit_run. destruct last as [j|]; cbn [option_map].
    - rewrite HR. destruct o; [rewrite HC|]; cbn [map]; f_equal; [apply (IH (Some i))|apply (IH (Some j))].
    - rewrite HC. cbn [map]. f_equal. apply (IH (Some i)). }
  exact (G None).
Qed.
Print Assumptions C92_history.
(** so a run with other hypotheses, data or model than the previous one silently gives the results of the previous one *)
Theorem C92_stale_results_refuted : forall In Ra (E : RunEnv In Ra) (i j : In) r, (forall x, r_reload E x = Ok x) -> r_compute E i = Ok r ->
  limit_runs E [(false, i); (false, j)] None = [Ok r; Ok r].
Proof. intros In Ra E i j r HR HC. cbn. rewrite HC. unfold limit_run. now rewrite HR. Qed.
Print Assumptions C92_stale_results_refuted.
Example C92_nonvacuous : let E := mkRun (fun n : nat => Ok (n * 10)%nat) (fun r => Ok r) in
  limit_runs E [(false, 1%nat); (false, 2%nat); (true, 3%nat); (false, 4%nat)] None = [Ok 10%nat; Ok 10%nat; Ok 30%nat; Ok 30%nat].
Proof. reflexivity. Qed.

(** * C93: positions and commands *)
Lemma nth_linspace a b n e i : (i < n)%nat -> nth i (linspace a b n e) 0 = a + INR i * ((b - a) / INR (if e then n - 1 else n)).
Proof.
  intros Hi. unfold linspace. rewrite (nth_indep _ 0 ((fun i => a + INR i * ((b - a) / INR (if e then n - 1 else n))) 0%nat)) by (rewrite map_length, seq_length; exact Hi).
  rewrite (map_nth (fun i => a + INR i * ((b - a) / INR (if e then n - 1 else n)))), seq_nth by exact Hi. reflexivity.
Qed.
Lemma linspace_length a b n e : length (linspace a b n e) = n.
Proof. unfold linspace. now rewrite map_length, seq_length. Qed.
Lemma split3 a b n : free_of ":" a -> free_of ":" b -> free_of ":" n -> split ":" (a ++ ":" ++ b ++ ":" ++ n)%string = [a; b; n].
Proof. intros A B N. cbn [append]. rewrite split_app by exact A. rewrite split_app by exact B. now rewrite split_free. Qed.
Lemma split4 a b n m : free_of ":" a -> free_of ":" b -> free_of ":" n -> free_of ":" m -> split ":" (a ++ ":" ++ b ++ ":" ++ n ++ ":" ++ m)%string = [a; b; n; m].
Proof. intros A B N M. cbn [append]. rewrite split_app by exact A. rewrite split_app by exact B. rewrite split_app by exact N. now rewrite split_free. Qed.

(** vmin:vmax:nvals: nvals equidistant values from vmin to vmax; with :int, the integers below them *)
Theorem C93_linear_positions : forall pf pi a b n x y k, free_of ":" a -> free_of ":" b -> free_of ":" n -> pf a = Some x -> pf b = Some y -> pi n = Some (Z.of_nat k) ->
  exists l, positions pf pi (a ++ ":" ++ b ++ ":" ++ n)%string = Ok (map PFlt l) /\
    positions pf pi (a ++ ":" ++ b ++ ":" ++ n ++ ":int")%string = Ok (map (fun v => PInt (Int_part v)) l) /\ length l = k /\
    (forall i, (i < k)%nat -> nth i l 0 = x + INR i * ((y - x) / INR (k - 1))) /\ ((0 < k)%nat -> nth 0 l 0 = x) /\ ((1 < k)%nat -> nth (k - 1) l 0 = y).
Proof.
  intros pf pi a b n x y k Ha Hb Hn Hx Hy Hk. exists (linspace x y k true). split; [|split; [|split; [|split; [|split]]]].
  - unfold positions. rewrite split3 by assumption. rewrite Hx, Hy, Hk. destruct (Z.ltb_spec (Z.of_nat k) 0); [lia|]. rewrite Nat2Z.id. reflexivity.
  - unfold positions. change (n ++ ":int")%string with (n ++ ":" ++ "int")%string. rewrite split4; try assumption; [|repeat split; discriminate]. change (String.eqb "int" "int") with true. cbv iota. rewrite Hx, Hy, Hk.
    destruct (Z.ltb_spec (Z.of_nat k) 0); [lia|]. rewrite Nat2Z.id. reflexivity.
  - apply linspace_length.
  - intros i Hi. now rewrite nth_linspace.
  - intros K. rewrite nth_linspace by exact K. cbn [INR]. lra.
  - intros K. rewrite nth_linspace by lia. assert (Z0 : INR (k - 1) <> 0) by (apply not_0_INR; lia). field. exact Z0.
Qed.
Print Assumptions C93_linear_positions.

Lemma ln_nz x : 0 < x -> x <> 1 -> ln x <> 0.
Proof. intros H N E. apply N. rewrite <- ln_1 in E. apply ln_inv in E; [exact E|exact H|lra]. Qed.
(** vmin:vmax:nvals:log: values in geometric progression from vmin to vmax ... *)
Theorem C93_log_positions : forall pf pi a b n x y k, free_of ":" a -> free_of ":" b -> free_of ":" n -> pf a = Some x -> pf b = Some y -> pi n = Some (Z.of_nat k) ->
  0 < x -> 0 < y -> x <> 1 -> (0 < k)%nat ->
  exists l, positions pf pi (a ++ ":" ++ b ++ ":" ++ n ++ ":log")%string = Ok (map PFlt l) /\ nth 0 l 0 = x /\ nth k l 0 = y /\
    (forall i, (i <= k)%nat -> nth i l 0 = x * Rpower (y / x) (INR i / INR k)).
Proof.
  intros pf pi a b n x y k Ha Hb Hn Hx Hy Hk Px Py N1 K.
  assert (K0 : INR k <> 0) by (apply not_0_INR; lia). pose proof (ln_nz x Px N1) as LN.
  assert (HN : forall i, (i <= k)%nat -> nth i (map (fun e => Rpower x e) (linspace 1 (ln y / ln x) (k + 1) true)) 0 = x * Rpower (y / x) (INR i / INR k)).
  { intros i Hi. rewrite (nth_indep _ 0 ((fun e => Rpower x e) 0)) by (rewrite map_length, linspace_length; lia). rewrite (map_nth (fun e => Rpower x e)). rewrite nth_linspace by lia. replace (k + 1 - 1)%nat with k by lia.
    rewrite Rpower_plus, Rpower_1 by exact Px. f_equal. unfold Rpower. f_equal. replace (ln (y / x)) with (ln y - ln x) by (unfold Rdiv; rewrite ln_mult by (auto using Rinv_0_lt_compat); rewrite ln_Rinv by exact Px; lra). field. split; assumption. }
  eexists. split; [|split; [|split; [|exact HN]]].
  - unfold positions. change (n ++ ":log")%string with (n ++ ":" ++ "log")%string. rewrite split4; try assumption; [|repeat split; discriminate]. change (String.eqb "log" "int") with false. change (String.eqb "log" "log") with true. cbv iota. rewrite Hx, Hy, Hk.
    unfold logspace. destruct (Rleb_spec y 0) as [H|_]; [lra|]. destruct (Rleb_spec x 0) as [H|_]; [lra|]. destruct (Reqb_spec (ln x) 0) as [H|_]; [contradiction|].
    destruct (Z.ltb_spec (Z.of_nat k + 1) 0); [lia|]. replace (Z.to_nat (Z.of_nat k + 1)) with (k + 1)%nat by lia. reflexivity.
  - rewrite HN by lia. cbn [INR]. unfold Rdiv at 2. rewrite Rmult_0_l, Rpower_O by (apply Rdiv_lt_0_compat; assumption). lra.
  - rewrite HN by lia. replace (INR k / INR k) with 1 by (field; exact K0). rewrite Rpower_1 by (apply Rdiv_lt_0_compat; assumption). field. lra.
Qed.
Print Assumptions C93_log_positions.
(** ... but there are nvals + 1 of them, and a range that starts at 1 is refused *)
Theorem C93_log_count_refuted : forall pf pi a b n x y k, free_of ":" a -> free_of ":" b -> free_of ":" n -> pf a = Some x -> pf b = Some y -> pi n = Some (Z.of_nat k) -> 0 < x -> 0 < y ->
  (x <> 1 -> exists l, positions pf pi (a ++ ":" ++ b ++ ":" ++ n ++ ":log")%string = Ok l /\ length l = S k) /\
  (x = 1 -> positions pf pi (a ++ ":" ++ b ++ ":" ++ n ++ ":log")%string = Err ValueError).
Proof.
  intros pf pi a b n x y k Ha Hb Hn Hx Hy Hk Px Py.
  assert (HP : positions pf pi (a ++ ":" ++ b ++ ":" ++ n ++ ":log")%string = let! l := match logspace x y (Z.of_nat k + 1) with Ok l => Ok l | Err _ => Err ValueError end in Ok (map PFlt l)).
  { unfold positions. change (n ++ ":log")%string with (n ++ ":" ++ "log")%string. rewrite split4; try assumption; [|repeat split; discriminate]. change (String.eqb "log" "int") with false. change (String.eqb "log" "log") with true. cbv iota. now rewrite Hx, Hy, Hk. }
  rewrite HP. unfold logspace. destruct (Rleb_spec y 0) as [H|_]; [lra|]. destruct (Rleb_spec x 0) as [H|_]; [lra|]. split.
  - intros N1. pose proof (ln_nz x Px N1). destruct (Reqb_spec (ln x) 0) as [H'|_]; [contradiction|]. destruct (Z.ltb_spec (Z.of_nat k + 1) 0); [lia|]. cbn [bind]. eexists. split; [reflexivity|].
    rewrite !map_length, linspace_length. lia.
  - intros ->. rewrite ln_1. destruct (Reqb_spec 0 0); [reflexivity|lra].
Qed.
Print Assumptions C93_log_count_refuted.
(** v1,v2,...: the values as written; and any other form is taken for such a list, not refused *)
Theorem C93_listed_positions : forall pf pi l, l <> [] -> (forall s, In s l -> free_of "," s /\ free_of ":" s) -> positions pf pi (join "," l) = Ok (map PStr l).
Proof.
  intros pf pi l N H. unfold positions. rewrite (split_free ":").
  - rewrite split_join; [reflexivity|exact N|]. intros s Hs. now apply H.
  - assert (H' : forall s, In s l -> free_of ":" s) by (intros s Hs; now apply H). clear N H. induction l as [|s [|s2 l] IH]; [exact Logic.I|apply H'; now left|].
    change (join "," (s :: s2 :: l)) with (s ++ String "," (join "," (s2 :: l)))%string. apply free_app; [apply H'; now left|]. split; [discriminate|]. apply IH. intros; apply H'; now right.
Qed.
Print Assumptions C93_listed_positions.
Theorem C93_invalid_form_refuted : forall pf pi a b n mode, free_of ":" a -> free_of ":" b -> free_of ":" n -> free_of ":" mode -> free_of "," (a ++ ":" ++ b ++ ":" ++ n ++ ":" ++ mode)%string ->
  mode <> "int" -> mode <> "log" -> mode <> "logint" ->
  positions pf pi (a ++ ":" ++ b ++ ":" ++ n ++ ":" ++ mode)%string = Ok [PStr (a ++ ":" ++ b ++ ":" ++ n ++ ":" ++ mode)%string].
Proof.
  intros pf pi a b n mode Ha Hb Hn Hm Hc M1 M2 M3. unfold positions. rewrite split4 by assumption.
  destruct (String.eqb_spec mode "int"); [contradiction|]. destruct (String.eqb_spec mode "log"); [contradiction|]. destruct (String.eqb_spec mode "logint"); [contradiction|]. now rewrite split_free.
Qed.
Print Assumptions C93_invalid_form_refuted.

(** Specification of the substitution: each marker is replaced, "\n" is a line break, everything else is kept. *)
Fixpoint fill_pattern (v s : string) : string :=
  match s with
  | EmptyString => EmptyString
  | String a r => if (Ascii.eqb a "*" || Ascii.eqb a "%")%bool then (v ++ fill_pattern v r)%string
                  else match r with
                       | String b r' => if (Ascii.eqb a backslash && Ascii.eqb b "n")%bool then String newline (fill_pattern v r') else String a (fill_pattern v r)
                       | EmptyString => String a EmptyString
                       end
  end.
Definition simple_value (v : string) : Prop := v <> "" /\ free_of "%" v /\ free_of backslash v /\ match v with String a _ => a <> "n"%char | EmptyString => True end.
Lemma replace_char_app c by_ s r : replace_char c by_ (s ++ r)%string = (replace_char c by_ s ++ replace_char c by_ r)%string.
Proof.
  induction s as [|a s IH]; cbn; [reflexivity|]. destruct (Ascii.eqb a c); [|cbn; now rewrite IH]. rewrite IH. generalize (replace_char c by_ s) as u, (replace_char c by_ r) as w. clear. induction by_; intros; cbn; congruence.
Qed.
Lemma replace_char_free c by_ s : free_of c s -> replace_char c by_ s = s.
Proof. induction s as [|a s IH]; cbn; intros H; [reflexivity|]. destruct H as (Ha & Hs). destruct (Ascii.eqb_spec a c); [contradiction|]. now rewrite IH. Qed.
(** the two markers replaced, before the line breaks *)
Fixpoint markers (v s : string) : string :=
  match s with
  | EmptyString => EmptyString
  | String a r => if (Ascii.eqb a "*" || Ascii.eqb a "%")%bool then (v ++ markers v r)%string else String a (markers v r)
  end.
Lemma both_markers v s : free_of "%" v -> replace_char "%" v (replace_char "*" v s) = markers v s.
Proof.
  intros Hv. induction s as [|a s IH]; [reflexivity|]. cbn [replace_char markers]. destruct (Ascii.eqb_spec a "*") as [->|N]; cbn [orb].
  - now rewrite replace_char_app, replace_char_free, IH by exact Hv.
  - cbn [replace_char]. destruct (Ascii.eqb a "%"); now rewrite IH.
Qed.
Lemma newline_free v : forall r, free_of backslash v -> replace_newline (v ++ r)%string = (v ++ replace_newline r)%string.
Proof.
  induction v as [|a v IH]; intros r H; [reflexivity|]. destruct H as (Ha & Hv). cbn [append]. specialize (IH r Hv).
  assert (G : replace_newline (String a (v ++ r)%string) = String a (replace_newline (v ++ r)%string)).
  { destruct (v ++ r)%string as [|b t]; [reflexivity|]. cbn [replace_newline]. destruct (Ascii.eqb_spec a backslash); [contradiction|]. reflexivity. }
  rewrite G. now rewrite IH.
Qed.
Lemma newline_cons a s : (a <> backslash \/ match s with String b _ => b <> "n"%char | EmptyString => True end) -> replace_newline (String a s) = String a (replace_newline s).
Proof.
  intros H. destruct s as [|b s]; [reflexivity|]. cbn [replace_newline]. destruct (Ascii.eqb_spec a backslash) as [->|]; [|reflexivity]. destruct (Ascii.eqb_spec b "n") as [->|]; [|reflexivity]. destruct H; contradiction.
Qed.
Lemma markers_newlines v : simple_value v -> forall n s, (String.length s <= n)%nat -> replace_newline (markers v s) = fill_pattern v s.
Proof.
  intros (V1 & V2 & V3 & V4) n. induction n as [|n IH]; intros s L; [destruct s; [reflexivity|cbn in L; lia]|].
  destruct s as [|a r]; [reflexivity|]. cbn in L. cbn [markers fill_pattern]. destruct (Ascii.eqb a "*" || Ascii.eqb a "%")%bool eqn:Em.
  - rewrite newline_free by exact V3. f_equal. apply IH. lia.
  - destruct r as [|b r']; [reflexivity|]. destruct (Ascii.eqb_spec a backslash) as [->|Na]; cbn [andb].
    + destruct (Ascii.eqb_spec b "n") as [->|Nb].
      * cbn [markers]. change (Ascii.eqb "n" "*" || Ascii.eqb "n" "%")%bool with false. cbv iota. cbn [replace_newline]. rewrite !Ascii.eqb_refl. cbn [andb]. f_equal. apply IH. cbn in L. lia.
      * rewrite newline_cons; [f_equal; apply IH; lia|]. right. cbn [markers]. destruct (Ascii.eqb b "*" || Ascii.eqb b "%")%bool; [|exact Nb]. destruct v as [|c v]; [contradiction|]. exact V4.
    + rewrite newline_cons by (left; exact Na). f_equal. apply IH. lia.
Qed.
Theorem C93_commands : forall str pattern l, (forall p, In p l -> simple_value (str p)) ->
  script str pattern l = fold_right (fun p acc => (fill_pattern (str p) pattern ++ String newline acc)%string) EmptyString l.
Proof.
  intros str pattern l H. unfold script.
  assert (AA : forall a b c : string, ((a ++ b) ++ c)%string = (a ++ (b ++ c))%string) by (induction a; cbn; intros; congruence).
  assert (AN : forall a : string, (a ++ "")%string = a) by (induction a; cbn; congruence).
  assert (G : forall acc, fold_left (fun acc p => (acc ++ (command str pattern p ++ String newline EmptyString))%string) l acc =
    (acc ++ fold_right (fun p acc => (fill_pattern (str p) pattern ++ String newline acc)%string) EmptyString l)%string).
  { induction l as [|p l IH]; intros acc; cbn [fold_left fold_right]; [now rewrite AN|]. rewrite IH by (intros q Hq; apply H; now right). rewrite AA. f_equal. rewrite AA. cbn [append]. f_equal.
    unfold command. destruct (H p (or_introl eq_refl)) as (V1 & V2 & V3 & V4). rewrite both_markers by exact V2. apply (markers_newlines _ (conj V1 (conj V2 (conj V3 V4))) (String.length pattern)). lia. }
  apply (G EmptyString).
Qed.
Print Assumptions C93_commands.
(** the name of the file of a position *)
Theorem C93_file_names : forall str pattern p, free_of "%" (str p) -> result_file str pattern p = markers (str p) pattern.
Proof. intros. now apply both_markers. Qed.
Print Assumptions C93_file_names.
Example C93_nonvacuous : script (fun p => match p with PStr s => s | _ => "?" end) "cmd -m % -o out_*.json" [PStr "1"; PStr "22"] =
  ("cmd -m 1 -o out_1.json" ++ String newline ("cmd -m 22 -o out_22.json" ++ String newline ""))%string /\ simple_value "22" /\
  positions (fun s => if String.eqb s "2" then Some 2%R else Some 8%R) (fun _ => Some 3%Z) "2:8:3:log" = Ok (map PFlt (map (fun e => Rpower 2 e) (linspace 1 (ln 8 / ln 2) 4 true))).
Proof.
  split; [reflexivity|]. split; [repeat split; discriminate|]. unfold positions. cbn [split Ascii.eqb Bool.eqb String.eqb]. cbn. unfold logspace. destruct (Rleb_spec 8 0); [lra|]. destruct (Rleb_spec 2 0); [lra|].
  destruct (Reqb_spec (ln 2) 0) as [E|_]; [exfalso; revert E; apply ln_nz; lra|]. reflexivity.
Qed.
