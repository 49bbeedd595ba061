(** C110: the limits of compute_fast_limits from samples (--ntoys).  Concrete cases that meet the hypotheses: LimitToysExProps.v. *)
From Coq Require Import Permutation Sorted.
From Verif Require Import Py PyFacts RSort Base BaseFacts Expressions Norms Sample Channels Params ParamsFacts Core CoreFacts NpMin PoiMin PoiMinFacts PoiHistProps TestStat FitData FitDataFacts FitDataProps RasterProps
  ParamsProps UtilFacts Calculators CalcFacts CalcProps Scans ScansProps ModelIO ModelTools UtilTools LimitTools FileIO FileIOProps Commands Sampling SamplingFacts SamplingProps FileName FileNameProps ScanFacts ScanCommand ScanCommandProps SamplesRun SamplesRunProps
  LimitCommand LimitFacts LimitCommandProps.
Local Open Scope string_scope.
Local Open Scope list_scope.
Local Open Scope R_scope.

(** ** Specification *)
(** a p-value from a sample and its uncertainty: the mid p-value, and the binomial error *)
Definition sample_pv (s : list R) (x : R) (v : R * R) : Prop :=
  s <> [] /\ mid_p s x (fst v) /\ let n := INR (length s) in snd v = sqrt ((fst v * n + 1) * (n - fst v * n + 1) / n) / n.
(** CLs and its uncertainty from CLs+b and CLb *)
Definition cls_pv (sb b : R * R) : R * R :=
  if Rleb (fst b) 0 then (1, 1) else if Rleb (fst sb) 0 then (0, snd sb / fst b)
  else (fst sb / fst b, fst sb / fst b * sqrt ((snd sb / fst sb) ^ 2 + (snd b / fst b) ^ 2)).
(** a sample file after the run: the one that was there before, else the toys of this run, sorted.  The first [n] values are used. *)
Definition sampled (dk dk' : disk) (file : string) (n : nat) (toys : res (list R)) (a : list R) : Prop :=
  exists fa, dget file (dk_npy dk') = Some fa /\ a = firstn n fa /\ (n <= length fa)%nat /\ StronglySorted Rle fa /\
    (dget file (dk_npy dk) = Some fa \/ (dget file (dk_npy dk) = None /\ exists t, toys = Ok t /\ Permutation t fa)).
(** --truncate-dist *)
Definition kept (o : LimitOpts) (a : list R) : list R := match lo_trunc o with Some x => if Reqb x 0 then a else filter (fun y => Rleb y x) a | None => a end.
(** what the samples say about a hypothesis: the value of the parameter, the asymptotic p-value, the values used for CLs+b and CLb, and the two p-values *)
Record Seen := mkSeen { se_x : R; se_apv : R; se_a : list R; se_b : list R; se_sb : R * R; se_clb : R * R }.
Definition seen (L : LimitLibs) (o : LimitOpts) (mi : Model * Internal) (bounds : list ParBound) (dk dk' : disk) (n : string) (hp : Hypo * PLR) (s : Seen) : Prop :=
  dget n (fst hp) = Some (se_x s) /\ dget "pv" (plr_pvs (snd hp)) = Some (VNum (se_apv s)) /\
  (exists t a b, dget "tmu_A0" (plr_ts (snd hp)) = Some (VNum t) /\
     let toys x := ll_toys L mi (fst hp) (mkPars [x] (repeat 0 (length (pm_nps (i_pm (snd mi))))) (Some (i_pm (snd mi)))) bounds (lo_niter o) t (lo_ntoys o) in
     sampled dk dk' (so_file (lo_out o) (fst hp) ".npy") (lo_ntoys o) (toys (se_x s)) a /\ se_a s = kept o a /\
     sampled dk dk' (so_file (lo_out o ++ "_clb") (fst hp) ".npy") (lo_ntoys o) (toys 0) b /\ se_b s = kept o b) /\
  sample_pv (se_a s) (se_apv s) (se_sb s) /\ sample_pv (se_b s) (se_apv s) (se_clb s).
(** a p-value moved by a number of uncertainties *)
Definition moved (k : R) (l : list (R * (R * R))) : list (R * R) := map (fun p => (fst p, fst (snd p) + k * snd (snd p))) l.
Definition num_or_null (l : option R) : jv := match l with Some x => JFlt x | None => JNull end.
(** the limit with its variations in the results file *)
Definition sampling_entries (S : SplineLib) (key : string) (l : list (R * (R * R))) : list (string * jv) :=
  [(key, num_or_null (limit95 S (moved 0 l))); ((key ++ "_up")%string, num_or_null (limit95 S (moved 1 l))); ((key ++ "_dn")%string, num_or_null (limit95 S (moved (-1) l)))].
(** an expected band: the quantile of the CLs values that the values of the CLb sample give *)
Definition expected_cls (f : R) (s : Seen) (q : R) : Prop :=
  exists v, Forall2 (fun y c => exists p pb, mid_p (se_a s) y p /\ mid_p (se_b s) y pb /\ c = if Rltb 0 pb then p / pb else 1) (se_b s) v /\
    In q v /\ INR (count (fun y => Rltb y q) v) <= f * INR (length v) < INR (count (fun y => Rleb y q) v).
Definition orders (o : LimitOpts) : list Z :=
  match lo_bands o with
  | None | Some O => []
  | Some (S n) => map (fun k => (Z.of_nat k - Z.of_nat (S n))%Z) (seq 0 (2 * S n + 1))
  end.
Lemma orders_bands o : orders o = match bands_of o with Some k => band_orders k | None => [] end.
Proof. unfold orders, bands_of, band_orders. destruct (lo_bands o) as [[|n]|]; reflexivity. Qed.
Definition band_entry (L : LimitLibs) (i : Z) (l : list (R * R)) : string * jv :=
  (("limit_sampling_CLs_expected_band_" ++ signed (ll_dec L) i)%string, in_file (limit95 (sl_spline (ll_scan L)) l)).
(** the toys are as many as asked for *)
Definition toys_complete (L : LimitLibs) : Prop := forall mi h g bounds niter t k l, ll_toys L mi h g bounds niter t k = Ok l -> length l = k.
Definition stored_sorted (dk : disk) : Prop := forall q a, dget q (dk_npy dk) = Some a -> StronglySorted Rle a.

(** ** the loop over the samples, from its success *)
Lemma load_ok n npy f a : (0 < n)%nat -> sd_load npy (sd_zeros n) f = Ok a -> exists fa, dget f npy = Some fa /\ (n <= length fa)%nat.
Proof.
  intros P. unfold sd_load, sd_zeros. destruct (dget f npy) as [fa|]; [|discriminate]. rewrite repeat_length, (proj2 (Nat.ltb_lt 0 n) P). cbn [andb]. destruct (length fa <? n)%nat eqn:E; [discriminate|]. apply Nat.ltb_ge in E. eauto.
Qed.
Lemma has_lock_In l d : has_lock l d = false -> ~ In l (dk_lock d).
Proof. unfold has_lock. intros H Hin. assert (X : existsb (String.eqb l) (dk_lock d) = true) by (apply existsb_exists; exists l; split; [exact Hin|apply String.eqb_refl]). congruence. Qed.
Lemma gen_loop_inv hash ks root ntoys brk sort : (0 < ntoys)%nat -> forall l d dists d' dists', distinct_hypos ks (map fst l) -> on_params ks dists -> gen_loop hash root ntoys brk sort l (d, dists) = ((d', dists'), None) ->
  (forall h, keys h = ks -> ~ In (map g6 (values h)) (map (fun hs => map g6 (values (fst hs))) l) -> hget hash h dists' = hget hash h dists) /\
  (forall hs, In hs l -> hget hash (fst hs) dists = None -> hget hash (fst hs) dists' <> None -> file_ok root ntoys brk d hs).
Proof.
  intros Hn. induction l as [|[h s] l IH]; intros d dists d' dists' DH HK H.
  - cbn in H. injection H as <- <-. split; [reflexivity|intros ? []].
  - cbn [map fst] in DH. destruct (dh_ks _ _ DH) as (Nk & Ne). assert (Hh : keys h = ks) by (apply (dh_keys _ _ DH); now left).
    assert (HT : forall hs, In hs l -> keys (fst hs) = ks /\ map g6 (values h) <> map g6 (values (fst hs))).
    { intros hs Hin. split; [apply (dh_keys _ _ DH); right; now apply in_map|]. eapply head_differs; [exact DH|]. now apply in_map. }
    assert (HTf : forall suf hs, In hs l -> so_file root h suf <> so_file root (fst hs) suf).
    { intros suf hs Hin E. destruct (HT hs Hin) as (K & V). apply V. now apply (file_inj ks root suf). }
    assert (Nh : ~ In (map g6 (values h)) (map (fun hs => map g6 (values (fst hs))) l)).
    { intros X. apply in_map_iff in X as (hs & E & Hin). destruct (HT hs Hin) as (_ & V). apply V. symmetry. exact E. }
    assert (STEP : forall d1 v, gen_loop hash root ntoys brk sort l (d1, hset hash h v dists) = ((d', dists'), None) \/ (exists z, gen_loop hash root ntoys brk sort l (d1, hset hash h v (hset hash h z dists)) = ((d', dists'), None)) ->
       (forall q, q <> so_file root h ".npy" -> dget q (dk_npy d1) = dget q (dk_npy d)) -> (forall q, q <> so_file root h ".lock" -> In q (dk_lock d) -> In q (dk_lock d1)) -> file_ok root ntoys brk d (h, s) ->
       (forall x, keys x = ks -> ~ In (map g6 (values x)) (map (fun hs => map g6 (values (fst hs))) ((h, s) :: l)) -> hget hash x dists' = hget hash x dists) /\
       (forall hs, In hs ((h, s) :: l) -> hget hash (fst hs) dists = None -> hget hash (fst hs) dists' <> None -> file_ok root ntoys brk d hs)).
    { intros d1 v G N1 L1 F0. set (P := fun ds => on_params ks ds /\ (forall x, keys x = ks -> map g6 (values h) <> map g6 (values x) -> hget hash x ds = hget hash x dists)).
      assert (Hds : exists ds, P ds /\ gen_loop hash root ntoys brk sort l (d1, ds) = ((d', dists'), None)).
      { destruct G as [G|[z G]]; eexists; (split; [|exact G]); split; repeat apply hset_keyed; auto; intros x Kx Vx; rewrite ?(hget_different hash ks); auto; apply hset_keyed; auto. }
      destruct Hds as (ds & (K1 & K2) & R). destruct (IH d1 ds d' dists' (dh_tail _ _ _ DH) K1 R) as (Q & F). split.
      - intros x Kx Hx. cbn [map fst In] in Hx. rewrite Q by tauto. apply K2; tauto.
      - intros hs [<-|Hin] A B; [exact F0|]. destruct (HT hs Hin) as (Kh & Vh). assert (A' : hget hash (fst hs) ds = None) by (rewrite K2; auto). specialize (F hs Hin A' B). unfold file_ok in *.
        rewrite N1 in F by (intros E; symmetry in E; now apply (HTf ".npy" hs Hin)). destruct (dget (so_file root (fst hs) ".npy") (dk_npy d)); [exact F|]. destruct F as (F1 & F2). split; [|exact F2].
        destruct F1 as [F1|F1]; [now left|right]. intros X. apply F1, L1; [|exact X]. intros E. symmetry in E. now apply (HTf ".lock" hs Hin). }
    cbn [gen_loop gen_one] in H. destruct (dmem (so_file root h ".npy") (dk_npy d)) eqn:Dm.
    + destruct (sd_load (dk_npy d) (sd_zeros ntoys) (so_file root h ".npy")) as [a|] eqn:El; [|discriminate]. destruct (load_ok _ _ _ _ Hn El) as (fa & Hfa & Hl).
      apply (STEP d a); [right; exists (sd_zeros ntoys); exact H|reflexivity|auto|]. unfold file_ok. cbn [fst]. rewrite Hfa. exact Hl.
    + assert (Dn : dget (so_file root h ".npy") (dk_npy d) = None) by (unfold dmem in Dm; now destruct (dget (so_file root h ".npy") (dk_npy d))).
      destruct (has_lock (so_file root h ".lock") d && negb brk)%bool eqn:Lk.
      * destruct (IH d dists d' dists' (dh_tail _ _ _ DH) HK H) as (Q & F). split; [intros x Kx Hx; cbn [map fst In] in Hx; apply Q; tauto|]. intros hs [<-|Hin] A B; [cbn [fst] in A, B; rewrite Q in B by assumption; contradiction|now apply F].
      * destruct (sp_generate s ntoys) as [a|] eqn:Ga; [|discriminate]. unfold sd_save in H. cbn [add_lock dk_npy dk_lock] in H. unfold so_file in H at 2.
        assert (SN : npy_name (so_file root h "") = so_file root h ".npy") by (apply saved_name; now apply (values_nonempty ks)).
        match type of H with gen_loop _ _ _ _ _ _ (?x, hset _ _ ?v _) = _ => apply (STEP x v) end; [left; exact H| | |].
        -- intros q Hq. unfold drop_lock. cbn [dk_npy]. fold (so_file root h ""). rewrite SN. now rewrite dget_dset_neq.
        -- intros q Hq Hin. unfold drop_lock. cbn [dk_lock]. apply filter_In. split; [now right|]. apply Bool.negb_true_iff. now apply String.eqb_neq.
        -- unfold file_ok. cbn [fst snd]. rewrite Dn. split; [|eauto]. apply andb_false_iff in Lk as [Lk|Lk]; [right; now apply has_lock_In|left; now apply Bool.negb_false_iff].
Qed.
(** one set of samples *)
Lemma generate_inv hash ks samplers root o ntoys brk d d' o' : so_init samplers root [] = Ok o -> (0 < ntoys)%nat -> distinct_hypos ks (map sp_hypo samplers) -> so_generate_and_save hash o ntoys brk true d = ((d', o'), None) ->
  (forall h, In h (map sp_hypo samplers) -> hget hash h (so_dists o') <> None) ->
  so_hypos o' = map sp_hypo samplers /\ on_params ks (so_dists o') /\ (forall s, In s samplers -> produced hash root ntoys true d d' (so_dists o') (sp_hypo s, s)) /\
  (forall q, ~ In q (map (fun s => so_file root (sp_hypo s) ".npy") samplers) -> dget q (dk_npy d') = dget q (dk_npy d)) /\
  ((forall s, In s samplers -> dget (so_file root (sp_hypo s) ".npy") (dk_npy d) <> None) -> d' = d) /\
  (forall s, In s samplers -> file_ok root ntoys brk d (sp_hypo s, s)) /\
  (forall q, In q (dk_lock d') <-> In q (dk_lock d) /\ ~ exists s, In s samplers /\ q = so_file root (sp_hypo s) ".lock" /\ dget (so_file root (sp_hypo s) ".npy") (dk_npy d) = None).
Proof.
  intros Hi Hn DH H HG. destruct (init_samplers _ _ _ Hi) as (Hs & Eo).
  assert (HF : forall s, In s samplers -> file_ok root ntoys brk d (sp_hypo s, s)).
  { subst o. unfold so_generate_and_save in H. cbn [so_samplers so_hypos so_root so_dists] in H. destruct samplers as [|s0 sl]; [congruence|]. rewrite combine_hypos in H. set (samplers := s0 :: sl) in *.
    match type of H with context [gen_loop ?a ?b ?c0 ?d0 ?e0 ?f0 ?g0] => destruct (gen_loop a b c0 d0 e0 f0 g0) as [[d1 ds1] e] eqn:Eg end. injection H as <- <- ->. cbn [so_dists with_dists] in HG.
    assert (DH' : distinct_hypos ks (map fst (map (fun s => (sp_hypo s, s)) samplers))) by (rewrite map_map; exact DH). assert (K0 : on_params ks (@nil (Hypo * list R))) by (intros ? ? []).
    destruct (gen_loop_inv hash ks root ntoys brk true Hn _ _ _ _ _ DH' K0 Eg) as (_ & F). intros s Hin. apply F; [apply in_map_iff; eauto|reflexivity|]. cbn [fst]. apply HG. now apply in_map. }
  destruct (generate_spec hash ks samplers root o ntoys brk true d [] Hs Eo Hn DH ltac:(intros ? ? []) HF) as (d1 & o1 & R & A & _ & _ & K & P & Fi & Lk & Un). rewrite H in R. injection R as <- <-.
  split; [rewrite A, Eo; reflexivity|]. split; [exact K|]. split; [exact P|]. split; [exact Fi|]. split; [exact Un|]. split; [exact HF|exact Lk].
Qed.
(** both *)
Lemma co_generate_inv hash ks clsb cl_b root c ntoys brk d d' c' : limit_samples clsb cl_b root = Ok c -> (0 < ntoys)%nat -> distinct_hypos ks (map sp_hypo clsb) -> map sp_hypo cl_b = map sp_hypo clsb ->
  co_generate_and_save hash c ntoys brk true d = ((d', c'), None) ->
  (forall h, In h (map sp_hypo clsb) -> hget hash h (so_dists (co_clsb c')) <> None /\ hget hash h (so_dists (co_cl_b c')) <> None) ->
  so_hypos (co_clsb c') = map sp_hypo clsb /\ so_hypos (co_cl_b c') = map sp_hypo clsb /\ on_params ks (so_dists (co_clsb c')) /\ on_params ks (so_dists (co_cl_b c')) /\
  (forall s, In s clsb -> produced hash root ntoys true d d' (so_dists (co_clsb c')) (sp_hypo s, s)) /\
  (forall s, In s cl_b -> produced hash (root ++ "_clb") ntoys true d d' (so_dists (co_cl_b c')) (sp_hypo s, s)) /\
  ((forall s, In s clsb -> dget (so_file root (sp_hypo s) ".npy") (dk_npy d) <> None) -> (forall s, In s cl_b -> dget (so_file (root ++ "_clb") (sp_hypo s) ".npy") (dk_npy d) <> None) -> d' = d) /\
  (forall s, In s clsb -> file_ok root ntoys brk d (sp_hypo s, s)) /\ (forall s, In s cl_b -> file_ok (root ++ "_clb") ntoys brk d (sp_hypo s, s)).
Proof.
  intros Hc Hn DH Hh H HG. unfold limit_samples in Hc. apply bind_Ok in Hc as (oa & Ha & Hc). apply bind_Ok in Hc as (ob & Hb & Hc). injection Hc as <-. unfold co_generate_and_save in H. cbn [co_clsb co_cl_b] in H.
  destruct (so_generate_and_save hash oa ntoys brk true d) as [[d1 o1] [e|]] eqn:E1; [discriminate|]. destruct (so_generate_and_save hash ob ntoys brk true d1) as [[d2 o2] e] eqn:E2. injection H as <- <- ->. cbn [co_clsb co_cl_b] in *.
  assert (DHb : distinct_hypos ks (map sp_hypo cl_b)) by now rewrite Hh.
  destruct (generate_inv _ _ _ _ _ _ _ _ _ _ Ha Hn DH E1 (fun h Hin => proj1 (HG h Hin))) as (A1 & A2 & A3 & A4 & A5 & A6 & A7).
  destruct (generate_inv _ _ _ _ _ _ _ _ _ _ Hb Hn DHb E2 ltac:(intros h Hin; apply HG; rewrite <- Hh; exact Hin)) as (B1 & B2 & B3 & B4 & B5 & B6 & _).
  assert (NV : forall s, In s clsb -> values (sp_hypo s) <> []) by (intros s Hin; apply (values_nonempty ks); [apply (dh_ks _ _ DH)|apply (dh_keys _ _ DH); now apply in_map]).
  assert (NVb : forall s, In s cl_b -> values (sp_hypo s) <> []) by (intros s Hin; apply (values_nonempty ks); [apply (dh_ks _ _ DH)|apply (dh_keys _ _ DHb); now apply in_map]).
  assert (D1 : forall s, In s clsb -> dget (so_file root (sp_hypo s) ".npy") (dk_npy d2) = dget (so_file root (sp_hypo s) ".npy") (dk_npy d1)).
  { intros s Hin. apply B4. intros X. apply in_map_iff in X as (s' & E & Hin'). unfold so_file in E. symmetry in E. revert E. apply C108_clb_files_distinct; auto. }
  assert (D2 : forall s, In s cl_b -> dget (so_file (root ++ "_clb") (sp_hypo s) ".npy") (dk_npy d1) = dget (so_file (root ++ "_clb") (sp_hypo s) ".npy") (dk_npy d)).
  { intros s Hin. apply A4. intros X. apply in_map_iff in X as (s' & E & Hin'). unfold so_file in E. revert E. apply C108_clb_files_distinct; auto. }
  split; [exact A1|]. split; [rewrite B1; exact Hh|]. split; [exact A2|]. split; [exact B2|]. split; [|split; [|split; [|split; [exact A6|]]]].
  - intros s Hin. specialize (A3 s Hin). unfold produced in *. cbn [fst snd] in *. rewrite D1 by exact Hin. exact A3.
  - intros s Hin. specialize (B3 s Hin). unfold produced in *. cbn [fst snd] in *. rewrite D2 in B3 by exact Hin. exact B3.
  - intros X Y. assert (d1 = d) as -> by now apply A5. apply B5. exact Y.
  - intros s Hin. specialize (B6 s Hin). unfold file_ok in *. cbn [fst snd] in *. rewrite D2 in B6 by exact Hin. destruct (dget (so_file (root ++ "_clb") (sp_hypo s) ".npy") (dk_npy d)); [exact B6|]. destruct B6 as (X & Y). split; [|exact Y].
    destruct X as [X|X]; [now left|right]. intros Z. apply X. apply A7. split; [exact Z|]. intros (s' & Hin' & E & _). unfold so_file in E. symmetry in E. revert E. apply C108_clb_files_distinct; auto.
Qed.

(** ** samples and p-values *)
Lemma firstn_sorted n (l : list R) : StronglySorted Rle l -> StronglySorted Rle (firstn n l).
Proof.
  revert n. induction l as [|a l IH]; intros [|n] H; cbn; try constructor; inversion H as [|? ? H1 H2]; subst; [now apply IH|]. rewrite Forall_forall in *. intros x Hx. apply H2. clear - Hx. revert n Hx. induction l as [|b l IH]; intros [|n] Hx; cbn in *; [destruct Hx..|]. destruct Hx as [<-|Hx]; [now left|right; now apply (IH n)].
Qed.
Lemma filter_sorted P (l : list R) : StronglySorted Rle l -> StronglySorted Rle (filter P l).
Proof.
  induction l as [|a l IH]; cbn; intros H; [constructor|]. inversion H as [|? ? H1 H2]; subst. destruct (P a); [|now apply IH]. constructor; [now apply IH|]. rewrite Forall_forall in *. intros x Hx. apply filter_In in Hx as [Hx _]. now apply H2.
Qed.
Lemma kept_sorted o l : StronglySorted Rle l -> StronglySorted Rle (kept o l).
Proof. unfold kept. intros H. destruct (lo_trunc o) as [x|]; [|exact H]. destruct (Reqb x 0); [exact H|now apply filter_sorted]. Qed.
Lemma pv_sorted s x p : StronglySorted Rle s -> sd_pv s x = Ok p -> s <> [] /\ mid_p s x p.
Proof.
  intros S H. destruct s as [|a s]; [discriminate|]. split; [discriminate|]. assert (p = sd_nbelow (a :: s) x / INR (length (a :: s))) as -> by (unfold sd_pv in H; congruence). unfold mid_p. rewrite nbelow_sorted by exact S. pose proof (len_pos a s). field. lra.
Qed.
Lemma pv_err_sorted s x v : StronglySorted Rle s -> sd_pv_err s x = Ok v -> sample_pv s x v.
Proof.
  intros S H. destruct s as [|a s]; [discriminate|]. match type of S with StronglySorted _ ?t => assert (v = (sd_nbelow t x / INR (length t), sqrt ((sd_nbelow t x + 1) * (INR (length t) - sd_nbelow t x + 1) / INR (length t)) / INR (length t))) as -> by (unfold sd_pv_err in H; congruence) end. split; [discriminate|]. cbn [fst snd]. pose proof (len_pos a s). split.
  - unfold mid_p. rewrite nbelow_sorted by exact S. field. lra.
  - cbn zeta. assert (E : sd_nbelow (a :: s) x / INR (length (a :: s)) * INR (length (a :: s)) = sd_nbelow (a :: s) x) by (field; lra). rewrite E. reflexivity.
Qed.
Lemma gen_loop_keys hash ks root ntoys brk sort : forall l d dists d' dists' e, (forall hs, In hs l -> keys (fst hs) = ks) -> on_params ks dists -> gen_loop hash root ntoys brk sort l (d, dists) = ((d', dists'), e) -> on_params ks dists'.
Proof.
  induction l as [|[h s] l IH]; intros d dists d' dists' e HL HK H; cbn [gen_loop] in H; [injection H as <- <- <-; exact HK|]. destruct (gen_one hash root ntoys brk sort (h, s) (d, dists)) as [[d1 ds1] e1] eqn:E1.
  assert (K1 : on_params ks ds1).
  { pose proof (HL _ (or_introl eq_refl)) as Kh. cbn [fst] in Kh. unfold gen_one in E1. destruct (dmem _ _).
    - destruct (sd_load _ _ _); injection E1 as <- <- <-; repeat apply hset_keyed; auto.
    - destruct (_ && _)%bool; [injection E1 as <- <- <-; exact HK|]. destruct (sp_generate s ntoys); [|injection E1 as <- <- <-; exact HK]. destruct (sd_save _ _ _ _) as [npy a']. injection E1 as <- <- <-. now apply hset_keyed. }
  destruct e1; [injection H as <- <- <-; exact K1|]. eapply IH; [|exact K1|exact H]. intros hs Hin. apply HL. now right.
Qed.
Lemma generate_keys hash ks samplers root o ntoys brk d d' o' e : so_init samplers root [] = Ok o -> (forall s, In s samplers -> keys (sp_hypo s) = ks) -> so_generate_and_save hash o ntoys brk true d = ((d', o'), e) ->
  so_hypos o' = map sp_hypo samplers /\ on_params ks (so_dists o').
Proof.
  intros Hi HK H. destruct (init_samplers _ _ _ Hi) as (Hs & ->). unfold so_generate_and_save in H. cbn [so_samplers so_hypos so_root so_dists] in H. destruct samplers as [|s0 sl]; [congruence|]. rewrite combine_hypos in H.
  match type of H with context [gen_loop ?a ?b ?c0 ?d0 ?e0 ?f0 ?g0] => destruct (gen_loop a b c0 d0 e0 f0 g0) as [[d1 ds1] e1] eqn:Eg end. injection H as <- <- <-. split; [reflexivity|]. cbn [so_dists with_dists].
  eapply gen_loop_keys; [| |exact Eg]; [|intros ? ? []]. intros hs Hin. apply in_map_iff in Hin as (s & <- & Hin). now apply HK.
Qed.
Lemma co_generate_keys hash ks clsb cl_b root c ntoys brk d d' c' : limit_samples clsb cl_b root = Ok c -> (forall s, In s clsb \/ In s cl_b -> keys (sp_hypo s) = ks) -> co_generate_and_save hash c ntoys brk true d = ((d', c'), None) ->
  so_hypos (co_clsb c') = map sp_hypo clsb /\ so_hypos (co_cl_b c') = map sp_hypo cl_b /\ on_params ks (so_dists (co_clsb c')) /\ on_params ks (so_dists (co_cl_b c')).
Proof.
  intros Hc HK H. unfold limit_samples in Hc. apply bind_Ok in Hc as (oa & Ha & Hc). apply bind_Ok in Hc as (ob & Hb & Hc). injection Hc as <-. unfold co_generate_and_save in H. cbn [co_clsb co_cl_b] in H.
  destruct (so_generate_and_save hash oa ntoys brk true d) as [[d1 o1] [e|]] eqn:E1; [discriminate|]. destruct (so_generate_and_save hash ob ntoys brk true d1) as [[d2 o2] e] eqn:E2. injection H as <- <- ->. cbn [co_clsb co_cl_b].
  destruct (generate_keys _ ks _ _ _ _ _ _ _ _ _ Ha (fun s Hs => HK s (or_introl Hs)) E1). destruct (generate_keys _ ks _ _ _ _ _ _ _ _ _ Hb (fun s Hs => HK s (or_intror Hs)) E2). auto.
Qed.
Lemma cut_inv hash ks lo hi : forall hs dists dists', distinct_hypos ks hs -> on_params ks dists ->
  foldM (fun dists h => match hget hash h dists with Some s => Ok (hset hash h (sd_cut s lo hi) dists) | None => Err KeyError end) hs dists = Ok dists' -> forall h, In h hs -> hget hash h dists <> None.
Proof.
  induction hs as [|h hs IH]; intros dists dists' DH HK H x Hx; [destruct Hx|]. cbn [foldM] in H. destruct (hget hash h dists) as [s|] eqn:Eh; [|discriminate]. cbn [bind] in H. destruct Hx as [<-|Hx]; [congruence|].
  pose proof (dh_ks _ _ DH) as [Nk Ne]. assert (Kh : keys h = ks) by (apply (dh_keys _ _ DH); now left).
  specialize (IH _ _ (dh_tail _ _ _ DH) (hset_keyed hash ks h _ dists Kh HK) H x Hx). rewrite (hget_different hash ks) in IH; auto; [apply (dh_keys _ _ DH); now right|]. now apply (head_differs ks h hs).
Qed.
Lemma so_cut_inv hash ks o x o' : x <> 0 -> distinct_hypos ks (so_hypos o) -> on_params ks (so_dists o) -> so_cut hash o None (Some x) = Ok o' ->
  so_hypos o' = so_hypos o /\ forall h, In h (so_hypos o) -> exists s, hget hash h (so_dists o) = Some s /\ hget hash h (so_dists o') = Some (filter (fun y => Rleb y x) s).
Proof.
  intros Nx DH HK H. unfold so_cut in H. apply bind_Ok in H as (ds & Hd & H). injection H as <-. split; [reflexivity|]. cbn [so_dists with_dists]. pose proof (cut_inv _ _ _ _ _ _ _ DH HK Hd) as Hall.
  destruct (cut_loop hash ks None (Some x) _ _ DH HK Hall) as (ds' & R & P & _). rewrite Hd in R. injection R as <-. intros h Hin. specialize (Hall h Hin). destruct (hget hash h (so_dists o)) as [s|] eqn:Es; [|congruence]. exists s. split; [reflexivity|].
  rewrite (P h s Hin Es). unfold sd_cut. cbn [truthy]. rewrite (proj2 (Reqb_false x 0) Nx). reflexivity.
Qed.
(** --truncate-dist *)
Lemma truncated_inv hash ks o c c2 : distinct_hypos ks (so_hypos (co_clsb c)) -> so_hypos (co_cl_b c) = so_hypos (co_clsb c) -> on_params ks (so_dists (co_clsb c)) -> on_params ks (so_dists (co_cl_b c)) -> truncated hash o c = Ok c2 ->
  so_hypos (co_clsb c2) = so_hypos (co_clsb c) /\ so_hypos (co_cl_b c2) = so_hypos (co_clsb c) /\
  forall h, In h (so_hypos (co_clsb c)) -> hget hash h (so_dists (co_clsb c2)) = option_map (kept o) (hget hash h (so_dists (co_clsb c))) /\ hget hash h (so_dists (co_cl_b c2)) = option_map (kept o) (hget hash h (so_dists (co_cl_b c))).
Proof.
  intros DH Hh K1 K2 H. assert (I0 : forall v : option (list R), v = option_map (fun a => a) v) by (intros [|]; reflexivity). unfold truncated, kept in *. destruct (lo_trunc o) as [x|]; cbn [truthy] in H; [destruct (Reqb x 0) eqn:Ex|].
  - injection H as <-. auto.
  - apply Reqb_false in Ex. unfold co_cut in H. apply bind_Ok in H as (a & Ha & H). apply bind_Ok in H as (b & Hb & H). injection H as <-. cbn [co_clsb co_cl_b].
    destruct (so_cut_inv _ ks _ _ _ Ex DH K1 Ha) as (A1 & A2). assert (DHb : distinct_hypos ks (so_hypos (co_cl_b c))) by now rewrite Hh. destruct (so_cut_inv _ ks _ _ _ Ex DHb K2 Hb) as (B1 & B2).
    split; [exact A1|]. split; [congruence|]. intros h Hin. destruct (A2 h Hin) as (s & -> & ->). rewrite <- Hh in Hin. destruct (B2 h Hin) as (s' & -> & ->). split; reflexivity.
  - injection H as <-. auto.
Qed.

(** ** curves with uncertainties *)
Definition vcurve (r : Raster) (n key : string) (l : list (R * pyval)) : Prop :=
  Forall2 (fun hp xv => dget n (fst hp) = Some (fst xv) /\ dget key (plr_pvs (snd hp)) = Some (snd xv)) (ra_points r) l.
Definition pairs (l : list (R * (R * R))) : list (R * pyval) := map (fun p => (fst p, VPair (fst (snd p)) (snd (snd p)))) l.
Definition nums (l : list (R * R)) : list (R * pyval) := map (fun p => (fst p, VNum (snd p))) l.
Lemma vcurve_nums r n key l : vcurve r n key (nums l) -> curve r n key l.
Proof. unfold vcurve, curve, nums. generalize (ra_points r). intros pts H. remember (map _ l) as l' eqn:E. revert l E. induction H as [|hp xv pts l' A _ IH]; intros [|p l] E; try discriminate; [constructor|]. injection E as -> ->. constructor; [exact A|now apply IH]. Qed.
Lemma pair_points r poi key l k : vcurve r poi key (pairs l) -> scan_points (mkScan1D (mkScan r key) poi) k = Ok (map fst (moved k l), map VNum (map snd (moved k l))).
Proof.
  unfold vcurve, scan_points. cbn [s1_scan s1_poi sc_raster]. intros H.
  assert (A : mapM (fun hp => let! x := dgetE poi (fst hp) in let! v := scan_value (mkScan r key) (snd hp) k in Ok (x, v)) (ra_points r) = Ok (map (fun p => (fst p, VNum (fst (snd p) + k * snd (snd p)))) l)).
  { remember (pairs l) as l' eqn:E. revert l E. induction H as [|[h p] [x v] pts l' [E1 E2] _ IH]; intros [|[x' [a b]] l] E; try discriminate; cbn [mapM map fst snd] in *; [reflexivity|]. injection E as -> -> ->. unfold dgetE at 1. rewrite E1. cbn [bind]. unfold scan_value at 1. cbn [sc_key]. rewrite E2. cbn [bind]. rewrite (IH l eq_refl). reflexivity. }
  rewrite A. cbn [bind]. unfold moved. rewrite !map_map. reflexivity.
Qed.
Lemma moved_fst k l : map fst (moved k l) = map fst l.
Proof. unfold moved. rewrite map_map. reflexivity. Qed.
(** the entries of the results file *)
Lemma ul_value_err S r key cl u l n name : ul_new r key None cl = Ok u -> forall v, ul_limit_err S u 3 true = Ok v -> hd_error (ra_pois r) = Some n -> vcurve r n key (pairs l) -> triple_values name v = sampling_entries S name l.
Proof.
  intros Hu v Hl Hn Hc. unfold ul_new, scan1d_new in Hu. apply bind_Ok in Hu as (s & Hs & E). injection E as <-. apply bind_Ok in Hs as (s0 & Hs0 & Hs). apply bind_Ok in Hs as (n' & Hf & Hs). injection Hs as <-.
  unfold scan_new in Hs0. destruct (is_filled r key false false); [|discriminate]. injection Hs0 as <-. unfold find_poi in Hf. cbn [sc_raster] in Hf. destruct (ra_pois r) as [|n0 ps]; [discriminate|]. cbn in Hn, Hf. injection Hn as <-. injection Hf as <-.
  unfold ul_limit_err, crossings_err in Hl. cbn [ul_scan ul_cl s1_scan s1_poi sc_raster] in Hl. apply bind_Ok in Hl as (tr & Ht & Hl). apply bind_Ok in Ht as (_u & _ & Ht). rewrite !(pair_points _ _ _ _ _ Hc) in Ht. cbn [bind fst snd] in Ht.
  apply bind_Ok in Ht as (cn & Hcn & Ht). apply bind_Ok in Ht as (cu & Hcu & Ht). apply bind_Ok in Ht as (cd & Hcd & Ht). apply bind_Ok in Ht as (lu & Hlu & Ht). apply bind_Ok in Ht as (ln & Hln & Ht).
  destruct (length lu =? length ln)%nat eqn:E1; cbn [negb] in Ht; [|discriminate]. apply bind_Ok in Ht as (ld & Hld & Ht). destruct (length ld =? length ln)%nat eqn:E2; cbn [negb] in Ht; [|discriminate]. injection Ht as <-. injection Hl as <-.
  apply Nat.eqb_eq in E1. apply Nat.eqb_eq in E2. destruct cn as [cn|]; [|discriminate]. destruct cu as [cu|]; [|discriminate]. destruct cd as [cd|]; [|discriminate]. cbn in Hlu, Hln, Hld. injection Hlu as ->. injection Hln as ->. injection Hld as ->.
  rewrite moved_fst, <- (moved_fst 1 l) in Hcu. rewrite moved_fst, <- (moved_fst (-1) l) in Hcd.
  apply interp_curve in Hcn; [|exact level_pos]. apply interp_curve in Hcu; [|exact level_pos]. apply interp_curve in Hcd; [|exact level_pos].
  unfold sampling_entries, limit95. rewrite <- Hcn, <- Hcu, <- Hcd. destruct ln as [|a ln], lu as [|b lu], ld as [|d0 ld]; try discriminate; reflexivity.
Qed.
(** ** the bands in the raster *)
Lemma fill_band_other dec r b n key l : key <> band_pv dec (fst b) -> vcurve r n key l -> vcurve (fill_band dec r b) n key l.
Proof.
  intros N. unfold vcurve, fill_band. cbn [ra_points]. generalize (snd b) as vs. intros vs H. revert vs. induction H as [|[h p] xv pts l A H IH]; intros vs; [destruct vs; cbn; constructor|].
  destruct vs as [|v vs]; [cbn; constructor; [exact A|exact H]|]. cbn [combine map app skipn length]. constructor; [|apply IH]. cbn in *. rewrite dget_dset_neq by exact N. exact A.
Qed.
Lemma fill_band_own dec r b n key l : length (snd b) = length l -> vcurve r n key l -> vcurve (fill_band dec r b) n (band_pv dec (fst b)) (nums (combine (map fst l) (snd b))).
Proof.
  unfold vcurve, fill_band. cbn [ra_points]. generalize (snd b) as vs. intros vs E H. revert vs E. induction H as [|[h p] xv pts l [A1 A2] H IH]; intros [|v vs] E; try discriminate; [constructor|].
  cbn [combine map app skipn length nums]. constructor; [|apply IH; now injection E]. cbn in *. split; [exact A1|]. apply dget_dset_eq.
Qed.
Lemma fill_bands_other dec n key l : forall bs r, (forall b, In b bs -> key <> band_pv dec (fst b)) -> vcurve r n key l -> vcurve (fold_left (fill_band dec) bs r) n key l.
Proof. induction bs as [|b bs IH]; intros r N H; cbn; [exact H|]. apply IH; [intros x Hx; apply N; now right|]. apply fill_band_other; [apply N; now left|exact H]. Qed.
Lemma signed_inj dec a b : (forall i j, dec i = dec j -> i = j) -> signed dec a = signed dec b -> a = b.
Proof.
  intros D. unfold signed. destruct (a <? 0)%Z eqn:Ea, (b <? 0)%Z eqn:Eb; cbn [String.append]; intros [= H]; apply D in H; apply Z2Nat.inj in H; lia.
Qed.
Lemma band_pv_inj dec a b : (forall i j, dec i = dec j -> i = j) -> band_pv dec a = band_pv dec b -> a = b.
Proof. intros D. unfold band_pv. cbn [String.append]. intros [= H]. now apply (signed_inj dec). Qed.
Lemma fill_bands_own dec n key l : (forall i j, dec i = dec j -> i = j) -> forall bs r, NoDup (map fst bs) -> (forall b, In b bs -> key <> band_pv dec (fst b)) -> (forall b, In b bs -> length (snd b) = length l) -> vcurve r n key l ->
  forall b, In b bs -> vcurve (fold_left (fill_band dec) bs r) n (band_pv dec (fst b)) (nums (combine (map fst l) (snd b))).
Proof.
  intros D. induction bs as [|b bs IH]; intros r N Nk Hl H x Hx; [destruct Hx|]. cbn [fold_left]. cbn [map] in N. inversion N as [|? ? N1 N2]; subst. destruct Hx as [<-|Hx].
  - apply fill_bands_other; [|eapply fill_band_own; [apply Hl; now left|exact H]]. intros y Hy E. apply band_pv_inj in E; [|exact D]. apply N1. rewrite E. now apply in_map.
  - apply IH; auto; [intros y Hy; apply Nk; now right|intros y Hy; apply Hl; now right|]. apply fill_band_other; [apply Nk; now left|exact H].
Qed.
Lemma fold_fill_pois dec bs : forall r, ra_pois (fold_left (fill_band dec) bs r) = ra_pois r.
Proof. induction bs as [|b bs IH]; intros r; cbn; [reflexivity|]. now rewrite IH. Qed.

(** ** the points *)
Definition looked (hash : list string -> Z) (c : CObj) (n : string) (hp : Hypo * PLR) (s : Seen) : Prop :=
  dget n (fst hp) = Some (se_x s) /\ dget "pv" (plr_pvs (snd hp)) = Some (VNum (se_apv s)) /\ hget hash (fst hp) (so_dists (co_clsb c)) = Some (se_a s) /\ hget hash (fst hp) (so_dists (co_cl_b c)) = Some (se_b s) /\
  sd_pv_err (se_a s) (se_apv s) = Ok (se_sb s) /\ sd_pv_err (se_b s) (se_apv s) = Ok (se_clb s).
Definition pv_line (samples : list Seen) : list (R * (R * R)) := map (fun s => (se_x s, se_sb s)) samples.
Definition cls_line (samples : list Seen) : list (R * (R * R)) := map (fun s => (se_x s, cls_pv (se_sb s) (se_clb s))) samples.
Lemma on_points_looked hash c n r r1 : (forall h p, In (h, p) (ra_points r) -> plr_hypo p = h /\ exists x, dget n h = Some x) -> on_points (sampling_point hash c) r = Ok r1 ->
  ra_pois r1 = ra_pois r /\ exists samples, Forall2 (looked hash c n) (ra_points r) samples /\ vcurve r1 n "sampling_pv" (pairs (pv_line samples)) /\ vcurve r1 n "sampling_cls" (pairs (cls_line samples)).
Proof.
  intros HP H. unfold on_points in H. apply bind_Ok in H as (pts & Hm & H). injection H as <-. split; [reflexivity|]. unfold vcurve. cbn [ra_points]. clear - HP Hm. revert HP pts Hm. generalize (ra_points r). clear r. intros l.
  induction l as [|[h p] l IH]; intros HP pts Hm; cbn [mapM] in Hm; [injection Hm as <-; exists []; repeat constructor|]. apply bind_Ok in Hm as ([h1 p1] & H1 & Hm). apply bind_Ok in Hm as (pts' & Hm & E). injection E as <-. cbn [fst snd] in H1. apply bind_Ok in H1 as (q & Hq & H1). injection H1 as <- <-.
  destruct (HP h p (or_introl eq_refl)) as (Eh & x & Ex). destruct (IH (fun h' p' Hin => HP h' p' (or_intror Hin)) pts' Hm) as (ss & F1 & F2 & F3).
  unfold sampling_point in Hq. rewrite Eh in Hq. apply bind_Ok in Hq as (apv & Ha & Hq). apply bind_Ok in Hq as (sb & Hsb & Hq). apply bind_Ok in Hq as (bb & Hbb & Hq). apply bind_Ok in Hq as (sv & Hsv & Hq). injection Hq as <-.
  unfold dgetE in Ha. destruct (dget "pv" (plr_pvs p)) as [pv|] eqn:Epv; cbn [bind] in Ha; [|discriminate]. destruct pv; try discriminate. cbn in Ha. injection Ha as ->.
  unfold co_pv_err in Hsv. rewrite Hsb in Hsv. cbn [bind] in Hsv. destruct sb as [psb esb]. rewrite Hbb in Hsv. cbn [bind] in Hsv. destruct bb as [pb eb]. injection Hsv as <-.
  unfold so_pv_err in Hsb, Hbb. destruct (hget hash h (so_dists (co_clsb c))) as [a|] eqn:Ea; [|discriminate]. destruct (hget hash h (so_dists (co_cl_b c))) as [b|] eqn:Eb; [|discriminate].
  exists (mkSeen x apv a b (psb, esb) (pb, eb) :: ss). split; [|split].
  - constructor; [|exact F1]. unfold looked. cbn. repeat split; assumption.
  - cbn [pv_line map pairs]. constructor; [|exact F2]. cbn [fst snd with_pvs plr_pvs]. split; [exact Ex|]. rewrite !dget_dset_neq by discriminate. apply dget_dset_eq.
  - cbn [cls_line map pairs]. constructor; [|exact F3]. cbn [fst snd with_pvs plr_pvs]. split; [exact Ex|]. apply dget_dset_eq.
Qed.
Lemma quantile_spec cdf v i q : v <> [] -> sd_quantile cdf (rsort v) None (Some i) = Ok q -> In q v /\ INR (count (fun y => Rltb y q) v) <= cdf i * INR (length v) < INR (count (fun y => Rleb y q) v).
Proof.
  intros Nv H. assert (H' : sd_quantile cdf (sd_init v) (Some (cdf i)) None = Ok q) by exact H.
  assert (B : 0 <= cdf i < 1).
  { destruct (Rlt_dec (cdf i) 0) as [X|X]; [rewrite C41_invalid_fraction in H' by auto; discriminate|]. destruct (Rlt_dec 1 (cdf i)) as [Y|Y]; [rewrite C41_invalid_fraction in H' by auto; discriminate|].
    destruct (Req_dec (cdf i) 1) as [Z|Z]; [rewrite Z, C41_fraction_one_refuted in H'; discriminate|]. lra. }
  destruct (C41_quantile cdf v (cdf i) Nv B) as (q' & Hq & A & Bd). rewrite H' in Hq. injection Hq as <-. auto.
Qed.
Lemma band_loop hash ks c : forall hs d d', distinct_hypos ks hs -> on_params ks d ->
  foldM (fun d h => match hget hash h (so_dists (co_cl_b c)) with Some s => let! v := mapM (co_pv hash c h) s in Ok (hset hash h (sd_sort v) d) | None => Err KeyError end) hs d = Ok d' ->
  (forall h, In h hs -> exists b v, hget hash h (so_dists (co_cl_b c)) = Some b /\ mapM (co_pv hash c h) b = Ok v /\ hget hash h d' = Some (rsort v)) /\
  (forall x, keys x = ks -> (forall h, In h hs -> map g6 (values h) <> map g6 (values x)) -> hget hash x d' = hget hash x d).
Proof.
  induction hs as [|h hs IH]; intros d d' DH HK H; cbn [foldM] in H; [injection H as <-; split; [intros ? []|reflexivity]|]. destruct (hget hash h (so_dists (co_cl_b c))) as [b|] eqn:Eb; [|discriminate]. apply bind_Ok in H as (d1 & H1 & H). apply bind_Ok in H1 as (v & Hv & H1). injection H1 as <-.
  pose proof (dh_ks _ _ DH) as [Nk Ne]. assert (Kh : keys h = ks) by (apply (dh_keys _ _ DH); now left). destruct (IH _ _ (dh_tail _ _ _ DH) (hset_keyed hash ks h _ d Kh HK) H) as (A & B). split.
  - intros x [<-|Hx]; [|now apply A]. exists b, v. split; [exact Eb|]. split; [exact Hv|]. rewrite B; [now apply (hget_own hash ks)|exact Kh|]. intros y Hy E. apply (head_differs ks h hs y DH Hy). symmetry. exact E.
  - intros x Kx Hx. rewrite B; [|exact Kx|intros y Hy; apply Hx; now right]. apply (hget_different hash ks); auto. apply Hx. now left.
Qed.
Lemma bands_inv hash cdf ks c k bands : distinct_hypos ks (so_hypos (co_clsb c)) -> co_bands hash cdf c k = Ok bands ->
  map fst bands = band_orders k /\ forall i qs, In (i, qs) bands -> Forall2 (fun h q => exists b v, hget hash h (so_dists (co_cl_b c)) = Some b /\ mapM (co_pv hash c h) b = Ok v /\ sd_quantile cdf (rsort v) None (Some (IZR i)) = Ok q) (so_hypos (co_clsb c)) qs.
Proof.
  intros DH H. unfold co_bands in H. apply bind_Ok in H as (ob & Ho & H). apply bind_Ok in H as (ds & Hd & H). assert (K0 : on_params ks (@nil (Hypo * list R))) by (intros ? ? []). destruct (band_loop _ ks _ _ _ _ DH K0 Hd) as (A & _).
  assert (Eh : so_hypos ob = so_hypos (co_clsb c)) by (destruct (so_hypos (co_clsb c)); [discriminate|]; cbn in Ho; injection Ho as <-; reflexivity).
  unfold so_bands in H. apply mapM_Forall2 in H. cbn [so_hypos with_dists] in H. rewrite Eh in H. split.
  - clear - H. induction H as [|i [j qs] l l' E _ IH]; [reflexivity|]. apply bind_Ok in E as (q & _ & E). injection E as <- <-. cbn. now rewrite IH.
  - intros i qs Hin. clear - H A Hin. induction H as [|i0 [j qs0] l l' E _ IH]; [destruct Hin|]. destruct Hin as [[= -> ->]|Hin]; [|now apply IH]. apply bind_Ok in E as (q & E & E'). injection E' as -> ->. apply mapM_Forall2 in E.
    revert A E. generalize (so_hypos (co_clsb c)). clear. intros hs A E. induction E as [|h q hs qs E _ IH]; constructor; [|apply IH; intros x Hx; apply A; now right].
    destruct (A h (or_introl eq_refl)) as (b & v & Hb & Hv & Hg). exists b, v. split; [exact Hb|]. split; [exact Hv|]. unfold so_quantile in E. cbn [so_dists with_dists] in E. rewrite Hg in E. exact E.
Qed.
Lemma cls_values hash c h a b : hget hash h (so_dists (co_clsb c)) = Some a -> hget hash h (so_dists (co_cl_b c)) = Some b -> StronglySorted Rle a -> StronglySorted Rle b -> forall ys v, mapM (co_pv hash c h) ys = Ok v ->
  Forall2 (fun y cc => exists p pb, mid_p a y p /\ mid_p b y pb /\ cc = if Rltb 0 pb then p / pb else 1) ys v.
Proof.
  intros Ha Hb Sa Sb ys v H. apply mapM_Forall2 in H. induction H as [|y cc ys v E _ IH]; constructor; [|exact IH]. unfold co_pv, so_pv in E. rewrite Ha, Hb in E. apply bind_Ok in E as (p & Hp & E). apply bind_Ok in E as (pb & Hpb & E). injection E as <-.
  exists p, pb. split; [now apply pv_sorted|]. split; [now apply pv_sorted|reflexivity].
Qed.
(** the reference parameters *)
Lemma full_value hash it ks : forall hypos d d', distinct_hypos ks hypos -> on_params ks d -> foldM (full_step hash it) hypos d = Ok d' ->
  (forall h, In h hypos -> exists q, pars_init (PIDict (map (fun kv => (fst kv, Some (snd kv))) h)) NINone (Some (i_pm it)) = Ok q /\ hget hash h d' = Some q) /\
  (forall x, keys x = ks -> (forall h, In h hypos -> map g6 (values h) <> map g6 (values x)) -> hget hash x d' = hget hash x d).
Proof.
  induction hypos as [|h hs IH]; intros d d' DH HK H; cbn [foldM] in H; [injection H as <-; split; [intros ? []|reflexivity]|]. apply bind_Ok in H as (d1 & H1 & H). unfold full_step in H1. apply bind_Ok in H1 as (q & Hq & H1). injection H1 as <-.
  pose proof (dh_ks _ _ DH) as [Nk Ne]. assert (Kh : keys h = ks) by (apply (dh_keys _ _ DH); now left). destruct (IH _ _ (dh_tail _ _ _ DH) (hset_keyed hash ks h _ d Kh HK) H) as (A & B). split.
  - intros x [<-|Hx]; [|now apply A]. exists q. split; [exact Hq|]. rewrite B; [now apply (hget_own hash ks)|exact Kh|]. intros y Hy E. apply (head_differs ks h hs y DH Hy). symmetry. exact E.
  - intros x Kx Hx. rewrite B; [|exact Kx|intros y Hy; apply Hx; now right]. apply (hget_different hash ks); auto. apply Hx. now left.
Qed.
Lemma one_poi_init m n x q : pm_pois m = [n] -> pars_init (PIDict (map (fun kv => (fst kv, Some (snd kv))) [(n, x)])) NINone (Some m) = Ok q -> q = mkPars [x] (repeat 0 (length (pm_nps m))) (Some m).
Proof.
  intros E H. destruct (init_dict_full _ _ _ H) as ((W1 & _ & _) & W4). unfold pars_init in H. apply bind_Ok in H as (ps & Hp & H). rewrite E in Hp. unfold pois_from_dict in Hp. cbn [map fst snd fold_left index length repeat] in Hp. rewrite String.eqb_refl in Hp. cbn in Hp. injection Hp as <-.
  apply bind_Ok in H as (u & _ & H). apply bind_Ok in H as (ns & _ & H). apply bind_Ok in H as (u2 & _ & H). injection H as <-. cbn in W1, W4. congruence.
Qed.
Lemma limit_full L k s m it data hypos r n : k <> CalcTMu -> fits_evaluate L m it -> distinct (sl_hash (ll_scan L)) hypos -> pm_pois (i_pm it) = [n] -> distinct_hypos [n] hypos -> limit_compute L k s (m, it) data hypos = Ok r ->
  forall h p, In (h, p) (ra_points r) -> exists x, h = [(n, x)] /\ plr_full p = Some (mkPars [x] (repeat 0 (length (pm_nps (i_pm it)))) (Some (i_pm it))).
Proof.
  intros Hk HE HD Hn DH H h p Hin. unfold limit_compute in H. cbn [fst snd] in H. apply bind_Ok in H as (full & Hfull & H). apply bind_Ok in H as ([r0 s'] & H & E). injection E as <-. cbn [fst] in *.
  pose proof (full_loop (sl_hash (ll_scan L)) it hypos [] full Hfull ltac:(intros ? ? [])) as HF.
  assert (HF' : forall h q, In h hypos -> hget (sl_hash (ll_scan L)) h full = Some q -> wf q (i_pm it)) by (intros x q _ Hq; apply hget_In in Hq as [h' Hin']; eapply HF, Hin').
  destruct (fast_results_ok _ _ _ _ _ _ _ _ _ _ _ _ _ Hk HE HD HF' H) as (A & _ & _ & F). destruct (F h p Hin) as (_ & _ & F3).
  assert (Hh : In h hypos) by (rewrite <- A; apply (in_map fst _ _ Hin)). assert (K0 : on_params [n] (@nil (Hypo * Params))) by (intros ? ? []). destruct (full_value _ it [n] hypos [] full DH K0 Hfull) as (V & _). destruct (V h Hh) as (q & Hq & Hg).
  pose proof (dh_keys _ _ DH h Hh) as Kh. destruct h as [|[n' x] [|]]; try discriminate. cbn in Kh. injection Kh as ->. exists x. split; [reflexivity|]. rewrite F3, Hg. f_equal. now apply (one_poi_init _ n).
Qed.

Lemma file_ok_length root ntoys brk d h s : file_ok root ntoys brk d (h, s) -> forall fa, dget (so_file root h ".npy") (dk_npy d) = Some fa -> (ntoys <= length fa)%nat.
Proof. unfold file_ok. cbn [fst]. intros H fa E. rewrite E in H. exact H. Qed.
Lemma produced_sampled hash root ntoys d d' dists h s : produced hash root ntoys true d d' dists (h, s) -> (forall fa, dget (so_file root h ".npy") (dk_npy d) = Some fa -> (ntoys <= length fa)%nat) -> stored_sorted d ->
  (forall t, sp_generate s ntoys = Ok t -> length t = ntoys) -> exists a, hget hash h dists = Some a /\ sampled d d' (so_file root h ".npy") ntoys (sp_generate s ntoys) a /\ StronglySorted Rle a.
Proof.
  intros P Hl HS HT. unfold produced in P. cbn [fst snd] in P. destruct (dget (so_file root h ".npy") (dk_npy d)) as [fa|] eqn:Ef.
  - destruct P as (P1 & P2). exists (firstn ntoys fa). pose proof (HS _ _ Ef) as Sf. split; [exact P1|]. split; [|now apply firstn_sorted]. exists fa. split; [exact P2|]. split; [reflexivity|]. split; [now apply Hl|]. split; [exact Sf|]. left. exact Ef.
  - destruct P as (t & Ht & P1 & P2). exists (rsort t). split; [exact P1|]. split; [|apply rsort_sorted]. exists (rsort t). specialize (HT t Ht). split; [exact P2|]. split; [symmetry; apply firstn_all2; rewrite rsort_length; lia|]. split; [rewrite rsort_length; lia|].
    split; [apply rsort_sorted|]. right. split; [exact Ef|]. exists t. split; [exact Ht|]. apply Permutation_sym, rsort_perm.
Qed.
Lemma finish_toys L C w o mi bounds r ops0 dk ops dk' : (0 < lo_ntoys o)%nat -> limit_finish L C w o mi bounds r ops0 dk = (ops, dk', None) ->
  exists asy l c c1 c2 r2 lsb ls lb d ops', asymptotic_limits (sl_spline (ll_scan L)) r (lo_cl o) = Ok asy /\ mapM (point_samplers L mi bounds (lo_niter o)) (map snd (ra_points r)) = Ok l /\ limit_samples (map fst l) (map snd l) (lo_out o) = Ok c /\
    co_generate_and_save (sl_hash (ll_scan L)) c (lo_ntoys o) (lo_break o) true dk = ((dk', c1), None) /\ truncated (sl_hash (ll_scan L)) o c1 = Ok c2 /\ sampling_limits L o c2 r = Ok (r2, (lsb, ls), lb) /\
    limit_results (ll_dec L) o (fst mi) asy (Some ((lsb, ls), lb)) = Ok d /\ save_ops C w (limit_results_file o) (Some "json") d = (ops', None) /\ ops = ops0 ++ ops'.
Proof.
  intros Hn H. unfold limit_finish in H. destruct (asymptotic_limits _ r (lo_cl o)) as [asy|]; [|discriminate]. assert (E0 : (lo_ntoys o =? 0)%nat = false) by (apply Nat.eqb_neq; lia). rewrite E0 in H.
  destruct (mapM (point_samplers L mi bounds (lo_niter o)) (map snd (ra_points r))) as [l|]; cbn [bind] in H; [|discriminate]. destruct (limit_samples (map fst l) (map snd l) (lo_out o)) as [c|] eqn:Ec; [|discriminate].
  destruct (co_generate_and_save (sl_hash (ll_scan L)) c (lo_ntoys o) (lo_break o) true dk) as [[d1 c1] [e|]] eqn:Eg; [discriminate|]. destruct (truncated (sl_hash (ll_scan L)) o c1) as [c2|] eqn:Et; cbn [bind] in H; [|discriminate].
  destruct (sampling_limits L o c2 r) as [[[r2 [lsb ls]] lb]|] eqn:Es; [|discriminate]. destruct (limit_results (ll_dec L) o (fst mi) asy (Some ((lsb, ls), lb))) as [d|] eqn:Ed; [|discriminate].
  destruct (save_ops C w (limit_results_file o) (Some "json") d) as [ops' e] eqn:Esv. injection H as <- <- ->. exists asy, l, c, c1, c2, r2, lsb, ls, lb, d, ops'. auto 12.
Qed.
(** the samplers of the points *)
Lemma point_samplers_spec L m it bounds niter n p q x pt ss : m_pois m = [(n, p)] -> pm_pois (i_pm it) = [n] -> plr_full pt = Some q -> q = mkPars [x] (repeat 0 (length (pm_nps (i_pm it)))) (Some (i_pm it)) ->
  point_samplers L (m, it) bounds niter pt = Ok ss -> exists t, dget "tmu_A0" (plr_ts pt) = Some (VNum t) /\
    ss = (mkSampler (plr_hypo pt) (ll_toys L (m, it) (plr_hypo pt) q bounds niter t), mkSampler (plr_hypo pt) (ll_toys L (m, it) (plr_hypo pt) (mkPars [0] (repeat 0 (length (pm_nps (i_pm it)))) (Some (i_pm it))) bounds niter t)).
Proof.
  intros Hp Hn Hq Eq H. unfold point_samplers in H. apply bind_Ok in H as (t & Ht & H). rewrite Hq in H. cbn [bind fst snd] in H. rewrite Hp in H. cbn [keys map fst bind] in H. apply bind_Ok in H as (cl & Hcl & H). cbn [bind] in H. apply bind_Ok in H as (g0 & Hg & H). injection H as <-.
  assert (cl = q) as ->.
  { rewrite Eq in Hcl |- *. unfold pars_clone, pars_init in Hcl. cbn [pois nps pmod] in Hcl. cbn [bind] in Hcl. rewrite Hn in Hcl. cbn [length Nat.eqb bind] in Hcl. apply bind_Ok in Hcl as (ns & Hns & Hcl). apply bind_Ok in Hcl as (u & _ & Hcl). injection Hcl as <-. f_equal. destruct (pm_nps (i_pm it)); cbn in Hns |- *; congruence. }
  unfold pars_set in Hg. rewrite Eq in Hg. cbn [pmod pois nps] in Hg. rewrite Hn in Hg. cbn [index] in Hg. rewrite String.eqb_refl in Hg. cbn in Hg. injection Hg as <-.
  unfold ts_num, dgetE in Ht. destruct (dget "tmu_A0" (plr_ts pt)) as [v|]; cbn [bind] in Ht; [|discriminate]. destruct v; try discriminate. cbn in Ht. injection Ht as ->. exists t. split; reflexivity.
Qed.
Lemma Forall2_In_l {A B} (P : A -> B -> Prop) l l' a : Forall2 P l l' -> In a l -> exists b, In b l' /\ P a b.
Proof. induction 1 as [|x y l l' H _ IH]; [intros []|]. intros [<-|Hin]; [exists y; split; [now left|exact H]|]. destruct (IH Hin) as (b & Hb & Pb). exists b. split; [now right|exact Pb]. Qed.
Lemma Forall2_In_r {A B} (P : A -> B -> Prop) l l' b : Forall2 P l l' -> In b l' -> exists a, In a l /\ P a b.
Proof. induction 1 as [|x y l l' H _ IH]; [intros []|]. intros [<-|Hin]; [exists x; split; [now left|exact H]|]. destruct (IH Hin) as (a & Ha & Pa). exists a. split; [now right|exact Pa]. Qed.
Lemma band_orders_NoDup k : NoDup (band_orders k).
Proof. unfold band_orders. apply FinFun.Injective_map_NoDup; [|apply seq_NoDup]. intros a b H. lia. Qed.
(** the lines of the bands *)
Lemma bands_lines L o ks c r1 n samples bands k : (forall i j, ll_dec L i = ll_dec L j -> i = j) -> distinct_hypos ks (so_hypos (co_clsb c)) -> co_bands (sl_hash (ll_scan L)) (ll_cdf L) c k = Ok bands -> bands_of o = Some k ->
  forall pts, Forall2 (looked (sl_hash (ll_scan L)) c n) pts samples -> map fst pts = so_hypos (co_clsb c) -> (forall s, In s samples -> StronglySorted Rle (se_a s) /\ StronglySorted Rle (se_b s)) ->
  vcurve r1 n "sampling_pv" (pairs (pv_line samples)) ->
  let lines := map (fun b => (fst b, combine (map se_x samples) (snd b))) bands in
  map fst lines = orders o /\ (forall i l, In (i, l) lines -> Forall2 (fun s xy => fst xy = se_x s /\ expected_cls (ll_cdf L (IZR i)) s (snd xy)) samples l) /\
  (forall i l, In (i, l) lines -> curve (fold_left (fill_band (ll_dec L)) bands r1) n (band_pv (ll_dec L) i) l).
Proof.
  intros HD DH Hb Hk pts HF Hm HS HV lines. destruct (bands_inv _ _ _ _ _ _ DH Hb) as (B1 & B2). split; [|split].
  - unfold lines. rewrite orders_bands, map_map, Hk. exact B1.
  - intros i l Hin. unfold lines in Hin. apply in_map_iff in Hin as ([i' qs] & E & Hin). cbn in E. injection E as -> <-. specialize (B2 i qs Hin). rewrite <- Hm in B2. clear - HF HS B2. revert qs B2.
    induction HF as [|[h pt] s pts samples Hl _ IH]; intros qs B2; cbn [map] in B2; inversion B2 as [|? q ? qs' E B3]; subst; [constructor|]. cbn [map combine]. constructor; [|apply IH; [intros s' Hs'; apply HS; now right|exact B3]]. cbn [fst snd].
    destruct Hl as (_ & _ & Ha & Hbb & _ & Hpv). cbn [fst] in *. destruct E as (b & v & Hb2 & Hv & Hq). rewrite Hbb in Hb2. injection Hb2 as <-. destruct (HS s (or_introl eq_refl)) as (Sa & Sb). split; [reflexivity|]. exists v.
    split; [exact (cls_values _ _ _ _ _ Ha Hbb Sa Sb _ _ Hv)|]. apply quantile_spec; [|exact Hq]. intros ->. destruct (se_b s) as [|y b]; [discriminate|]. cbn [mapM] in Hv. apply bind_Ok in Hv as (? & _ & Hv). apply bind_Ok in Hv as (? & _ & Hv). discriminate.
  - intros i l Hin. unfold lines in Hin. apply in_map_iff in Hin as ([i' qs] & E & Hin). cbn in E. injection E as -> <-. apply vcurve_nums.
    assert (Ex : map se_x samples = map fst (pairs (pv_line samples))) by (unfold pairs, pv_line; rewrite !map_map; reflexivity). rewrite Ex. apply (fill_bands_own (ll_dec L) n "sampling_pv" (pairs (pv_line samples)) HD bands r1) with (b := (i, qs)).
    + rewrite B1. apply band_orders_NoDup.
    + intros b _. unfold band_pv. discriminate.
    + intros [j qs'] Hj. specialize (B2 j qs' Hj). apply Forall2_length in B2. apply Forall2_length in HF. cbn [snd]. unfold pairs, pv_line. rewrite !map_length. rewrite <- Hm, map_length in B2. unfold Hypo, dict in *. lia.
    + exact HV.
    + exact Hin.
Qed.

(** the samplers of the points *)
Definition sampler_of (L : LimitLibs) (m : Model) (it : Internal) (bounds : list ParBound) (niter : nat) (h : Hypo) (x t : R) : Sampler :=
  mkSampler h (ll_toys L (m, it) h (mkPars [x] (repeat 0 (length (pm_nps (i_pm it)))) (Some (i_pm it))) bounds niter t).
Lemma samplers_spec L m it bounds niter n p : m_pois m = [(n, p)] -> pm_pois (i_pm it) = [n] -> forall pts sl,
  (forall h pt, In (h, pt) pts -> plr_hypo pt = h /\ exists x, h = [(n, x)] /\ plr_full pt = Some (mkPars [x] (repeat 0 (length (pm_nps (i_pm it)))) (Some (i_pm it)))) -> mapM (point_samplers L (m, it) bounds niter) (map snd pts) = Ok sl ->
  Forall2 (fun hp ss => exists x t, fst hp = [(n, x)] /\ dget "tmu_A0" (plr_ts (snd hp)) = Some (VNum t) /\ ss = (sampler_of L m it bounds niter (fst hp) x t, sampler_of L m it bounds niter (fst hp) 0 t)) pts sl.
Proof.
  intros Hp Hn. induction pts as [|[h pt] pts IH]; intros sl HP H; cbn [map mapM snd] in H; [injection H as <-; constructor|]. apply bind_Ok in H as (ss & H1 & H). apply bind_Ok in H as (sl' & H2 & H). injection H as <-.
  destruct (HP h pt (or_introl eq_refl)) as (Eh & x & Ex & Ef). destruct (point_samplers_spec _ _ _ _ _ _ _ _ x _ _ Hp Hn Ef eq_refl H1) as (t & Ht & ->). rewrite Eh. constructor; [exists x, t; cbn [fst snd]; auto|]. apply IH; [|exact H2]. intros h' pt' Hin. apply HP. now right.
Qed.
Lemma samplers_hypos L m it bounds niter n pts sl : Forall2 (fun hp ss => exists x t, fst hp = [(n, x)] /\ dget "tmu_A0" (plr_ts (snd hp)) = Some (VNum t) /\ ss = (sampler_of L m it bounds niter (fst hp) x t, sampler_of L m it bounds niter (fst hp) 0 t)) pts sl ->
  map sp_hypo (map fst sl) = map fst pts /\ map sp_hypo (map snd sl) = map fst pts.
Proof. induction 1 as [|hp ss pts sl (x & t & _ & _ & ->) _ (A & B)]; [split; reflexivity|]. cbn. rewrite A, B. split; reflexivity. Qed.
(** what sampling_limits does *)
Lemma sampling_limits_inv L o c r r2 lsb ls lb : sampling_limits L o c r = Ok (r2, (lsb, ls), lb) -> exists r1 usb us, on_points (sampling_point (sl_hash (ll_scan L)) c) r = Ok r1 /\
  (match bands_of o with Some k => exists bands, co_bands (sl_hash (ll_scan L)) (ll_cdf L) c k = Ok bands /\ r2 = fold_left (fill_band (ll_dec L)) bands r1 | None => r2 = r1 end) /\
  ul_new r2 "sampling_pv" None (lo_cl o) = Ok usb /\ ul_limit_err (sl_spline (ll_scan L)) usb 3 true = Ok lsb /\ ul_new r2 "sampling_cls" None (lo_cl o) = Ok us /\ ul_limit_err (sl_spline (ll_scan L)) us 3 true = Ok ls /\
  Forall2 (fun b bl => exists u l, ul_new r2 (band_pv (ll_dec L) b) None (95 / 100) = Ok u /\ ul_limit (sl_spline (ll_scan L)) u 3 true = Ok l /\ bl = (b, l)) (orders o) lb.
Proof.
  intros H. unfold sampling_limits in H. apply bind_Ok in H as (r1 & H1 & H). apply bind_Ok in H as (r2' & H2 & H). apply bind_Ok in H as (usb & Hu & H). apply bind_Ok in H as (us & Hs & H). apply bind_Ok in H as (lsb' & Hl & H). apply bind_Ok in H as (ls' & Hl' & H). apply bind_Ok in H as (lb' & Hb & H). injection H as <- <- <- <-.
  exists r1, usb, us. split; [exact H1|]. split; [|split; [exact Hu|split; [exact Hl|split; [exact Hs|split; [exact Hl'|]]]]].
  - destruct (bands_of o); [apply bind_Ok in H2 as (bands & Hbs & H2); injection H2 as <-; eauto|congruence].
  - rewrite orders_bands. destruct (bands_of o) as [k|]; [|injection Hb as <-; constructor]. apply mapM_Forall2 in Hb. clear - Hb. induction Hb as [|b bl l l' E _ IH]; constructor; [|exact IH]. apply bind_Ok in E as (u & Hu & E). apply bind_Ok in E as (v & Hv & E). injection E as <-. eauto.
Qed.

(** A successful run with toys: for every hypothesis there are two sample files, of toys generated at that hypothesis and at 0, with all the NPs at 0; files that were already there are used as they are.  CLs+b and CLb are
    the mid p-values of the asymptotic p-value in the first values of these files, up to the cut of --truncate-dist; CLs is their ratio.  The limits are where their interpolation crosses 5%, and the variations are the
    limits when all the p-values are moved by their uncertainties.  The expected bands are the limits from the quantiles of the CLs of the background toys. *)
Theorem C110_results : forall L E C w pf pi rmatch o f dk ops dk' m it hypos n p, faithful C ->
  limit_model E C o f = Ok (m, it) -> m_pois m = [(n, p)] -> parse_hypos (e_fuel E) pf pi rmatch m (lo_hypos o) = Ok hypos -> distinct (sl_hash (ll_scan L)) hypos -> distinct_hypos [n] hypos -> fits_evaluate L m it -> toys_complete L ->
  (forall i j, ll_dec L i = ll_dec L j -> i = j) -> f (limit_raster_file o) = None -> (0 < lo_ntoys o)%nat -> stored_sorted dk ->
  limit_run L E C w pf pi rmatch o f dk = (ops, dk', None) ->
  exists k bounds r l psb ps samples lines, let S := sl_spline (ll_scan L) in
    asked o k /\ limit_bounds pf o = Ok bounds /\ map fst (ra_points r) = hypos /\ (forall h pt, In (h, pt) (ra_points r) -> plr_hypo pt = h /\ consistent (sl_dist (ll_scan L)) k pt) /\
    raster_dump r = Ok l /\ load_file C (run_ops ops f) (limit_raster_file o) None = Ok [("fast", JList l)] /\ curve r n "pv" psb /\ curve r n "cls" ps /\
    Forall2 (seen L o (m, it) bounds dk dk' n) (ra_points r) samples /\
    map fst lines = orders o /\ (forall i l, In (i, l) lines -> Forall2 (fun s xy => fst xy = se_x s /\ expected_cls (ll_cdf L (IZR i)) s (snd xy)) samples l) /\
    load_file C (run_ops ops f) (limit_results_file o) (Some "json") =
      Ok ([("cl", JFlt (lo_cl o)); ("poi_name", opt_str (poi_name p)); ("poi_unit", opt_str (poi_unit p))]
          ++ sampling_entries S "limit_sampling_CLs" (cls_line samples) ++ [("limit_asymptotics_CLs", in_file (limit95 S ps))]
          ++ sampling_entries S "limit_sampling_CLsb" (pv_line samples) ++ [("limit_asymptotics_CLsb", in_file (limit95 S psb))]
          ++ map (fun il => band_entry L (fst il) (snd il)) lines).
Proof.
  intros L E C w pf pi rmatch o f dk ops dk' m it hypos n p HC Hm Hp Hh HD DH HE HT Hdec Hf Hn HS H. destruct (limit_run_inputs _ _ _ _ _ _ _ _ _ _ _ _ H) as (m1 & it1 & hy1 & data & bounds & k & s & Hm1 & Hh1 & Hd & Hb & Hk & Hs).
  rewrite Hm in Hm1. injection Hm1 as <- <-. rewrite Hh in Hh1. injection Hh1 as <-. rewrite (limit_run_fresh _ _ _ _ _ _ _ _ _ _ _ _ _ _ _ _ _ Hm Hh Hd Hb Hk Hs Hf) in H.
  unfold with_results in H. destruct (limit_compute L k s (m, it) data hypos) as [r|] eqn:Er; cbn [bind] in H; [|discriminate]. destruct (raster_dump r) as [l|] eqn:El; cbn [bind] in H; [|discriminate].
  destruct (save_ops C w (limit_raster_file o) None [("fast", JList l)]) as [ops1 [e|]] eqn:E1; [discriminate|].
  destruct (finish_toys _ _ _ _ _ _ _ _ _ _ _ Hn H) as (asy & sl & c & c1 & c2 & r2 & lsb & ls & lb & d & ops2 & Ha & Hsl & Hc & Hg & Ht & Hlim & Hres & Hsave & ->).
  destruct (limit_stat_spec _ _ _ Hk) as (Hask & Hlen & Hkn). destruct (asymptotic_pois _ _ _ _ Ha) as [n' Hn'].
  assert (Hl1 : (length (pm_pois (i_pm it)) <= 1)%nat) by (rewrite (limit_model_names _ _ _ _ _ _ Hm); unfold keys; rewrite map_length; exact Hlen).
  destruct (limit_raster _ _ _ _ _ _ _ _ _ Hkn HE HD Hl1 Er Hn') as (Hpm & psb & ps & C1 & C2). assert (n' = n) as -> by (rewrite (limit_model_names _ _ _ _ _ _ Hm), Hp in Hpm; cbn in Hpm; congruence).
  destruct asy as [asb as_]. destruct (asymptotic_spec _ _ _ _ _ _ _ _ Ha Hn' C1 C2) as [-> ->]. destruct (limit_compute_ok _ _ _ _ _ _ _ _ Hkn HE HD Er) as (K1 & _ & _ & K4).
  pose proof (limit_full _ _ _ _ _ _ _ _ n Hkn HE HD Hpm DH Er) as KF.
  (* the samplers *)
  set (hash := sl_hash (ll_scan L)) in *.
  assert (SP := samplers_spec L m it bounds (lo_niter o) n p Hp Hpm (ra_points r) sl (fun h pt Hin => conj (proj1 (K4 h pt Hin)) (KF h pt Hin)) Hsl). destruct (samplers_hypos _ _ _ _ _ _ _ _ SP) as (SH1 & SH2). apply (fun X => eq_trans X K1) in SH1. apply (fun X => eq_trans X K1) in SH2.
  assert (SK : forall s0, In s0 (map fst sl) \/ In s0 (map snd sl) -> keys (sp_hypo s0) = [n]) by (intros s0 [Hin|Hin]; apply (dh_keys _ _ DH); [rewrite <- SH1|rewrite <- SH2]; now apply in_map).
  destruct (co_generate_keys _ [n] _ _ _ _ _ _ _ _ _ Hc SK Hg) as (G1 & G2 & G3 & G4). rewrite SH1 in G1. rewrite SH2 in G2.
  assert (DH1 : distinct_hypos [n] (so_hypos (co_clsb c1))) by (rewrite G1; exact DH). assert (G21 : so_hypos (co_cl_b c1) = so_hypos (co_clsb c1)) by congruence.
  destruct (truncated_inv _ [n] _ _ _ DH1 G21 G3 G4 Ht) as (T1 & T2 & T3). rewrite G1 in T1, T2, T3.
  destruct (sampling_limits_inv _ _ _ _ _ _ _ _ Hlim) as (r1 & usb & us & HR1 & HB & U1 & U2 & U3 & U4 & U5).
  destruct (on_points_looked hash c2 n r r1) as (Rp & samples & LK & V1 & V2); [intros h pt Hin; split; [apply (K4 h pt Hin)|destruct (KF h pt Hin) as (x & -> & _); exists x; cbn; now rewrite String.eqb_refl]|exact HR1|].
  assert (HG : forall h, In h (map sp_hypo (map fst sl)) -> hget hash h (so_dists (co_clsb c1)) <> None /\ hget hash h (so_dists (co_cl_b c1)) <> None).
  { intros h Hin. rewrite SH1 in Hin. destruct (T3 h Hin) as (X1 & X2). rewrite <- K1 in Hin. apply in_map_iff in Hin as (hp & <- & Hin). destruct (Forall2_In_l _ _ _ _ LK Hin) as (sn & _ & (_ & _ & A & B & _)).
    rewrite A in X1. rewrite B in X2. split; intros Z; rewrite Z in *; discriminate. }
  assert (DHs : distinct_hypos [n] (map sp_hypo (map fst sl))) by (rewrite SH1; exact DH). assert (SH12 : map sp_hypo (map snd sl) = map sp_hypo (map fst sl)) by congruence.
  destruct (co_generate_inv _ [n] _ _ _ _ _ _ _ _ _ Hc Hn DHs SH12 Hg HG) as (_ & _ & _ & _ & P1 & P2 & _ & Q1 & Q2).
  assert (SEEN : forall hp sn, In hp (ra_points r) -> looked hash c2 n hp sn -> seen L o (m, it) bounds dk dk' n hp sn /\ StronglySorted Rle (se_a sn) /\ StronglySorted Rle (se_b sn)).
  { intros hp sn Hin (A1 & A2 & A3 & A4 & A5 & A6). assert (Hhy : In (fst hp) hypos) by (rewrite <- K1; now apply in_map). destruct (T3 _ Hhy) as (X1 & X2). rewrite A3 in X1. rewrite A4 in X2.
    destruct (Forall2_In_l _ _ _ _ SP Hin) as (ss & Hss & x & t & Eh & Et & ->).
    assert (In1 : In (sampler_of L m it bounds (lo_niter o) (fst hp) x t) (map fst sl)) by (apply (in_map fst _ _ Hss)). assert (In2 : In (sampler_of L m it bounds (lo_niter o) (fst hp) 0 t) (map snd sl)) by (apply (in_map snd _ _ Hss)).
    destruct (produced_sampled hash (lo_out o) (lo_ntoys o) dk dk' (so_dists (co_clsb c1)) (fst hp) _ (P1 _ In1) (file_ok_length _ _ _ _ _ _ (Q1 _ In1)) HS (fun t0 Ht0 => HT _ _ _ _ _ _ _ _ Ht0)) as (a & Ha1 & Sa1 & Sa2).
    destruct (produced_sampled hash (lo_out o ++ "_clb") (lo_ntoys o) dk dk' (so_dists (co_cl_b c1)) (fst hp) _ (P2 _ In2) (file_ok_length _ _ _ _ _ _ (Q2 _ In2)) HS (fun t0 Ht0 => HT _ _ _ _ _ _ _ _ Ht0)) as (b & Hb1 & Sb1 & Sb2).
    rewrite Ha1 in X1. cbn in X1. injection X1 as X1. rewrite Hb1 in X2. cbn in X2. injection X2 as X2.
    assert (Sa : StronglySorted Rle (se_a sn)) by (rewrite X1; now apply kept_sorted). assert (Sb : StronglySorted Rle (se_b sn)) by (rewrite X2; now apply kept_sorted). split; [|split; assumption].
    split; [exact A1|]. split; [exact A2|]. split; [|split; apply pv_err_sorted; assumption]. exists t, a, b. split; [exact Et|]. cbn zeta. assert (x = se_x sn) as <- by (destruct hp as [hh pt]; cbn [fst] in *; subst hh; cbn in A1; rewrite String.eqb_refl in A1; congruence).
    split; [exact Sa1|]. split; [exact X1|]. split; [exact Sb1|exact X2]. }
  assert (SORT : forall sn, In sn samples -> StronglySorted Rle (se_a sn) /\ StronglySorted Rle (se_b sn)).
  { intros sn Hsn. destruct (Forall2_In_r _ _ _ _ LK Hsn) as (hp & Hin & Hlk). apply (SEEN hp sn Hin Hlk). }
  assert (SN : Forall2 (seen L o (m, it) bounds dk dk' n) (ra_points r) samples).
  { clear - LK SEEN. remember (ra_points r) as pts eqn:Ep. assert (HI : forall hp sn, In hp pts -> looked hash c2 n hp sn -> seen L o (m, it) bounds dk dk' n hp sn) by (intros hp sn Hin Hl; apply (SEEN hp sn Hin Hl)). clear SEEN Ep.
    induction LK as [|hp sn pts samples Hl _ IH]; constructor; [apply HI; [now left|exact Hl]|apply IH; intros; apply HI; [now right|assumption]]. }
  assert (LN : exists lines, map fst lines = orders o /\ (forall i l, In (i, l) lines -> Forall2 (fun s xy => fst xy = se_x s /\ expected_cls (ll_cdf L (IZR i)) s (snd xy)) samples l) /\
      (forall i l, In (i, l) lines -> curve r2 n (band_pv (ll_dec L) i) l) /\ ra_pois r2 = ra_pois r /\ vcurve r2 n "sampling_pv" (pairs (pv_line samples)) /\ vcurve r2 n "sampling_cls" (pairs (cls_line samples))).
  { destruct (bands_of o) as [kb|] eqn:Ek.
    - destruct HB as (bands & Hbands & ->). assert (DH2 : distinct_hypos [n] (so_hypos (co_clsb c2))) by (rewrite T1; exact DH). eexists.
      destruct (bands_lines L o [n] c2 r1 n samples bands kb Hdec DH2 Hbands Ek (ra_points r) LK ltac:(rewrite T1; exact K1) SORT V1) as (Z1 & Z2 & Z3). split; [exact Z1|]. split; [exact Z2|]. split; [exact Z3|].
      split; [rewrite fold_fill_pois; exact Rp|]. split; apply fill_bands_other; auto; intros b _; unfold band_pv; discriminate.
    - subst r2. exists []. rewrite orders_bands, Ek. split; [reflexivity|]. split; [intros ? ? []|]. split; [intros ? ? []|]. auto. }
  destruct LN as (lines & N1 & N2 & N3 & N4 & N5 & N6). assert (Hn2 : hd_error (ra_pois r2) = Some n) by (rewrite N4; exact Hn').
  exists k, bounds, r, l, psb, ps, samples, lines. cbn zeta. split; [exact Hask|]. split; [exact Hb|]. split; [exact K1|]. split; [intros h pt Hin; destruct (K4 _ _ Hin) as (A & _ & _ & B); auto|]. split; [exact El|].
  rewrite run_ops_app. split; [|split; [exact C1|split; [exact C2|split; [exact SN|split; [exact N1|split; [exact N2|]]]]]].
  - assert (X : run_ops ops2 (run_ops ops1 f) (limit_raster_file o) = run_ops ops1 f (limit_raster_file o)) by (eapply save_only; [exact Hsave|apply limit_files_differ]).
    rewrite (load_local _ _ _ _ _ X). apply (C89_saved_file_is_loaded _ _ _ _ _ _ f HC E1).
  - etransitivity; [apply (C89_saved_file_is_loaded _ _ _ _ _ _ (run_ops ops1 f) HC Hsave)|]. unfold limit_results in Hres. cbn [fst] in Hres. rewrite Hp in Hres. cbn [snd] in Hres.
    rewrite (ul_value_err _ _ _ _ _ _ _ "limit_sampling_CLs" U3 _ U4 Hn2 N6), (ul_value_err _ _ _ _ _ _ _ "limit_sampling_CLsb" U1 _ U2 Hn2 N5) in Hres.
    assert (BL : map (fun bl => (("limit_sampling_CLs_expected_band_" ++ signed (ll_dec L) (fst bl))%string, limit_value (snd bl))) lb = map (fun il => band_entry L (fst il) (snd il)) lines).
    { rewrite <- N1 in U5. clear - U5 N3 Hn2. remember (map fst lines) as os eqn:Eo. revert lines Eo N3. induction U5 as [|b bl os lb (u & v & Hu & Hv & ->) _ IH]; intros [|[i li] lines] Eo N3; try discriminate; [reflexivity|]. cbn in Eo. injection Eo as -> Eo. cbn [map fst snd].
      f_equal; [|apply IH; [exact Eo|intros; apply N3; now right]]. unfold band_entry. rewrite (ul_value _ _ _ _ _ _ _ _ Hu Hv Hn2 (N3 i li (or_introl eq_refl))). reflexivity. }
    rewrite BL in Hres. injection Hres as <-. reflexivity.
Qed.
Print Assumptions C110_results.

(** ** when the samples of a run were found *)
Definition raster_for (it : Internal) (n : string) (hypos : list Hypo) (r : Raster) : Prop := map fst (ra_points r) = hypos /\
  forall h pt, In (h, pt) (ra_points r) -> plr_hypo pt = h /\ exists x, h = [(n, x)] /\ plr_full pt = Some (mkPars [x] (repeat 0 (length (pm_nps (i_pm it)))) (Some (i_pm it))).
Lemma stages_found L m it o bounds r hypos n p dk dk' sl c c1 c2 v : m_pois m = [(n, p)] -> pm_pois (i_pm it) = [n] -> distinct_hypos [n] hypos -> raster_for it n hypos r ->
  mapM (point_samplers L (m, it) bounds (lo_niter o)) (map snd (ra_points r)) = Ok sl -> limit_samples (map fst sl) (map snd sl) (lo_out o) = Ok c ->
  co_generate_and_save (sl_hash (ll_scan L)) c (lo_ntoys o) (lo_break o) true dk = ((dk', c1), None) -> truncated (sl_hash (ll_scan L)) o c1 = Ok c2 -> sampling_limits L o c2 r = Ok v ->
  map sp_hypo (map fst sl) = hypos /\ map sp_hypo (map snd sl) = hypos /\ so_hypos (co_clsb c1) = hypos /\ so_hypos (co_cl_b c1) = hypos /\ on_params [n] (so_dists (co_clsb c1)) /\ on_params [n] (so_dists (co_cl_b c1)) /\
  forall h, In h hypos -> hget (sl_hash (ll_scan L)) h (so_dists (co_clsb c1)) <> None /\ hget (sl_hash (ll_scan L)) h (so_dists (co_cl_b c1)) <> None.
Proof.
  intros Hp Hpm DH (K1 & K4) Hsl Hc Hg Ht Hlim. set (hash := sl_hash (ll_scan L)) in *.
  assert (SP := samplers_spec L m it bounds (lo_niter o) n p Hp Hpm (ra_points r) sl K4 Hsl). destruct (samplers_hypos _ _ _ _ _ _ _ _ SP) as (SH1 & SH2). apply (fun X => eq_trans X K1) in SH1. apply (fun X => eq_trans X K1) in SH2.
  assert (SK : forall s0, In s0 (map fst sl) \/ In s0 (map snd sl) -> keys (sp_hypo s0) = [n]) by (intros s0 [Hin|Hin]; apply (dh_keys _ _ DH); [rewrite <- SH1|rewrite <- SH2]; now apply in_map).
  destruct (co_generate_keys _ [n] _ _ _ _ _ _ _ _ _ Hc SK Hg) as (G1 & G2 & G3 & G4). rewrite SH1 in G1. rewrite SH2 in G2. repeat (split; [assumption|]).
  assert (DH1 : distinct_hypos [n] (so_hypos (co_clsb c1))) by (rewrite G1; exact DH). assert (G21 : so_hypos (co_cl_b c1) = so_hypos (co_clsb c1)) by congruence.
  destruct (truncated_inv _ [n] _ _ _ DH1 G21 G3 G4 Ht) as (T1 & T2 & T3). rewrite G1 in T1, T2, T3. destruct v as [[r2 [lsb ls]] lb].
  destruct (sampling_limits_inv _ _ _ _ _ _ _ _ Hlim) as (r1 & usb & us & HR1 & _).
  destruct (on_points_looked hash c2 n r r1) as (_ & samples & LK & _ & _); [intros h pt Hin; split; [apply (K4 h pt Hin)|destruct (K4 h pt Hin) as (_ & x & -> & _); exists x; cbn; now rewrite String.eqb_refl]|exact HR1|].
  intros h Hin. destruct (T3 h Hin) as (X1 & X2). rewrite <- K1 in Hin. apply in_map_iff in Hin as (hp & <- & Hin). destruct (Forall2_In_l _ _ _ _ LK Hin) as (sn & _ & (_ & _ & A & B & _)).
  rewrite A in X1. rewrite B in X2. split; intros Z; rewrite Z in *; discriminate.
Qed.
Lemma computed_raster L k s m it data hypos r n : k <> CalcTMu -> fits_evaluate L m it -> distinct (sl_hash (ll_scan L)) hypos -> pm_pois (i_pm it) = [n] -> distinct_hypos [n] hypos -> limit_compute L k s (m, it) data hypos = Ok r -> raster_for it n hypos r.
Proof.
  intros Hk HE HD Hpm DH Hr. destruct (limit_compute_ok _ _ _ _ _ _ _ _ Hk HE HD Hr) as (K1 & _ & _ & K4). split; [exact K1|]. intros h pt Hin. split; [apply (K4 h pt Hin)|apply (limit_full _ _ _ _ _ _ _ _ n Hk HE HD Hpm DH Hr h pt Hin)].
Qed.
Lemma finish_cases L C w o mi bounds r ops0 dk ops dk' e : (0 < lo_ntoys o)%nat -> limit_finish L C w o mi bounds r ops0 dk = (ops, dk', e) ->
  (ops = ops0 /\ e <> None) \/ exists l c c1 c2 v, mapM (point_samplers L mi bounds (lo_niter o)) (map snd (ra_points r)) = Ok l /\ limit_samples (map fst l) (map snd l) (lo_out o) = Ok c /\
    co_generate_and_save (sl_hash (ll_scan L)) c (lo_ntoys o) (lo_break o) true dk = ((dk', c1), None) /\ truncated (sl_hash (ll_scan L)) o c1 = Ok c2 /\ sampling_limits L o c2 r = Ok v.
Proof.
  intros Hn H. unfold limit_finish in H. destruct (asymptotic_limits _ r (lo_cl o)) as [asy|]; [|left; injection H as <- <- <-; split; [reflexivity|discriminate]]. assert (E0 : (lo_ntoys o =? 0)%nat = false) by (apply Nat.eqb_neq; lia). rewrite E0 in H.
  destruct (mapM (point_samplers L mi bounds (lo_niter o)) (map snd (ra_points r))) as [l|]; cbn [bind] in H; [|left; injection H as <- <- <-; split; [reflexivity|discriminate]].
  destruct (limit_samples (map fst l) (map snd l) (lo_out o)) as [c|] eqn:Ec; [|left; injection H as <- <- <-; split; [reflexivity|discriminate]].
  destruct (co_generate_and_save (sl_hash (ll_scan L)) c (lo_ntoys o) (lo_break o) true dk) as [[d1 c1] [e1|]] eqn:Eg; [left; injection H as <- <- <-; split; [reflexivity|discriminate]|].
  destruct (truncated (sl_hash (ll_scan L)) o c1) as [c2|] eqn:Et; cbn [bind] in H; [|left; injection H as <- <- <-; split; [reflexivity|discriminate]].
  destruct (sampling_limits L o c2 r) as [v|] eqn:Es; [|left; injection H as <- <- <-; split; [reflexivity|discriminate]]. right. exists l, c, c1, c2, v.
  assert (dk' = d1) as ->; [|auto]. destruct v as [[r2 l2] lb]. destruct (limit_results (ll_dec L) o (fst mi) asy (Some (l2, lb))) as [d|]; [|congruence]. destruct (save_ops C w (limit_results_file o) (Some "json") d). congruence.
Qed.
(** intended: a sample that is missing because another process (or a run that was stopped) holds its lock is waited for, or the run says so.  Refuted: it is left out, and the run then fails: no results are written. *)
Theorem C110_locked_refuted : forall L E C w pf pi rmatch o f dk ops dk' e m it hypos n p h root, limit_model E C o f = Ok (m, it) -> m_pois m = [(n, p)] -> parse_hypos (e_fuel E) pf pi rmatch m (lo_hypos o) = Ok hypos ->
  distinct (sl_hash (ll_scan L)) hypos -> distinct_hypos [n] hypos -> fits_evaluate L m it -> f (limit_raster_file o) = None -> (0 < lo_ntoys o)%nat -> lo_break o = false ->
  In h hypos -> root = lo_out o \/ root = (lo_out o ++ "_clb")%string -> dget (so_file root h ".npy") (dk_npy dk) = None -> In (so_file root h ".lock") (dk_lock dk) ->
  limit_run L E C w pf pi rmatch o f dk = (ops, dk', e) -> e <> None /\ run_ops ops f (limit_results_file o) = f (limit_results_file o).
Proof.
  intros L E C w pf pi rmatch o f dk ops dk' e m it hypos n p h root Hm Hp Hh HD DH HE Hf Hn Hbr Hin Hroot Hno Hlk H.
  unfold limit_run in H. rewrite Hm in H. cbn [bind fst snd] in H. rewrite Hh in H. cbn [bind] in H. rewrite (stored_none _ _ _ _ _ Hf) in H.
  destruct (limit_data C pf o f (m, it)) as [data|]; cbn [bind] in H; [|injection H as <- <- <-; split; [discriminate|reflexivity]]. destruct (limit_bounds pf o) as [bounds|]; cbn [bind] in H; [|injection H as <- <- <-; split; [discriminate|reflexivity]].
  destruct (limit_stat m (lo_stat o)) as [k|] eqn:Hk; cbn [bind] in H; [|injection H as <- <- <-; split; [discriminate|reflexivity]]. destruct (limit_minimizer (m, it) bounds) as [s|]; cbn [bind] in H; [|injection H as <- <- <-; split; [discriminate|reflexivity]].
  assert (E1 : (if lo_overwrite o then None else @None Raster) = None) by now destruct (lo_overwrite o). rewrite E1 in H. destruct (limit_compute L k s (m, it) data hypos) as [r|] eqn:Er; cbn [bind] in H; [|injection H as <- <- <-; split; [discriminate|reflexivity]].
  destruct (raster_dump r) as [l|] eqn:El; cbn [bind] in H; [|injection H as <- <- <-; split; [discriminate|reflexivity]].
  assert (NR : limit_results_file o <> limit_raster_file o) by (intros X; symmetry in X; now apply limit_files_differ in X).
  destruct (save_ops C w (limit_raster_file o) None [("fast", JList l)]) as [ops1 [e1|]] eqn:Es; [injection H as <- <- <-; split; [discriminate|eapply save_only; eauto]|].
  destruct (finish_cases _ _ _ _ _ _ _ _ _ _ _ _ Hn H) as [(-> & He)|(sl & c & c1 & c2 & v & Hsl & Hc & Hg & Ht & Hlim)]; [split; [exact He|eapply save_only; eauto]|]. exfalso.
  destruct (limit_stat_spec _ _ _ Hk) as (_ & _ & Hkn). assert (Hpm : pm_pois (i_pm it) = [n]) by (rewrite (limit_model_names _ _ _ _ _ _ Hm), Hp; reflexivity).
  pose proof (computed_raster _ _ _ _ _ _ _ _ n Hkn HE HD Hpm DH Er) as HR. destruct (stages_found _ _ _ _ _ _ _ _ _ _ _ _ _ _ _ _ Hp Hpm DH HR Hsl Hc Hg Ht Hlim) as (SH1 & SH2 & _ & _ & _ & _ & HG).
  assert (DHs : distinct_hypos [n] (map sp_hypo (map fst sl))) by (rewrite SH1; exact DH). assert (SH12 : map sp_hypo (map snd sl) = map sp_hypo (map fst sl)) by congruence.
  destruct (co_generate_inv _ [n] _ _ _ _ _ _ _ _ _ Hc Hn DHs SH12 Hg ltac:(rewrite SH1; exact HG)) as (_ & _ & _ & _ & _ & _ & _ & Q1 & Q2).
  destruct Hroot as [-> | ->].
  - rewrite <- SH1 in Hin. apply in_map_iff in Hin as (s0 & <- & Hin). specialize (Q1 s0 Hin). unfold file_ok in Q1. cbn [fst] in Q1. rewrite Hno in Q1. destruct Q1 as ([X|X] & _); [congruence|contradiction].
  - rewrite <- SH2 in Hin. apply in_map_iff in Hin as (s0 & <- & Hin). specialize (Q2 s0 Hin). unfold file_ok in Q2. cbn [fst] in Q2. rewrite Hno in Q2. destruct Q2 as ([X|X] & _); [congruence|contradiction].
Qed.
Print Assumptions C110_locked_refuted.

(** ** running again *)
Lemma mapM_ext_in {A B} (f g : A -> res B) l : (forall a, In a l -> f a = g a) -> mapM f l = mapM g l.
Proof. induction l as [|a l IH]; intros H; [reflexivity|]. cbn [mapM]. rewrite (H a (or_introl eq_refl)), (IH (fun x Hx => H x (or_intror Hx))). reflexivity. Qed.
Lemma foldM_ext_in {A B} (f g : B -> A -> res B) l : forall b, (forall b a, In a l -> f b a = g b a) -> foldM f l b = foldM g l b.
Proof. induction l as [|a l IH]; intros b H; [reflexivity|]. cbn [foldM]. rewrite (H b a (or_introl eq_refl)). destruct (g b a); cbn [bind]; [|reflexivity]. apply IH. intros b' a' Ha. apply H. now right. Qed.
(** the same samples for the hypotheses *)
Definition same_samples (hash : list string -> Z) (hypos : list Hypo) (c c' : CObj) : Prop := so_hypos (co_clsb c) = hypos /\ so_hypos (co_clsb c') = hypos /\
  forall h, In h hypos -> hget hash h (so_dists (co_clsb c')) = hget hash h (so_dists (co_clsb c)) /\ hget hash h (so_dists (co_cl_b c')) = hget hash h (so_dists (co_cl_b c)).
Lemma same_samples_points hash hypos c c' h apv : same_samples hash hypos c c' -> In h hypos -> so_pv_err hash (co_clsb c') h apv = so_pv_err hash (co_clsb c) h apv /\ so_pv_err hash (co_cl_b c') h apv = so_pv_err hash (co_cl_b c) h apv /\ co_pv hash c' h apv = co_pv hash c h apv.
Proof. intros (_ & _ & H) Hin. destruct (H h Hin) as (A & B). unfold co_pv, so_pv, so_pv_err. rewrite A, B. auto. Qed.
Lemma sampling_limits_ext L L' o hypos c c' r : same_samples (sl_hash (ll_scan L)) hypos c c' -> ll_scan L' = ll_scan L -> ll_cdf L' = ll_cdf L -> ll_dec L' = ll_dec L -> (forall h pt, In (h, pt) (ra_points r) -> In (plr_hypo pt) hypos) ->
  sampling_limits L' o c' r = sampling_limits L o c r.
Proof.
  intros HS E1 E2 E3 HP. unfold sampling_limits. rewrite E1, E2, E3. set (hash := sl_hash (ll_scan L)) in *.
  assert (P : on_points (sampling_point hash c') r = on_points (sampling_point hash c) r).
  { unfold on_points. erewrite mapM_ext_in; [reflexivity|]. intros [h pt] Hin. cbn [fst snd]. assert (X : sampling_point hash c' pt = sampling_point hash c pt); [|now rewrite X]. unfold sampling_point. destruct (bind (dgetE "pv" (plr_pvs pt)) num_of) as [apv|]; cbn [bind]; [|reflexivity].
    destruct (same_samples_points _ _ _ _ _ apv HS (HP h pt Hin)) as (A & B & _). unfold co_pv_err. rewrite A, B. reflexivity. }
  rewrite P. destruct (on_points (sampling_point hash c) r); cbn [bind]; [|reflexivity]. destruct (bands_of o) as [k|]; [|reflexivity].
  assert (Bd : co_bands hash (ll_cdf L) c' k = co_bands hash (ll_cdf L) c k); [|now rewrite Bd].
  pose proof HS as (H1 & H2 & H3). unfold co_bands. rewrite H1, H2. destruct (so_init [] "" hypos) as [ob|]; cbn [bind]; [|reflexivity].
  erewrite foldM_ext_in; [reflexivity|]. intros d h Hin. cbn beta. destruct (H3 h Hin) as (_ & ->). destruct (hget hash h (so_dists (co_cl_b c))) as [s|]; [|reflexivity].
  erewrite mapM_ext_in; [reflexivity|]. intros y _. apply (same_samples_points _ _ _ _ _ y HS Hin).
Qed.
Lemma truncated_ok hash ks o c : distinct_hypos ks (so_hypos (co_clsb c)) -> so_hypos (co_cl_b c) = so_hypos (co_clsb c) -> on_params ks (so_dists (co_clsb c)) -> on_params ks (so_dists (co_cl_b c)) ->
  (forall h, In h (so_hypos (co_clsb c)) -> hget hash h (so_dists (co_clsb c)) <> None /\ hget hash h (so_dists (co_cl_b c)) <> None) -> exists c2, truncated hash o c = Ok c2.
Proof.
  intros DH Hh K1 K2 HG. unfold truncated. destruct (truthy (lo_trunc o)) as [x|]; [|eauto]. unfold co_cut, so_cut. destruct (cut_loop hash ks None (Some x) _ _ DH K1 (fun h Hin => proj1 (HG h Hin))) as (d1 & -> & _). cbn [bind].
  assert (DHb : distinct_hypos ks (so_hypos (co_cl_b c))) by now rewrite Hh. destruct (cut_loop hash ks None (Some x) _ _ DHb K2) as (d2 & -> & _); [intros h Hin; apply HG; rewrite <- Hh; exact Hin|]. cbn [bind]. eauto.
Qed.
Lemma samplers_other L L' mi bounds niter : forall pts sl, mapM (point_samplers L mi bounds niter) pts = Ok sl -> exists sl', mapM (point_samplers L' mi bounds niter) pts = Ok sl' /\ map sp_hypo (map fst sl') = map sp_hypo (map fst sl) /\ map sp_hypo (map snd sl') = map sp_hypo (map snd sl).
Proof.
  induction pts as [|p pts IH]; intros sl H; cbn [mapM] in *; [injection H as <-; exists []; auto|]. apply bind_Ok in H as (ss & H1 & H). apply bind_Ok in H as (sl0 & H2 & H). injection H as <-. destruct (IH _ H2) as (sl' & -> & A & B).
  unfold point_samplers in *. destruct (ts_num "tmu_A0" p) as [t|]; cbn [bind] in *; [|discriminate]. destruct (match plr_full p with Some g => Ok g | None => Err AttributeError end) as [g|]; cbn [bind] in *; [|discriminate].
  destruct (pars_clone g) as [cl|]; cbn [bind] in *; [|discriminate]. destruct (match keys (m_pois (fst mi)) with n :: _ => Ok n | [] => Err AttributeError end) as [n|]; cbn [bind] in *; [|discriminate]. destruct (pars_set cl n 0 false) as [g0|]; cbn [bind] in *; [|discriminate].
  injection H1 as <-. eexists. split; [reflexivity|]. cbn. rewrite A, B. auto.
Qed.
(** When all the sample files are there, the samples are the first values of these files, whatever the samplers would generate; nothing is written. *)
Lemma generate_stored hash ks samplers root o ntoys brk d : so_init samplers root [] = Ok o -> (0 < ntoys)%nat -> distinct_hypos ks (map sp_hypo samplers) ->
  (forall h, In h (map sp_hypo samplers) -> exists fa, dget (so_file root h ".npy") (dk_npy d) = Some fa /\ (ntoys <= length fa)%nat) ->
  exists o', so_generate_and_save hash o ntoys brk true d = ((d, o'), None) /\ so_hypos o' = map sp_hypo samplers /\ on_params ks (so_dists o') /\
    forall h fa, In h (map sp_hypo samplers) -> dget (so_file root h ".npy") (dk_npy d) = Some fa -> hget hash h (so_dists o') = Some (firstn ntoys fa).
Proof.
  intros Hi Hn DH HF. destruct (init_samplers _ _ _ Hi) as (Hs & Eo). assert (K0 : on_params ks (@nil (Hypo * list R))) by (intros ? ? []).
  destruct (generate_spec hash ks samplers root o ntoys brk true d [] Hs Eo Hn DH K0) as (d' & o' & R & A & _ & _ & K & P & _ & _ & Un).
  - intros s Hin. unfold file_ok. cbn [fst]. destruct (HF _ (in_map sp_hypo _ _ Hin)) as (fa & -> & Hl). exact Hl.
  - assert (d' = d) as -> by (apply Un; intros s Hin; destruct (HF _ (in_map sp_hypo _ _ Hin)) as (fa & -> & _); discriminate). exists o'. split; [exact R|]. split; [rewrite A, Eo; reflexivity|]. split; [exact K|].
    intros h fa Hin Hfa. apply in_map_iff in Hin as (s & <- & Hin). specialize (P s Hin). unfold produced in P. cbn [fst] in P. rewrite Hfa in P. apply P.
Qed.
(** the samples of a run, read again *)
Lemma finish_again L L' C w o m it bounds r hypos n p dk dk' ops : m_pois m = [(n, p)] -> pm_pois (i_pm it) = [n] -> distinct_hypos [n] hypos -> raster_for it n hypos r -> toys_complete L -> (0 < lo_ntoys o)%nat ->
  ll_scan L' = ll_scan L -> ll_cdf L' = ll_cdf L -> ll_dec L' = ll_dec L -> limit_finish L C w o (m, it) bounds r [] dk = (ops, dk', None) -> limit_finish L' C w o (m, it) bounds r [] dk' = (ops, dk', None).
Proof.
  intros Hp Hpm DH HR HT Hn E1 E2 E3 H. destruct (finish_toys _ _ _ _ _ _ _ _ _ _ _ Hn H) as (asy & sl & c & c1 & c2 & r2 & lsb & ls & lb & d & ops2 & Ha & Hsl & Hc & Hg & Ht & Hlim & Hres & Hsave & ->).
  destruct (stages_found _ _ _ _ _ _ _ _ _ _ _ _ _ _ _ _ Hp Hpm DH HR Hsl Hc Hg Ht Hlim) as (SH1 & SH2 & G1 & G2 & G3 & G4 & HG).
  assert (DHs : distinct_hypos [n] (map sp_hypo (map fst sl))) by (rewrite SH1; exact DH). assert (SH12 : map sp_hypo (map snd sl) = map sp_hypo (map fst sl)) by congruence.
  destruct (co_generate_inv _ [n] _ _ _ _ _ _ _ _ _ Hc Hn DHs SH12 Hg ltac:(rewrite SH1; exact HG)) as (_ & _ & _ & _ & P1 & P2 & _ & Q1 & Q2).
  set (hash := sl_hash (ll_scan L)) in *.
  assert (SP := samplers_spec L m it bounds (lo_niter o) n p Hp Hpm (ra_points r) sl (proj2 HR) Hsl).
  assert (LEN : forall s, In s (map fst sl) \/ In s (map snd sl) -> forall t, sp_generate s (lo_ntoys o) = Ok t -> length t = lo_ntoys o).
  { intros s [Hin|Hin] t Hgen; apply in_map_iff in Hin as (ss & <- & Hin); destruct (Forall2_In_r _ _ _ _ SP Hin) as (hp & _ & x & t0 & _ & _ & ->); cbn [fst snd sampler_of sp_generate] in Hgen; apply (HT _ _ _ _ _ _ _ _ Hgen). }
  (* the files after the first run *)
  assert (FS : forall root dists samplers, (forall s, In s samplers -> produced hash root (lo_ntoys o) true dk dk' dists (sp_hypo s, s)) -> (forall s, In s samplers -> file_ok root (lo_ntoys o) (lo_break o) dk (sp_hypo s, s)) ->
     (forall s, In s samplers -> forall t, sp_generate s (lo_ntoys o) = Ok t -> length t = lo_ntoys o) -> map sp_hypo samplers = hypos ->
     forall h, In h hypos -> exists fa, dget (so_file root h ".npy") (dk_npy dk') = Some fa /\ (lo_ntoys o <= length fa)%nat /\ hget hash h dists = Some (firstn (lo_ntoys o) fa)).
  { intros root dists samplers P F Hl Hmap h Hin. rewrite <- Hmap in Hin. apply in_map_iff in Hin as (s & <- & Hin). specialize (P s Hin). specialize (F s Hin). unfold produced, file_ok in *. cbn [fst snd] in *. destruct (dget (so_file root (sp_hypo s) ".npy") (dk_npy dk)) as [fa|].
    - exists fa. destruct P as (X & Y). auto.
    - destruct P as (a & Hgen & X & Y). exists (rsort a). specialize (Hl s Hin a Hgen). split; [exact Y|]. split; [rewrite rsort_length; lia|]. rewrite firstn_all2 by (rewrite rsort_length; lia). exact X. }
  pose proof (FS (lo_out o) _ _ P1 Q1 (fun s Hs => LEN s (or_introl Hs)) SH1) as F1. pose proof (FS (lo_out o ++ "_clb")%string _ _ P2 Q2 (fun s Hs => LEN s (or_intror Hs)) SH2) as F2.
  (* the second run *)
  destruct (samplers_other L L' (m, it) bounds (lo_niter o) _ _ Hsl) as (sl' & Hsl' & M1 & M2). rewrite SH1 in M1. rewrite SH2 in M2.
  assert (NE : forall A (l l' : list A) (g : A -> Hypo), map g l = hypos -> l' <> [] -> True) by auto. clear NE.
  unfold limit_samples in Hc. apply bind_Ok in Hc as (oa & Hoa & Hc). apply bind_Ok in Hc as (ob & Hob & Hc). injection Hc as <-.
  assert (NN : hypos <> []) by (intros ->; destruct (init_samplers _ _ _ Hoa) as (X & _); destruct (map fst sl); [congruence|discriminate]).
  assert (Hoa' : exists oa', so_init (map fst sl') (lo_out o) [] = Ok oa') by (destruct (map fst sl') as [|s0 l0]; [rewrite <- M1 in NN; cbn in NN; congruence|]; cbn; eauto).
  assert (Hob' : exists ob', so_init (map snd sl') (lo_out o ++ "_clb") [] = Ok ob') by (destruct (map snd sl') as [|s0 l0]; [rewrite <- M2 in NN; cbn in NN; congruence|]; cbn; eauto).
  destruct Hoa' as (oa' & Hoa'). destruct Hob' as (ob' & Hob').
  assert (Da : distinct_hypos [n] (map sp_hypo (map fst sl'))) by (rewrite M1; exact DH). assert (Db : distinct_hypos [n] (map sp_hypo (map snd sl'))) by (rewrite M2; exact DH).
  destruct (generate_stored hash [n] _ _ _ (lo_ntoys o) (lo_break o) dk' Hoa' Hn Da) as (o1 & Ro1 & I1 & J1 & L1); [intros h Hin; rewrite M1 in Hin; destruct (F1 h Hin) as (fa & X & Y & _); eauto|].
  destruct (generate_stored hash [n] _ _ _ (lo_ntoys o) (lo_break o) dk' Hob' Hn Db) as (o2 & Ro2 & I2 & J2 & L2); [intros h Hin; rewrite M2 in Hin; destruct (F2 h Hin) as (fa & X & Y & _); eauto|].
  rewrite M1 in I1. rewrite M2 in I2.
  assert (SS : forall h, In h hypos -> hget hash h (so_dists o1) = hget hash h (so_dists (co_clsb c1)) /\ hget hash h (so_dists o2) = hget hash h (so_dists (co_cl_b c1))).
  { intros h Hin. destruct (F1 h Hin) as (fa & X & _ & Z). destruct (F2 h Hin) as (fb & X' & _ & Z'). split; [rewrite Z; apply L1; [rewrite M1; exact Hin|exact X]|rewrite Z'; apply L2; [rewrite M2; exact Hin|exact X']]. }
  assert (DH1 : distinct_hypos [n] (so_hypos (co_clsb c1))) by (rewrite G1; exact DH). assert (DH2 : distinct_hypos [n] (so_hypos (co_clsb (mkCO o1 o2)))) by (cbn; rewrite I1; exact DH).
  destruct (truncated_ok hash [n] o (mkCO o1 o2) DH2) as (c2' & Ht'); [cbn; congruence|exact J1|exact J2|intros h Hin; cbn in *; rewrite I1 in Hin; destruct (SS h Hin) as (-> & ->); now apply HG|].
  destruct (truncated_inv hash [n] o c1 c2 DH1 ltac:(congruence) G3 G4 Ht) as (T1 & T2 & T3). destruct (truncated_inv hash [n] o (mkCO o1 o2) c2' DH2 ltac:(cbn; congruence) J1 J2 Ht') as (T1' & T2' & T3'). cbn [co_clsb co_cl_b] in *.
  assert (SM : same_samples hash hypos c2 c2').
  { split; [congruence|]. split; [congruence|]. intros h Hin. rewrite G1 in T3. rewrite I1 in T3'. destruct (T3 h Hin) as (-> & ->). destruct (T3' h Hin) as (-> & ->). destruct (SS h Hin) as (-> & ->). auto. }
  assert (HP : forall h pt, In (h, pt) (ra_points r) -> In (plr_hypo pt) hypos) by (intros h pt Hin; destruct (proj2 HR h pt Hin) as (-> & _); rewrite <- (proj1 HR); apply (in_map fst _ _ Hin)).
  unfold limit_finish. rewrite E1, Ha. assert (E0 : (lo_ntoys o =? 0)%nat = false) by (apply Nat.eqb_neq; lia). rewrite E0, Hsl'. cbn [bind]. unfold limit_samples. rewrite Hoa'. cbn [bind]. rewrite Hob'. cbn [bind]. fold hash.
  unfold co_generate_and_save. cbn [co_clsb co_cl_b]. rewrite Ro1, Ro2. rewrite Ht'. cbn [bind]. rewrite (sampling_limits_ext L L' o hypos c2 c2' r SM E1 E2 E3 HP), Hlim, E3, Hres, Hsave. reflexivity.
Qed.
(** Running the same command again changes nothing, whatever toys would be generated now: the raster and the samples are read back, and the same results are written. *)
Theorem C110_rerun_same : forall L L' E C w pf pi rmatch o f dk ops dk' m it hypos n p, faithful C ->
  limit_model E C o f = Ok (m, it) -> m_pois m = [(n, p)] -> parse_hypos (e_fuel E) pf pi rmatch m (lo_hypos o) = Ok hypos -> distinct (sl_hash (ll_scan L)) hypos -> distinct_hypos [n] hypos -> fits_evaluate L m it -> NoDup (pm_pois (i_pm it) ++ np_names (i_pm it)) -> toys_complete L ->
  lo_model o <> limit_raster_file o -> lo_model o <> limit_results_file o -> limit_path o <> limit_raster_file o -> limit_path o <> limit_results_file o ->
  f (limit_raster_file o) = None -> lo_overwrite o = false -> (0 < lo_ntoys o)%nat -> limit_run L E C w pf pi rmatch o f dk = (ops, dk', None) ->
  ll_scan L' = ll_scan L -> ll_cdf L' = ll_cdf L -> ll_dec L' = ll_dec L ->
  exists ops2, limit_run L' E C w pf pi rmatch o (run_ops ops f) dk' = (ops2, dk', None) /\ forall q, run_ops ops2 (run_ops ops f) q = run_ops ops f q.
Proof.
  intros L L' E C w pf pi rmatch o f dk ops dk' m it hypos n p HC Hm Hp Hh HD DH HE HN HT N1 N2 N3 N4 Hf Ho Hn H E1 E2 E3.
  assert (Hpm : pm_pois (i_pm it) = [n]) by (rewrite (limit_model_names _ _ _ _ _ _ Hm), Hp; reflexivity).
  assert (X : exists bounds r ops1 ops2, ops = ops1 ++ ops2 /\ raster_for it n hypos r /\ limit_finish L C w o (m, it) bounds r [] dk = (ops2, dk', None) /\
    limit_run L' E C w pf pi rmatch o (run_ops ops f) dk' = limit_finish L' C w o (m, it) bounds r [] dk').
  { destruct (limit_run_inputs _ _ _ _ _ _ _ _ _ _ _ _ H) as (m1 & it1 & hy1 & data & bounds & k & s & Hm1 & Hh1 & Hd & Hb & Hk & Hs).
    rewrite Hm in Hm1. injection Hm1 as <- <-. rewrite Hh in Hh1. injection Hh1 as <-. pose proof (C109_only_two_files _ _ _ _ _ _ _ _ _ _ _ _ _ H) as [Honly _]. rewrite (limit_run_fresh _ _ _ _ _ _ _ _ _ _ _ _ _ _ _ _ _ Hm Hh Hd Hb Hk Hs Hf) in H.
    unfold with_results in H. destruct (limit_compute L k s (m, it) data hypos) as [r|] eqn:Er; cbn [bind] in H; [|discriminate]. destruct (raster_dump r) as [l|] eqn:El; cbn [bind] in H; [|discriminate].
    destruct (save_ops C w (limit_raster_file o) None [("fast", JList l)]) as [ops1 [e|]] eqn:Es; [discriminate|]. destruct (limit_stat_spec _ _ _ Hk) as (_ & _ & Hkn).
    rewrite finish_nil in H. destruct (limit_finish L C w o (m, it) bounds r [] dk) as [[ops2 dk2] e2] eqn:Ef. injection H as <- <- ->. destruct (limit_raster_reused L C w o f ops1 k s m it data hypos r l HC Hkn HE HD HN Er El Es) as (r' & Hst & Hal).
    exists bounds, r, ops1, ops2. split; [reflexivity|]. split; [apply (computed_raster _ _ _ _ _ _ _ _ n Hkn HE HD Hpm DH Er)|]. split; [exact Ef|].
    rewrite (limit_run_stored L' E C w pf pi rmatch o _ dk2 m it data hypos bounds k s r'); auto.
    - apply finish_same, Hal.
    - rewrite <- Hm. apply limit_model_local, Honly; assumption.
    - rewrite <- Hd. apply limit_data_local, Honly; assumption.
    - rewrite E1, <- Hst. apply stored_local. rewrite run_ops_app. destruct (finish_only _ _ _ _ _ _ _ _ _ _ _ _ Ef) as (ops' & E' & _ & Hr). cbn [app] in E'. subst ops'. apply Hr, limit_files_differ. }
  destruct X as (bounds & r & ops1 & ops2 & -> & HR & Ef & Hrun). exists ops2. split; [rewrite Hrun; eapply finish_again; eauto|].
  destruct (finish_toys _ _ _ _ _ _ _ _ _ _ _ Hn Ef) as (asy & sl & c & c1 & c2 & r2 & lsb & ls & lb & d & ops' & _ & _ & _ & _ & _ & _ & _ & Hs & E4). cbn [app] in E4. subst ops'. intros q. rewrite run_ops_app. generalize (run_ops ops1 f). intros g.
  destruct (string_dec q (limit_results_file o)) as [->|Nq]; [|now rewrite !(save_only _ _ _ _ _ _ _ _ q Hs Nq)]. clear - Hs. unfold save_ops in Hs. destruct (negb (w (limit_results_file o))); [discriminate|]. destruct (_ || _)%bool; [|discriminate]. destruct (c_dump C _ d) as [x e']. injection Hs as <- _. rewrite !run_truncated. now rewrite !String.eqb_refl.
Qed.
Print Assumptions C110_rerun_same.
