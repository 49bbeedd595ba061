(** Property theorems about poi_scan: C105 (what is reported), C106 (stored rasters), C107 (options).
    Concrete cases that meet the hypotheses are in ScanCommandExProps.v. *)
From Verif Require Import Py PyFacts Base BaseFacts Expressions Norms Sample Channels Params ParamsFacts Core CoreExample NpMin UtilFacts PoiMin PoiMinFacts PoiMinProps PoiHistProps TestStat FitData FitDataFacts FitDataProps RasterProps
  ParamsProps UtilProps Calculators CalcFacts Scans ScansProps ModelIO ModelTools UtilTools FileIO FileIOProps Commands ScanCommand ScanFacts.
Local Open Scope string_scope.
Local Open Scope list_scope.
Local Open Scope R_scope.

(** ** Specification *)
(** no stored raster is looked at *)
Definition fresh (o : ScanOpts) (f : fs) : Prop := so_force o = true \/ f (raster_file o) = None.
(** the t_mu level for an entry of --cl: the square of an integer, else the quantile of the confidence level *)
Definition level_of (T : StatLib) (cl level : R) : Prop :=
  (forall n : Z, cl = IZR n -> level = cl * cl) /\ ((forall n : Z, cl <> IZR n) -> level = chi2_isf T (1 - cl) 1).
(** the entry of the results file for a level *)
Definition entry (T : StatLib) (level : R) (poi : string) (unit_ : option string) (c : R) (up dn : option R) : jv :=
  JObj [("cl", JFlt (1 - chi2_sf T level 1)); ("poi_name", JStr poi); ("poi_unit", match unit_ with Some u => JStr u | None => JNull end);
        ("central_value", JFlt c); ("uncertainty_up", match up with Some x => JFlt x | None => JNull end); ("uncertainty_dn", match dn with Some x => JFlt x | None => JNull end)].
(** the scan of t_mu over the points of a raster *)
Definition tmu_scan (r : Raster) (poi : string) : Scan1D := mkScan1D (mkScan r "tmu") poi.

(** ** Lemmas *)
Lemma is_integer_spec x : is_integer x = true <-> exists n : Z, x = IZR n.
Proof.
  unfold is_integer. rewrite Reqb_true. split; [intros <-; eauto|]. intros [n ->]. f_equal. unfold Int_part. assert (H : up (IZR n) = (n + 1)%Z) by (symmetry; apply tech_up; rewrite plus_IZR; lra). rewrite H. lia.
Qed.
Lemma run_ops_app a b f : run_ops (a ++ b) f = run_ops b (run_ops a f).
Proof. unfold run_ops. apply fold_left_app. Qed.
Lemma app_tail_neq (a s t : string) : s <> t -> (a ++ s)%string <> (a ++ t)%string.
Proof. induction a; cbn; [auto|]. intros H E. injection E as E. now apply IHa. Qed.
Lemma files_differ o : raster_file o <> results_file o.
Proof. apply app_tail_neq. discriminate. Qed.
Lemma save_only C w p fl v ops e f q : save_ops C w p fl v = (ops, e) -> q <> p -> run_ops ops f q = f q.
Proof.
  intros H N. unfold save_ops in H. destruct (negb (w p)); [injection H as <- <-; reflexivity|]. destruct (_ || _)%bool.
  - destruct (c_dump C (flavor_of p fl) v) as [l e'] eqn:Ed. injection H as <- <-. rewrite run_truncated. destruct (String.eqb_spec q p); [contradiction|reflexivity].
  - injection H as <- <-. cbn. destruct (String.eqb_spec q p); [contradiction|reflexivity].
Qed.

Definition level_value (pf : string -> option R) (s : string) : res R := match pf s with Some x => Ok x | None => Err ValueError end.
(** the end of a successful run: the levels, the results, and where they are written *)
Lemma finish_ok L C w pf o m hypos r comp ops0 ops : scan_finish L C w pf o m hypos r comp ops0 = (ops, None) ->
  (exists cls d ops', mapM (level_value pf) (split "," (so_cl o)) = Ok cls /\ scan_results L m r (have_compatible_pois hypos) cls = Ok d /\ (so_timing o && negb comp)%bool = false /\
     save_ops C w (results_file o) (Some "json") d = (ops', None) /\ ops = ops0 ++ ops') \/
  (exists e, mapM (level_value pf) (split "," (so_cl o)) = Err e) /\ ops = ops0.
Proof.
  unfold scan_finish. fold (level_value pf). destruct (mapM (level_value pf) _) as [cls|e]; [|intros [= <-]; right; eauto]. destruct (scan_results _ _ _ _ _) as [d|e] eqn:Es; [|discriminate]. destruct (_ && _)%bool eqn:Et; [discriminate|].
  destruct (save_ops _ _ _ _ d) as [ops' e] eqn:Eo. intros [= <- ->]. left. exists cls, d, ops'. auto.
Qed.
Lemma cls_read pf l cls : map pf l = map Some cls -> mapM (level_value pf) l = Ok cls.
Proof. revert cls. induction l as [|s l IH]; intros [|c cls] H; cbn [map mapM] in *; try discriminate; [reflexivity|]. injection H as E H. rewrite (IH _ H). unfold level_value. rewrite E. reflexivity. Qed.
Lemma cl_entry_spec L m r poi cl e : hd_error (ra_pois r) = Some poi -> cl_entry L m r poi cl = Ok e ->
  exists level c up dn p, level_of (sl_stat L) cl level /\ dget poi (m_pois m) = Some p /\ ps_interval (sl_spline L) (mkPS (tmu_scan r poi) level) 3 false = Ok (c, up, dn) /\ e = entry (sl_stat L) level poi (poi_unit p) c up dn.
Proof.
  intros Hp H. unfold cl_entry in H. apply bind_Ok in H as (s & Hs & H). apply bind_Ok in H as ([[c up] dn] & Hi & H). apply bind_Ok in H as (p & Hg & H). injection H as <-.
  assert (A : exists level, level_of (sl_stat L) cl level /\ s = mkPS (tmu_scan r poi) level).
  { unfold ps_new, scan1d_new, scan_new in Hs. destruct (is_filled r "tmu" false false); [|discriminate]. cbn [bind] in Hs. unfold find_poi in Hs. cbn [sc_raster] in Hs. destruct (ra_pois r) as [|n l]; [discriminate|]. injection Hp as ->. cbn [nth_error bind] in Hs.
    unfold level_args in Hs. destruct (is_integer cl) eqn:Ei; cbn [fst snd] in Hs; injection Hs as <-; (eexists; split; [|reflexivity]).
    - split; [reflexivity|]. intros H. apply is_integer_spec in Ei as [n E]. exfalso. exact (H n E).
    - split; [|reflexivity]. intros n E. assert (is_integer cl = true) by (apply is_integer_spec; eauto). congruence. }
  destruct A as (level & A & ->). exists level, c, up, dn, p. split; [exact A|]. split; [unfold dgetE in Hg; destruct (dget poi (m_pois m)); congruence|]. split; [exact Hi|]. destruct up, dn; reflexivity.
Qed.
Lemma results_one L m r poi cls : hd_error (ra_pois r) = Some poi -> forall d0 d,
  foldM (fun d cl => let! e := cl_entry L m r poi cl in Ok (dset (sl_repr L cl) e d)) cls d0 = Ok d ->
  (forall k, In k (keys d) <-> In k (keys d0) \/ exists cl, In cl cls /\ k = sl_repr L cl) /\
  (forall k, ~ In k (map (sl_repr L) cls) -> dget k d = dget k d0) /\
  (forall cl, In cl cls -> (forall cl', In cl' cls -> sl_repr L cl' = sl_repr L cl -> cl' = cl) -> exists e, cl_entry L m r poi cl = Ok e /\ dget (sl_repr L cl) d = Some e).
Proof.
  intros Hp. induction cls as [|c cls IH]; intros d0 d H; cbn in H.
  - injection H as <-. split; [intros k; split; [auto|intros [?|(cl & [] & _)]; assumption]|]. split; [reflexivity|]. intros cl [].
  - apply bind_Ok in H as (d1 & Hd & H). apply bind_Ok in Hd as (e & He & Hd). injection Hd as <-. destruct (IH _ _ H) as (A & B & D). split; [|split].
    + intros k. rewrite A. split.
      * intros [Hk|(cl & Hc & ->)]; [|right; exists cl; split; [now right|reflexivity]]. apply in_map_iff in Hk as ([k' v'] & <- & Hk). apply In_dset in Hk as [E|Hk]; [injection E as -> ->; right; exists c; split; [now left|reflexivity]|left; apply (in_map fst _ _ Hk)].
      * intros [Hk|(cl & [<-|Hc] & ->)]; [left; apply in_keys_dset; now right|left; apply in_keys_dset; now left|right; eauto].
    + intros k Hk. rewrite B by (intros F; apply Hk; now right). apply dget_dset_neq. intros ->. apply Hk. now left.
    + intros cl Hc Hinj. destruct (in_dec string_dec (sl_repr L cl) (map (sl_repr L) cls)) as [Hin|Hout].
      * apply in_map_iff in Hin as (cl' & E & Hc'). assert (cl' = cl) as -> by (apply Hinj; [now right|exact E]). apply D; [exact Hc'|]. intros x Hx. apply Hinj. now right.
      * destruct Hc as [<-|Hc]; [|exfalso; apply Hout, in_map, Hc]. exists e. split; [exact He|]. rewrite B by exact Hout. apply dget_dset_eq.
Qed.

(** ** what a run without a stored raster does *)
Lemma cached_fresh L C o f I : fresh o f -> cached_raster L C o f I = Ok None.
Proof. unfold cached_raster. intros [-> | ->]; [reflexivity|]. destruct (so_force o); reflexivity. Qed.
Lemma run_fresh L E C w pf pi rmatch o f m I data spec hypos : scan_model E C pf rmatch o f = Ok (m, I) -> scan_data C pf rmatch o f (m, I) = Ok data -> fresh o f ->
  so_hypos o = Some spec -> parse_hypos (e_fuel E) pf pi rmatch m spec = Ok hypos ->
  scan_run L E C w pf pi rmatch o f = match (let! r := scan_compute L o (m, I) data hypos in let! l := raster_dump r in Ok (r, l)) with
    | Err e => ([], Some e)
    | Ok (r, l) => match save_ops C w (raster_file o) None [("fast", JList l)] with
                   | (ops, Some e) => (ops, Some e)
                   | (ops, None) => scan_finish L C w pf o m hypos r true ops
                   end
    end.
Proof.
  intros Hm Hd Hf Hs Hh. unfold scan_run. rewrite Hm. cbn [bind]. rewrite Hd. cbn [bind snd]. rewrite (cached_fresh _ _ _ _ _ Hf). cbn [bind fst]. unfold scan_plan. rewrite Hs, Hh. cbn [bind snd fst].
  destruct (scan_compute L o (m, I) data hypos) as [r|e]; cbn [bind]; [|reflexivity]. destruct (raster_dump r) as [l|e]; reflexivity.
Qed.
Lemma compute_ok L o m I data hypos r : evaluates (sl_fit L m I data) -> distinct (sl_hash L) hypos -> scan_compute L o (m, I) data hypos = Ok r ->
  map fst (ra_points r) = hypos /\ hkeys_ok (sl_hash L) (ra_points r) /\ raster_set_pois (ra_points r) (Some (i_pm I)) = Ok (ra_pois r) /\ (forall h p, In (h, p) (ra_points r) -> plr_hypo p = h /\ point_ok (i_pm I) p) /\ ra_pois r = have_compatible_pois hypos.
Proof.
  intros HE HD H. unfold scan_compute in H. cbn [fst snd] in H. apply bind_Ok in H as (ib & _ & H). destruct (_ <? _)%nat; [discriminate|]. apply bind_Ok in H as ([r0 s] & H & E). injection E as <-. cbn [fst].
  destruct (tmu_results_ok _ _ _ _ _ _ _ _ _ _ HE HD H) as (A & B & D & G). split; [exact A|]. split; [exact B|]. split; [exact D|]. split; [exact G|].
  unfold raster_set_pois in D. rewrite A in D. clear - D. revert D. generalize (ra_pois r0). induction (have_compatible_pois hypos) as [|n l IH]; intros q D; cbn in D; [congruence|].
  destruct (index n (pm_pois (i_pm I))); [|discriminate]. cbn [bind] in D. apply bind_Ok in D as (q' & D & E). injection E as <-. f_equal. now apply IH.
Qed.

(** * C105 *)
(** A run without a stored raster over one POI computes t_mu at the hypotheses from the model and the dataset, and the results file has an entry for each
    requested level, with the confidence level, the parameter, and the interval of the scan at that level. *)
Theorem C105_results : forall L E C w pf pi rmatch o f ops m I data spec hypos poi cls, faithful C ->
  scan_model E C pf rmatch o f = Ok (m, I) -> scan_data C pf rmatch o f (m, I) = Ok data -> fresh o f ->
  so_hypos o = Some spec -> parse_hypos (e_fuel E) pf pi rmatch m spec = Ok hypos -> have_compatible_pois hypos = [poi] -> distinct (sl_hash L) hypos -> evaluates (sl_fit L m I data) ->
  map pf (split "," (so_cl o)) = map Some cls ->
  scan_run L E C w pf pi rmatch o f = (ops, None) ->
  exists r ib s' d, set_pois_min m I None None None false = Ok ib /\
    tmu_results (sl_hash L) (sl_dist L) m I (sl_fit L m I data) (PoiMin.with_pois (mini_init "scalar" (so_niter o) (Some (/ 10000000)) 0 None false 0) ib) (map HObj hypos) [] (so_mode o) = Ok (r, s') /\
    load_file C (run_ops ops f) (results_file o) (Some "json") = Ok d /\
    (forall k, In k (keys d) <-> exists cl, In cl cls /\ k = sl_repr L cl) /\
    forall cl, In cl cls -> (forall cl', In cl' cls -> sl_repr L cl' = sl_repr L cl -> cl' = cl) ->
      exists level c up dn p, level_of (sl_stat L) cl level /\ dget poi (m_pois m) = Some p /\
        ps_interval (sl_spline L) (mkPS (tmu_scan r poi) level) 3 false = Ok (c, up, dn) /\ dget (sl_repr L cl) d = Some (entry (sl_stat L) level poi (poi_unit p) c up dn).
Proof.
  intros L E C w pf pi rmatch o f ops m I data spec hypos poi cls HC Hm Hd Hf Hs Hh Hc HD HE Hcl H.
  rewrite (run_fresh _ _ _ _ _ _ _ _ _ _ _ _ _ _ Hm Hd Hf Hs Hh) in H. destruct (scan_compute L o (m, I) data hypos) as [r|] eqn:Er; cbn [bind] in H; [|discriminate]. destruct (raster_dump r) as [l|] eqn:El; cbn [bind] in H; [|discriminate].
  destruct (save_ops C w (raster_file o) None [("fast", JList l)]) as [ops1 [e|]] eqn:E1; [discriminate|].
  destruct (compute_ok _ _ _ _ _ _ _ HE HD Er) as (_ & _ & _ & _ & Hpois). rewrite Hc in Hpois.
  pose proof Er as Er'. unfold scan_compute in Er'. cbn [fst snd] in Er'. apply bind_Ok in Er' as (ib & Hib & Er'). destruct (_ <? _)%nat; [discriminate|]. apply bind_Ok in Er' as ([r0 s'] & Ht & E0). injection E0 as <-. cbn [fst] in *.
  apply finish_ok in H as [(cls' & d & ops' & Hcls & Hd' & _ & Hsave & ->)|([e He] & _)].
  2:{ rewrite (cls_read _ _ _ Hcl) in He. discriminate. }
  rewrite (cls_read _ _ _ Hcl) in Hcls. injection Hcls as <-. rewrite Hc in Hd'. cbn [scan_results] in Hd'.
  assert (Hhd : hd_error (ra_pois r0) = Some poi) by (rewrite Hpois; reflexivity).
  destruct (results_one _ _ _ _ _ Hhd _ _ Hd') as (A & _ & D). exists r0, ib, s', d. split; [exact Hib|]. split; [exact Ht|]. split; [rewrite run_ops_app; apply (C89_saved_file_is_loaded _ _ _ _ _ _ _ HC Hsave)|].
  split; [intros k; rewrite A; cbn; tauto|].
  intros cl Hin Hinj. destruct (D cl Hin Hinj) as (e & He & Hg). destruct (cl_entry_spec _ _ _ _ _ _ Hhd He) as (level & c & up & dn & p & H1 & H2 & H3 & ->). exists level, c, up, dn, p. auto.
Qed.
Print Assumptions C105_results.

(** The dataset is read from the data file if one is given, else it is the expected dataset for the values of --asimov, with all the NPs and auxiliary
    observables at 0, else it is read from the model file. *)
Theorem C105_dataset : forall C pf rmatch o f m I data, scan_data C pf rmatch o f (m, I) = Ok data ->
  (forall p, so_data o = Some p -> p <> "" -> exists rest, data_create C f (m, I) p = Ok (data, rest)) /\
  ((so_data o = None \/ so_data o = Some "") -> so_asimov o = None -> exists rest, data_create C f (m, I) (so_model o) = Ok (data, rest)) /\
  ((so_data o = None \/ so_data o = Some "") -> forall spec, so_asimov o = Some spec -> NoDup (pm_pois (i_pm I)) ->
     exists vals ps t, process_setvals pf rmatch m true true true false spec = Ok vals /\ length ps = length (pm_pois (i_pm I)) /\
       (forall i n, nth_error (pm_pois (i_pm I)) i = Some n -> exists x, dget n vals = Some (SNum x) /\ nth_error ps i = Some x) /\
       tot_bin_exp m I ps (repeat 0 (length (pm_nps (i_pm I)))) None = Ok t /\ d_counts data = map t (seq 0 (i_nbins I)) /\ d_aux data = repeat 0 (length (pm_nps (i_pm I)))).
Proof.
  intros C pf rmatch o f m I data H. unfold scan_data in H. cbn [fst snd] in H. split; [|split].
  - intros p E N. rewrite E in H. destruct (String.eqb_spec p ""); [contradiction|]. apply bind_Ok in H as ([d rest] & Hd & H). injection H as <-. eauto.
  - intros E A. rewrite A in H. assert (H' : (let! d := data_create C f (m, I) (so_model o) in Ok (fst d)) = Ok data) by (destruct E as [E|E]; rewrite E in H; exact H).
    apply bind_Ok in H' as ([d rest] & Hd & H'). injection H' as <-. eauto.
  - intros E spec A HN. rewrite A in H.
    assert (H' : (let! d := or_value_error (let! d := process_setvals pf rmatch m true true true false spec in numbers_of d) in expected_data m I d) = Ok data) by (destruct E as [E|E]; rewrite E in H; exact H). clear H.
    apply bind_Ok in H' as (d & Hv & H). unfold or_value_error in Hv. destruct (let! d := process_setvals pf rmatch m true true true false spec in numbers_of d) as [d0|] eqn:Hd; [|discriminate]. injection Hv as ->.
    apply bind_Ok in Hd as (vals & Hp & Hd). pose proof (C61_distinct_parameters _ _ _ _ _ _ _ _ _ Hp) as HK.
    assert (G : forall n, dget n d = match dget n vals with Some (SNum x) => Some x | _ => None end /\ (keys d = keys vals)).
    { clear - Hd. revert d Hd. unfold numbers_of. induction vals as [|[k [x|s]] vals IH]; intros d Hd n; cbn in Hd; [injection Hd as <-; split; reflexivity| |discriminate].
      apply bind_Ok in Hd as (d' & Hd & E). injection E as <-. destruct (IH _ Hd n) as [A B]. split; [|unfold keys in *; cbn; f_equal; exact B]. cbn. destruct (String.eqb_spec n k); [reflexivity|exact A]. }
    assert (HKd : NoDup (keys (map (fun kv => (fst kv, Some (snd kv))) d))).
    { assert (X : keys (map (fun kv : string * R => (fst kv, Some (snd kv))) d) = keys vals); [|rewrite X; exact HK]. rewrite <- (proj2 (G "")). unfold keys. rewrite map_map. reflexivity. }
    unfold expected_data in H. apply bind_Ok in H as (p & Hi & H). destruct (C25_built_vectors_have_model_sizes _ _ _ _ Hi) as (Hpm & Hl1 & Hl2).
    destruct (C25_built_from_dict (map (fun kv => (fst kv, Some (snd kv))) d) (i_pm I) HN) as [_ Hbad]; [exact HKd|].
    assert (Gd : forall n, dget n (map (fun kv => (fst kv, Some (snd kv))) d) = option_map Some (dget n d)) by (intros n; clear; induction d as [|[k x] d IH]; cbn; [reflexivity|]; destruct (String.eqb n k); [reflexivity|exact IH]).
    assert (Hall : forall n, In n (pm_pois (i_pm I)) -> exists x, dget n d = Some x).
    { intros n Hn. destruct (dget n d) as [x|] eqn:E'; [eauto|]. exfalso. rewrite Hbad in Hi; [discriminate|]. exists n. split; [exact Hn|]. left. rewrite Gd, E'. reflexivity. }
    destruct (C25_built_from_dict (map (fun kv => (fst kv, Some (snd kv))) d) (i_pm I) HN) as [Hgood _]; [exact HKd|].
    destruct Hgood as (q & Hq & Hnp & Hget); [intros n Hn; destruct (Hall n Hn) as [x Hx]; exists x; rewrite Gd, Hx; reflexivity|]. rewrite Hi in Hq. injection Hq as <-.
    unfold generate_asimov in H. apply bind_Ok in H as (t & Ht & H). injection H as <-. exists vals, (pois p), t. rewrite Hnp in *. split; [exact Hp|]. split; [exact Hl1|]. split; [|split; [exact Ht|split; reflexivity]].
    intros i n Hn. assert (Hin : In n (pm_pois (i_pm I))) by (eapply nth_error_In, Hn). destruct (Hall n Hin) as [x Hx]. exists x. split.
    + rewrite (proj1 (G n)) in Hx. destruct (dget n vals) as [[y|s]|]; congruence.
    + specialize (Hget n x Hin ltac:(rewrite Gd, Hx; reflexivity)). unfold pars_get in Hget. rewrite Hpm in Hget.
      destruct (proj2 (index_In n _) Hin) as [j Hj]. rewrite Hj in Hget. unfold lget in Hget. destruct (nth_error (pois p) j) as [y|] eqn:Ey; [|discriminate]. injection Hget as <-.
      assert (j = i) as <-; [|exact Ey]. pose proof (index_nth _ _ _ Hj) as Hj'. eapply NoDup_nth_error; [exact HN|apply nth_error_Some; congruence|congruence].
Qed.
Print Assumptions C105_dataset.

(** * C106 *)
(** ** the files read by a run *)
Lemma load_local C f g p fl : f p = g p -> load_file C f p fl = load_file C g p fl.
Proof. unfold load_file. now intros ->. Qed.
Lemma model_local E C pf rmatch o f g : f (so_model o) = g (so_model o) -> scan_model E C pf rmatch o f = scan_model E C pf rmatch o g.
Proof. intros H. unfold scan_model, model_load_file. now rewrite (load_local _ _ _ _ _ H). Qed.
(** where the data come from *)
Definition data_path (o : ScanOpts) : string := match so_data o with Some p => if String.eqb p "" then so_model o else p | None => so_model o end.
Lemma data_local C pf rmatch o f g mi : f (data_path o) = g (data_path o) -> scan_data C pf rmatch o f mi = scan_data C pf rmatch o g mi.
Proof.
  intros H. unfold scan_data, data_path in *.
  assert (X : forall p, f p = g p -> data_create C f mi p = data_create C g mi p) by (intros p Hp; unfold data_create; now rewrite (load_local _ _ _ _ _ Hp)).
  destruct (so_data o) as [p|]; [destruct (String.eqb p "")|]; try (now rewrite (X _ H)); destruct (so_asimov o); try reflexivity; now rewrite (X _ H).
Qed.
Lemma finish_only L C w pf o m hypos r comp ops0 ops e : scan_finish L C w pf o m hypos r comp ops0 = (ops, e) -> exists ops', ops = ops0 ++ ops' /\ forall f q, q <> results_file o -> run_ops ops' f q = f q.
Proof.
  intros H. unfold scan_finish in H. assert (Z : forall o1 e1, (ops0, e1) = (o1, e) -> exists ops', o1 = ops0 ++ ops' /\ forall f q, q <> results_file o -> run_ops ops' f q = f q) by (intros o1 e1 [= <- _]; exists []; rewrite app_nil_r; split; [reflexivity|reflexivity]).
  destruct (mapM _ _) as [cls|]; [|eapply Z, H]. destruct (scan_results _ _ _ _ _) as [d|]; [|eapply Z, H]. destruct (_ && _)%bool; [eapply Z, H|].
  destruct (save_ops _ _ _ _ d) as [ops' e'] eqn:Es. injection H as <- <-. exists ops'. split; [reflexivity|]. intros f q N. eapply save_only; eauto.
Qed.
(** whatever happens, only the two files may change *)
Lemma run_only L E C w pf pi rmatch o f ops e q : scan_run L E C w pf pi rmatch o f = (ops, e) -> q <> raster_file o -> q <> results_file o -> run_ops ops f q = f q.
Proof.
  intros H N1 N2. unfold scan_run in H. destruct (let! mi := scan_model E C pf rmatch o f in _) as [[[[m hypos] r] [l|]]|]; [| |injection H as <- _; reflexivity].
  - destruct (save_ops C w (raster_file o) None [("fast", JList l)]) as [ops1 [e1|]] eqn:E1; [injection H as <- _; eapply save_only; eauto|].
    destruct (finish_only _ _ _ _ _ _ _ _ _ _ _ _ H) as (ops' & -> & Hr). rewrite run_ops_app, Hr by exact N2. eapply save_only; eauto.
  - destruct (finish_only _ _ _ _ _ _ _ _ _ _ _ _ H) as (ops' & -> & Hr). cbn [app]. now apply Hr.
Qed.

(** ** Specification *)
(** the points of a raster are the hypotheses of a list: as many, and each of them *)
Definition answers (r : Raster) (hypos : list Hypo) : Prop :=
  length (ra_points r) = length hypos /\ forall h, In h hypos -> exists h' p, In (h', p) (ra_points r) /\ hypo_eqb h' h = true.
Lemma covers_spec r hypos : covers r hypos = true <-> answers r hypos.
Proof.
  unfold covers, answers. rewrite andb_true_iff, Nat.eqb_eq, forallb_forall. split; intros [A B]; (split; [exact A|]); intros h Hh; specialize (B h Hh).
  - apply existsb_exists in B as (h' & Hin & E). apply in_map_iff in Hin as ([h2 p] & <- & Hin). eauto.
  - destruct B as (h' & p & Hin & E). apply existsb_exists. exists h'. split; [apply (in_map fst _ _ Hin)|exact E].
Qed.
Lemma hypo_eqb_refl h : NoDup (keys h) -> hypo_eqb h h = true.
Proof. intros N. apply hypo_eqb_spec; auto. Qed.

(** ** what a run that finds a raster does *)
Lemma run_cached L E C w pf pi rmatch o f m I data r spec hypos : scan_model E C pf rmatch o f = Ok (m, I) -> scan_data C pf rmatch o f (m, I) = Ok data ->
  cached_raster L C o f I = Ok (Some r) -> so_hypos o = Some spec -> parse_hypos (e_fuel E) pf pi rmatch m spec = Ok hypos -> answers r hypos ->
  scan_run L E C w pf pi rmatch o f = scan_finish L C w pf o m hypos r false [].
Proof.
  intros Hm Hd Hc Hs Hh Hr. unfold scan_run. rewrite Hm. cbn [bind]. rewrite Hd. cbn [bind snd]. rewrite Hc. cbn [bind fst]. unfold scan_plan. rewrite Hs, Hh. cbn [bind]. rewrite (proj2 (covers_spec _ _) Hr). reflexivity.
Qed.
Lemma same_entry L m r r' poi cl : same_values r r' -> cl_entry L m r' poi cl = cl_entry L m r poi cl.
Proof.
  intros H. unfold cl_entry, ps_new, scan1d_new, scan_new. rewrite (same_filled _ _ _ _ _ H). destruct (is_filled r "tmu" false false); cbn [bind]; [|reflexivity].
  unfold find_poi. cbn [sc_raster]. rewrite (proj1 H). destruct (nth_error (ra_pois r) 0) as [n|]; cbn [bind]; [|reflexivity].
  assert (X : forall level, ps_interval (sl_spline L) (mkPS (mkScan1D (mkScan r' "tmu") n) level) 3 false = ps_interval (sl_spline L) (mkPS (mkScan1D (mkScan r "tmu") n) level) 3 false).
  { intros level. unfold ps_interval, crossings, minima. cbn [ps_scan ps_level]. rewrite !(same_points _ _ _ _ _ H). reflexivity. }
  destruct (fst (level_args cl)) as [c|]; [|destruct (snd (level_args cl)) as [n'|]]; cbn [bind]; [| |reflexivity]; rewrite X; reflexivity.
Qed.
Lemma same_results L m r r' poi cls : same_values r r' -> scan_results L m r' [poi] cls = scan_results L m r [poi] cls.
Proof.
  intros H. cbn [scan_results]. generalize (@nil (string * jv)). induction cls as [|c cls IH]; intros d; cbn; [reflexivity|]. rewrite (same_entry _ _ _ _ _ _ H). destruct (cl_entry L m r poi c); cbn; [apply IH|reflexivity].
Qed.
(** the raster written by a run is read by the next one *)
Lemma raster_reused L C w o f ops m I data hypos r l : faithful C -> evaluates (sl_fit L m I data) -> distinct (sl_hash L) hypos -> NoDup (pm_pois (i_pm I) ++ np_names (i_pm I)) ->
  scan_compute L o (m, I) data hypos = Ok r -> raster_dump r = Ok l -> save_ops C w (raster_file o) None [("fast", JList l)] = (ops, None) -> so_force o = false ->
  exists r', cached_raster L C o (run_ops ops f) I = Ok (Some r') /\ same_values r r' /\ answers r' hypos.
Proof.
  intros HC HE HD HN Hr Hl Hs Hf. destruct (compute_ok _ _ _ _ _ _ _ HE HD Hr) as (K1 & K2 & K3 & K4 & _).
  destruct (C73_raster_roundtrip (sl_hash L) (i_pm I) r true true HN K2 K4 K3) as (l' & r' & Hl' & Hload & Hp & HF). rewrite Hl in Hl'. injection Hl' as <-.
  pose proof (C89_saved_file_is_loaded _ _ _ _ _ _ f HC Hs) as [Hlo _]. exists r'. split; [|split].
  - unfold cached_raster. rewrite Hf. destruct (run_ops ops f (raster_file o)) eqn:Ef; [|unfold load_file in Hlo; rewrite Ef in Hlo; discriminate]. rewrite Hlo. cbn. rewrite Hload. reflexivity.
  - split; [exact Hp|]. clear - HF. induction HF as [|a b ? ? [E (P1 & P2 & P3 & _)] _ IH]; constructor; auto.
  - split; [rewrite <- K1, map_length; clear - HF; induction HF; cbn; congruence|]. intros h Hh. pose proof Hh as Hh'. rewrite <- K1 in Hh'. apply in_map_iff in Hh' as ([h1 p1] & E & Hin). cbn in E. subst h1.
    assert (X : exists p', In (h, p') (ra_points r')). { clear - HF Hin. induction HF as [|[a1 a2] [b1 b2] ? ? [E _] _ IH]; [destruct Hin|]. cbn in E. subst b1. destruct Hin as [[= -> ->]|Hin]; [exists b2; now left|]. destruct (IH Hin) as [p' Hp']. exists p'. now right. }
    destruct X as [p' Hp']. exists h, p'. split; [exact Hp'|]. apply hypo_eqb_refl, HD, Hh.
Qed.

(** After a successful run without a stored raster, the same command uses the stored raster and leaves every file as it is: the results are the same. *)
Theorem C106_rerun_same : forall L E C w pf pi rmatch o f ops m I data spec hypos poi cls, faithful C ->
  scan_model E C pf rmatch o f = Ok (m, I) -> scan_data C pf rmatch o f (m, I) = Ok data -> f (raster_file o) = None -> so_force o = false -> so_timing o = false ->
  so_model o <> raster_file o -> so_model o <> results_file o -> data_path o <> raster_file o -> data_path o <> results_file o ->
  so_hypos o = Some spec -> parse_hypos (e_fuel E) pf pi rmatch m spec = Ok hypos -> have_compatible_pois hypos = [poi] -> distinct (sl_hash L) hypos -> evaluates (sl_fit L m I data) ->
  NoDup (pm_pois (i_pm I) ++ np_names (i_pm I)) -> map pf (split "," (so_cl o)) = map Some cls ->
  scan_run L E C w pf pi rmatch o f = (ops, None) ->
  exists ops2, scan_run L E C w pf pi rmatch o (run_ops ops f) = (ops2, None) /\ forall q, run_ops ops2 (run_ops ops f) q = run_ops ops f q.
Proof.
  intros L E C w pf pi rmatch o f ops m I data spec hypos poi cls HC Hm Hd Hf Hfo Ht N1 N2 N3 N4 Hs Hh Hc HD HE HN Hcl H. pose proof H as H0.
  rewrite (run_fresh _ _ _ _ _ _ _ _ _ _ _ _ _ _ Hm Hd (or_intror Hf) Hs Hh) in H. destruct (scan_compute L o (m, I) data hypos) as [r|] eqn:Er; cbn [bind] in H; [|discriminate]. destruct (raster_dump r) as [l|] eqn:El; cbn [bind] in H; [|discriminate].
  destruct (save_ops C w (raster_file o) None [("fast", JList l)]) as [ops1 [e|]] eqn:E1; [discriminate|].
  apply finish_ok in H as [(cls' & d & ops' & Hcls & Hd' & _ & Hsave & ->)|([e He] & _)]. 2:{ rewrite (cls_read _ _ _ Hcl) in He. discriminate. }
  destruct (raster_reused L C w o f ops1 m I data hypos r l HC HE HD HN Er El E1 Hfo) as (r' & Hc' & Hsv & Hans).
  assert (Hc2 : cached_raster L C o (run_ops (ops1 ++ ops') f) I = Ok (Some r')).
  { rewrite <- Hc'. unfold cached_raster. rewrite Hfo. rewrite run_ops_app. assert (X : run_ops ops' (run_ops ops1 f) (raster_file o) = run_ops ops1 f (raster_file o)) by (eapply save_only; [exact Hsave|apply files_differ]).
    rewrite X. rewrite (load_local _ _ _ _ _ X). reflexivity. }
  assert (Hm2 : scan_model E C pf rmatch o (run_ops (ops1 ++ ops') f) = Ok (m, I)) by (rewrite <- Hm; apply model_local; eapply run_only; eauto).
  assert (Hd2 : scan_data C pf rmatch o (run_ops (ops1 ++ ops') f) (m, I) = Ok data) by (rewrite <- Hd; apply data_local; eapply run_only; eauto).
  rewrite (run_cached L E C w pf pi rmatch o _ m I data r' spec hypos Hm2 Hd2 Hc2 Hs Hh Hans). exists ops'. unfold scan_finish. fold (level_value pf). rewrite Hcls. rewrite Hc in *. rewrite (same_results _ _ _ _ _ _ Hsv), Hd', Ht. cbn [andb]. rewrite Hsave. cbn [app]. split; [reflexivity|].
  intros q. rewrite run_ops_app. destruct (String.eqb_spec q (results_file o)) as [->|Nq]; [|eapply save_only; eauto].
  clear - Hsave. unfold save_ops in Hsave. destruct (negb (w (results_file o))); [discriminate|]. destruct (_ || _)%bool; [|discriminate]. destruct (c_dump C _ d) as [chunks e']. injection Hsave as <- _. rewrite !run_truncated. now rewrite !String.eqb_refl.
Qed.
Print Assumptions C106_rerun_same.

(** A stored raster for other hypotheses, fewer or more of them, ends the run with KeyError and nothing is written, unless --overwrite or --force-computation is given: *)
Theorem C106_mismatch_reported : forall L E C w pf pi rmatch o f m I data r spec hypos, scan_model E C pf rmatch o f = Ok (m, I) -> scan_data C pf rmatch o f (m, I) = Ok data ->
  cached_raster L C o f I = Ok (Some r) -> so_hypos o = Some spec -> parse_hypos (e_fuel E) pf pi rmatch m spec = Ok hypos -> ~ answers r hypos -> so_overwrite o = false ->
  scan_run L E C w pf pi rmatch o f = ([], Some KeyError).
Proof.
  intros L E C w pf pi rmatch o f m I data r spec hypos Hm Hd Hc Hs Hh Hr Ho. unfold scan_run. rewrite Hm. cbn [bind]. rewrite Hd. cbn [bind snd]. rewrite Hc. cbn [bind fst]. unfold scan_plan. rewrite Hs, Hh. cbn [bind].
  destruct (covers r hypos) eqn:E1; [exfalso; now apply Hr, covers_spec|]. rewrite Ho. reflexivity.
Qed.
Print Assumptions C106_mismatch_reported.
(** with these options the run is the one that finds no raster. *)
Theorem C106_recomputed : forall L E C w pf pi rmatch o f m I data spec hypos, scan_model E C pf rmatch o f = Ok (m, I) -> scan_data C pf rmatch o f (m, I) = Ok data ->
  so_model o <> raster_file o -> data_path o <> raster_file o ->
  so_hypos o = Some spec -> parse_hypos (e_fuel E) pf pi rmatch m spec = Ok hypos ->
  (so_force o = true \/ (so_overwrite o = true /\ exists r, cached_raster L C o f I = Ok (Some r) /\ ~ answers r hypos)) ->
  scan_run L E C w pf pi rmatch o f = scan_run L E C w pf pi rmatch o (fun q => if String.eqb q (raster_file o) then None else f q).
Proof.
  intros L E C w pf pi rmatch o f m I data spec hypos Hm Hd N1 N2 Hs Hh Hr. set (g := fun q => if String.eqb q (raster_file o) then None else f q).
  assert (G : forall q, q <> raster_file o -> f q = g q) by (intros q N; unfold g; destruct (String.eqb_spec q (raster_file o)); [contradiction|reflexivity]).
  assert (Hm2 : scan_model E C pf rmatch o g = Ok (m, I)) by (rewrite <- Hm; symmetry; apply model_local, G, N1).
  assert (Hd2 : scan_data C pf rmatch o g (m, I) = Ok data) by (rewrite <- Hd; symmetry; apply data_local, G, N2).
  assert (Hf2 : fresh o g) by (right; unfold g; now rewrite String.eqb_refl).
  rewrite (run_fresh _ _ _ _ _ _ _ _ _ _ _ _ _ _ Hm2 Hd2 Hf2 Hs Hh). destruct Hr as [Hfo|(Ho & r & Hc & Hn)].
  - apply (run_fresh _ _ _ _ _ _ _ _ _ _ _ _ _ _ Hm Hd (or_introl Hfo) Hs Hh).
  - unfold scan_run. rewrite Hm. cbn [bind]. rewrite Hd. cbn [bind snd]. rewrite Hc. cbn [bind fst]. unfold scan_plan. rewrite Hs, Hh. cbn [bind]. destruct (covers r hypos) eqn:E1; [exfalso; now apply Hn, covers_spec|]. rewrite Ho. cbn [bind snd fst].
    destruct (scan_compute L o (m, I) data hypos) as [r0|e]; cbn [bind]; [|reflexivity]. destruct (raster_dump r0); reflexivity.
Qed.
Print Assumptions C106_recomputed.
(** A raster file that cannot be read ends the run with an error, and nothing is written. *)
Theorem C106_damaged_reported : forall L E C w pf pi rmatch o f m I data text e, scan_model E C pf rmatch o f = Ok (m, I) -> scan_data C pf rmatch o f (m, I) = Ok data ->
  so_force o = false -> f (raster_file o) = Some text -> load_file C f (raster_file o) None = Err e -> scan_run L E C w pf pi rmatch o f = ([], Some e).
Proof.
  intros L E C w pf pi rmatch o f m I data text e Hm Hd Hf Ht Hl. unfold scan_run. rewrite Hm. cbn [bind]. rewrite Hd. cbn [bind snd]. unfold cached_raster. rewrite Hf, Ht, Hl. reflexivity.
Qed.
Print Assumptions C106_damaged_reported.

(** intended: the results are those of the command.  Refuted: only the hypotheses are compared; with a stored raster for them, the results do not depend on the dataset, on the predictions of the model, nor on the
    other options of the computation: two commands with the same hypotheses, levels and output file write the same. *)
Theorem C106_stale_results_refuted : forall L E C w pf pi rmatch o o' f f' m m' I I' data data' r spec hypos,
  scan_model E C pf rmatch o f = Ok (m, I) -> scan_model E C pf rmatch o' f' = Ok (m', I') -> scan_data C pf rmatch o f (m, I) = Ok data -> scan_data C pf rmatch o' f' (m', I') = Ok data' ->
  so_out o' = so_out o -> so_cl o' = so_cl o -> so_timing o' = so_timing o -> so_force o = false -> so_force o' = false -> f' (raster_file o) = f (raster_file o) -> m_pois m' = m_pois m -> i_pm I' = i_pm I ->
  so_hypos o = Some spec -> so_hypos o' = Some spec -> parse_hypos (e_fuel E) pf pi rmatch m spec = Ok hypos -> parse_hypos (e_fuel E) pf pi rmatch m' spec = Ok hypos ->
  cached_raster L C o f I = Ok (Some r) -> answers r hypos ->
  scan_run L E C w pf pi rmatch o' f' = scan_run L E C w pf pi rmatch o f.
Proof.
  intros L E C w pf pi rmatch o o' f f' m m' I I' data data' r spec hypos Hm Hm' Hd Hd' Eo Ec Et Hf Hf' Ef Ep Epm Hs Hs' Hh Hh' Hc Hr.
  assert (Era : raster_file o' = raster_file o) by (unfold raster_file; congruence). assert (Ere : results_file o' = results_file o) by (unfold results_file; congruence).
  assert (Hc' : cached_raster L C o' f' I' = Ok (Some r)) by (rewrite <- Hc; unfold cached_raster; rewrite Hf, Hf', Era, Ef, Epm, (load_local _ _ _ _ _ Ef); reflexivity).
  rewrite (run_cached _ _ _ _ _ _ _ _ _ _ _ _ _ _ _ Hm Hd Hc Hs Hh Hr), (run_cached _ _ _ _ _ _ _ _ _ _ _ _ _ _ _ Hm' Hd' Hc' Hs' Hh' Hr). unfold scan_finish. rewrite Ec, Et, Ere.
  assert (X : forall cls, scan_results L m' r (have_compatible_pois hypos) cls = scan_results L m r (have_compatible_pois hypos) cls).
  { intros cls. destruct (have_compatible_pois hypos) as [|p [|p2 ps]]; try reflexivity. cbn [scan_results]. generalize (@nil (string * jv)). induction cls as [|c cls IH]; intros d; cbn; [reflexivity|].
    assert (Y : cl_entry L m' r p c = cl_entry L m r p c) by (unfold cl_entry; rewrite Ep; reflexivity). rewrite Y. destruct (cl_entry L m r p c); cbn; [apply IH|reflexivity]. }
  destruct (mapM _ (split "," (so_cl o))); [|reflexivity]. rewrite X. reflexivity.
Qed.
Print Assumptions C106_stale_results_refuted.

(** Refuted, for a list with a hypothesis given twice: the raster has it once, and after a successful run the same command fails. *)
Lemma hset_length {V} hash h (v : V) d : (length (hset hash h v d) <= S (length d))%nat /\ ((exists h' v', In (h', v') d /\ same_key hash h' h = true) -> length (hset hash h v d) = length d).
Proof.
  induction d as [|[h' v'] d [IH1 IH2]]; cbn; [split; [lia|intros (? & ? & [] & _)]|]. destruct (same_key hash h' h) eqn:E; cbn; (split; [lia|]); [reflexivity|]. intros (h2 & v2 & [[= <- <-]|Hin] & E2); [congruence|]. rewrite IH2; eauto.
Qed.
Lemma hset_present {V} hash h (v : V) d : same_key hash h h = true -> exists h' v', In (h', v') (hset hash h v d) /\ same_key hash h' h = true.
Proof. intros R. induction d as [|[h' v'] d IH]; cbn; [exists h, v; auto|]. destruct (same_key hash h' h) eqn:E; [exists h', v; split; [now left|exact E]|]. destruct IH as (a & b & Hin & Ha). exists a, b. split; [now right|exact Ha]. Qed.
Lemma tmu_step_set hash m I F all full ds h ds' : tmu_step hash m I F all full ds (HObj h) = Ok ds' -> exists p, fst ds' = hset hash h p (fst ds).
Proof. cbn. intros H. apply bind_Ok in H as ([p s'] & _ & H). injection H as <-. now exists p. Qed.
Lemma loop_length hash m I F all full hs : forall ds ds', foldM (tmu_step hash m I F all full) (map HObj hs) ds = Ok ds' -> (length (fst ds') <= length (fst ds) + length hs)%nat /\
  forall h, (exists h' v', In (h', v') (fst ds) /\ same_key hash h' h = true) -> exists h' v', In (h', v') (fst ds') /\ same_key hash h' h = true.
Proof.
  induction hs as [|a hs IH]; intros ds ds' H; cbn [map foldM] in H; [injection H as <-; cbn; split; [lia|auto]|]. apply bind_Ok in H as (d1 & H1 & H). destruct (tmu_step_set _ _ _ _ _ _ _ _ _ H1) as [p Hp]. destruct (IH _ _ H) as [A B].
  pose proof (hset_length hash a p (fst ds)) as [L1 _]. rewrite Hp in *. split; [cbn [length]; lia|]. intros h (h' & v' & Hin & E). apply B. destruct (hset_keeps hash (fst ds) a p h' v' Hin) as [w Hw]. eauto.
Qed.
Lemma Forall2_length {A B} (P : A -> B -> Prop) l l' : Forall2 P l l' -> length l = length l'.
Proof. induction 1; cbn; congruence. Qed.
Lemma foldM_app {A S} (f : S -> A -> res S) l l' s : foldM f (l ++ l') s = bind (foldM f l s) (fun s' => foldM f l' s').
Proof. revert s. induction l as [|a l IH]; intros s; cbn; [reflexivity|]. destruct (f s a); cbn; [apply IH|reflexivity]. Qed.
Lemma loop_shorter hash m I F all full a h b c s ds' : same_key hash h h = true -> foldM (tmu_step hash m I F all full) (map HObj (a ++ h :: b ++ h :: c)) ([], s) = Ok ds' ->
  (length (fst ds') < length (a ++ h :: b ++ h :: c))%nat.
Proof.
  intros R H. rewrite map_app in H. cbn [map] in H. rewrite map_app in H. cbn [map] in H. rewrite foldM_app in H. apply bind_Ok in H as (d1 & H1 & H). cbn [foldM] in H. apply bind_Ok in H as (d2 & H2 & H). rewrite foldM_app in H. apply bind_Ok in H as (d3 & H3 & H).
  cbn [foldM] in H. apply bind_Ok in H as (d4 & H4 & H). destruct (loop_length _ _ _ _ _ _ _ _ _ H1) as [L1 _]. destruct (tmu_step_set _ _ _ _ _ _ _ _ _ H2) as [p2 E2]. destruct (loop_length _ _ _ _ _ _ _ _ _ H3) as [L3 P3]. destruct (tmu_step_set _ _ _ _ _ _ _ _ _ H4) as [p4 E4].
  destruct (loop_length _ _ _ _ _ _ _ _ _ H) as [L5 _]. pose proof (hset_length hash h p2 (fst d1)) as [M2 _]. pose proof (hset_length hash h p4 (fst d3)) as [_ M4]. rewrite E2 in *. rewrite E4 in *. rewrite M4 in L5 by (apply P3, hset_present, R).
  cbn [fst length] in L1. repeat (rewrite app_length; cbn [length]). lia.
Qed.
Theorem C106_repeated_hypothesis_refuted : forall L E C w pf pi rmatch o f ops m I data spec a h b c, faithful C ->
  scan_model E C pf rmatch o f = Ok (m, I) -> scan_data C pf rmatch o f (m, I) = Ok data -> f (raster_file o) = None -> so_force o = false -> so_overwrite o = false ->
  so_model o <> raster_file o -> so_model o <> results_file o -> data_path o <> raster_file o -> data_path o <> results_file o ->
  so_hypos o = Some spec -> parse_hypos (e_fuel E) pf pi rmatch m spec = Ok (a ++ h :: b ++ h :: c) -> NoDup (keys h) ->
  scan_run L E C w pf pi rmatch o f = (ops, None) -> exists e, scan_run L E C w pf pi rmatch o (run_ops ops f) = ([], Some e).
Proof.
  intros L E C w pf pi rmatch o f ops m I data spec a h b c HC Hm Hd Hf Hfo Ho N1 N2 N3 N4 Hs Hh Hn H. set (hypos := a ++ h :: b ++ h :: c) in *. pose proof H as H0.
  rewrite (run_fresh _ _ _ _ _ _ _ _ _ _ _ _ _ _ Hm Hd (or_intror Hf) Hs Hh) in H. destruct (scan_compute L o (m, I) data hypos) as [r|] eqn:Er; cbn [bind] in H; [|discriminate]. destruct (raster_dump r) as [l|] eqn:El; cbn [bind] in H; [|discriminate].
  destruct (save_ops C w (raster_file o) None [("fast", JList l)]) as [ops1 [e|]] eqn:E1; [discriminate|].
  assert (Hlen : (length (ra_points r) < length hypos)%nat).
  { unfold scan_compute in Er. cbn [fst snd] in Er. apply bind_Ok in Er as (ib & _ & Er). destruct (_ <? _)%nat; [discriminate|]. apply bind_Ok in Er as ([r0 s] & Ht & E0). injection E0 as <-. cbn [fst]. unfold tmu_results in Ht. apply bind_Ok in Ht as (mo & _ & Ht).
    apply bind_Ok in Ht as ([pts s1] & Hl & Ht). apply bind_Ok in Ht as ([cm s2] & _ & Ht). apply bind_Ok in Ht as (plrs & Hp & Ht). apply bind_Ok in Ht as (r1 & Hr1 & Ht). apply bind_Ok in Ht as (r2 & Hr2 & Ht). injection Ht as <- _.
    apply (loop_shorter _ _ _ _ _ _ a h b c) in Hl; [|apply same_key_refl, Hn]. cbn [fst] in Hl. apply mapM_Forall2, Forall2_length in Hp. apply raster_points in Hr1 as [Hr1 _]. apply Forall2_length in Hr1. apply fill_all_points, Forall2_length in Hr2. unfold hypos. lia. }
  destruct (finish_only _ _ _ _ _ _ _ _ _ _ _ _ H) as (ops' & -> & Honly). pose proof (C89_saved_file_is_loaded _ _ _ _ _ _ f HC E1) as [Hlo _].
  assert (Ef : run_ops (ops1 ++ ops') f (raster_file o) = run_ops ops1 f (raster_file o)) by (rewrite run_ops_app; apply Honly, files_differ).
  assert (Hm2 : scan_model E C pf rmatch o (run_ops (ops1 ++ ops') f) = Ok (m, I)) by (rewrite <- Hm; apply model_local; eapply run_only; eauto).
  assert (Hd2 : scan_data C pf rmatch o (run_ops (ops1 ++ ops') f) (m, I) = Ok data) by (rewrite <- Hd; apply data_local; eapply run_only; eauto).
  destruct (cached_raster L C o (run_ops (ops1 ++ ops') f) I) as [[r'|]|e] eqn:Ec.
  - exists KeyError. eapply C106_mismatch_reported; eauto. intros [A _]. fold hypos in A.
    assert (Hle : (length (ra_points r') <= length l)%nat).
    { unfold cached_raster in Ec. rewrite Hfo, Ef in Ec. rewrite (load_local _ _ _ _ _ Ef), Hlo in Ec. destruct (run_ops ops1 f (raster_file o)); [|discriminate]. cbn [bind dgetE dget String.eqb Ascii.eqb Bool.eqb jlist] in Ec. apply bind_Ok in Ec as (r2 & Ec & X). injection X as ->.
      unfold raster_load in Ec. apply bind_Ok in Ec as (p1 & Hp & Ec). apply bind_Ok in Ec as (ps & _ & Ec). apply bind_Ok in Ec as (p2 & H2 & Ec). apply bind_Ok in Ec as (p3 & H3 & Ec). injection Ec as <-. cbn [ra_points]. apply set_global_id in H2. subst p2.
      apply mapM_Forall2, Forall2_length in H3. rewrite <- H3. clear - Hp. assert (G : forall (d p1 : hdict PLR), foldM (fun d j => let! o := as_obj j in let! p := plr_load (Some (i_pm I)) o in Ok (hset (sl_hash L) (plr_hypo p) p d)) l d = Ok p1 -> (length p1 <= length d + length l)%nat).
      { clear Hp. induction l as [|j l IH]; intros d q Hq; cbn in Hq; [injection Hq as <-; cbn; lia|]. apply bind_Ok in Hq as (d' & Hd & Hq). apply bind_Ok in Hd as (ob & _ & Hd). apply bind_Ok in Hd as (p & _ & Hd). injection Hd as <-. apply IH in Hq. pose proof (hset_length (sl_hash L) (plr_hypo p) p d) as [M _]. cbn [length]. lia. }
      apply G in Hp. cbn in Hp. exact Hp. }
    unfold raster_dump in El. apply mapM_Forall2, Forall2_length in El. lia.
  - exfalso. unfold cached_raster in Ec. rewrite Hfo, Ef in Ec. unfold load_file in Hlo. destruct (run_ops ops1 f (raster_file o)); [|discriminate]. apply bind_Ok in Ec as (sd & _ & Ec). apply bind_Ok in Ec as (v & _ & Ec). apply bind_Ok in Ec as (lv & _ & Ec). apply bind_Ok in Ec as (rr & _ & Ec). discriminate.
  - exists e. unfold scan_run. rewrite Hm2. cbn [bind]. rewrite Hd2. cbn [bind snd]. rewrite Ec. reflexivity.
Qed.
Print Assumptions C106_repeated_hypothesis_refuted.

(** Refuted, for --force-computation without --hypos (the hypotheses are those of the stored raster, which is not read): the computation is done for no hypothesis. With the option all, the stored raster is
    replaced by one without points before the run ends with IndexError. *)
Theorem C106_force_without_hypotheses_refuted : forall L E C w pf pi rmatch o f m I data ib, scan_model E C pf rmatch o f = Ok (m, I) -> scan_data C pf rmatch o f (m, I) = Ok data -> set_pois_min m I None None None false = Ok ib ->
  so_hypos o = None -> fresh o f ->
  (so_mode o = "single" -> scan_run L E C w pf pi rmatch o f = ([], Some ValueError)) /\
  (so_mode o = "all" -> forall ops cls, save_ops C w (raster_file o) None [("fast", JList [])] = (ops, None) -> map pf (split "," (so_cl o)) = map Some cls -> scan_run L E C w pf pi rmatch o f = (ops, Some IndexError)).
Proof.
  intros L E C w pf pi rmatch o f m I data ib Hm Hd Hi Hh Hf. unfold scan_run. rewrite Hm. cbn [bind]. rewrite Hd. cbn [bind snd]. rewrite (cached_fresh _ _ _ _ _ Hf). cbn [bind fst]. unfold scan_plan. rewrite Hh. cbn [bind snd fst]. unfold scan_compute. cbn [fst snd]. rewrite Hi. cbn [bind have_compatible_pois length Nat.ltb Nat.leb map].
  split; intros Hmo; rewrite Hmo.
  - reflexivity.
  - intros ops cls Hs Hc. cbn. rewrite Hs. unfold scan_finish. fold (level_value pf). rewrite (cls_read _ _ _ Hc). reflexivity.
Qed.
Print Assumptions C106_force_without_hypotheses_refuted.

(** * C107 *)
Theorem C107_only_two_files : forall L E C w pf pi rmatch o f ops e q, scan_run L E C w pf pi rmatch o f = (ops, e) -> q <> (so_out o ++ "_raster.json")%string -> q <> (so_out o ++ "_results.json")%string -> run_ops ops f q = f q.
Proof. exact run_only. Qed.
Print Assumptions C107_only_two_files.
Theorem C107_too_many_parameters_refused : forall L E C w pf pi rmatch o f m I data ib spec hypos, scan_model E C pf rmatch o f = Ok (m, I) -> scan_data C pf rmatch o f (m, I) = Ok data -> set_pois_min m I None None None false = Ok ib ->
  fresh o f -> so_hypos o = Some spec -> parse_hypos (e_fuel E) pf pi rmatch m spec = Ok hypos -> (2 < length (have_compatible_pois hypos))%nat -> scan_run L E C w pf pi rmatch o f = ([], Some ValueError).
Proof.
  intros L E C w pf pi rmatch o f m I data ib spec hypos Hm Hd Hi Hf Hs Hh Hl. rewrite (run_fresh _ _ _ _ _ _ _ _ _ _ _ _ _ _ Hm Hd Hf Hs Hh). unfold scan_compute. cbn [fst snd]. rewrite Hi. cbn [bind]. apply Nat.ltb_lt in Hl. rewrite Hl. reflexivity.
Qed.
Print Assumptions C107_too_many_parameters_refused.
(** the options that never work *)
Theorem C107_regularize_refuted : forall L E C w pf pi rmatch o f mi x, model_load_file E C f (new_model (negb (so_sym o)) (so_linear o)) (so_model o) None = Ok mi -> so_regularize o = Some x ->
  scan_run L E C w pf pi rmatch o f = ([], Some AttributeError).
Proof. intros L E C w pf pi rmatch o f mi x Hm Hr. unfold scan_run, scan_model. rewrite Hm. cbn [bind]. rewrite Hr. reflexivity. Qed.
Print Assumptions C107_regularize_refuted.
Theorem C107_documented_mode_refuted : forall L E C w pf pi rmatch o f m I data ib spec hypos, scan_model E C pf rmatch o f = Ok (m, I) -> scan_data C pf rmatch o f (m, I) = Ok data -> set_pois_min m I None None None false = Ok ib ->
  fresh o f -> so_hypos o = Some spec -> parse_hypos (e_fuel E) pf pi rmatch m spec = Ok hypos -> so_mode o = "best_fixed" -> scan_run L E C w pf pi rmatch o f = ([], Some ValueError).
Proof.
  intros L E C w pf pi rmatch o f m I data ib spec hypos Hm Hd Hi Hf Hs Hh Hmo. rewrite (run_fresh _ _ _ _ _ _ _ _ _ _ _ _ _ _ Hm Hd Hf Hs Hh). unfold scan_compute. cbn [fst snd]. rewrite Hi. cbn [bind]. destruct (_ <? _)%nat; [reflexivity|]. rewrite Hmo. reflexivity.
Qed.
Print Assumptions C107_documented_mode_refuted.
(** the documented separator of the hypotheses *)
Lemma free_app' c s t : free_of c s -> free_of c t -> free_of c (s ++ t)%string.
Proof. induction s as [|a s IH]; intros H1 H2; [exact H2|]. destruct H1 as [A B]. cbn [String.append]. split; [exact A|]. now apply IH. Qed.
Theorem C107_documented_separator_refuted : forall fuel pf pi rmatch m a x b y, part a -> part x -> part b -> part y -> free_of "|" a -> free_of "|" x -> free_of "|" b -> free_of "|" y ->
  parse_hypos fuel pf pi rmatch m (a ++ "=" ++ x ++ "#" ++ b ++ "=" ++ y)%string = Err ValueError.
Proof.
  intros fuel pf pi rmatch m a x b y (A1 & A2 & A3) (X1 & X2 & X3) (B1 & B2 & B3) (Y1 & Y2 & Y3) A4 X4 B4 Y4.
  assert (F : forall c, c <> "="%char -> c <> "#"%char -> free_of c a -> free_of c x -> free_of c b -> free_of c y -> free_of c (a ++ "=" ++ x ++ "#" ++ b ++ "=" ++ y)%string).
  { intros c N1 N2 Ha Hx Hb Hy. change (free_of c (a ++ String "=" (x ++ String "#" (b ++ String "=" y)))%string). apply free_app'; [exact Ha|]. split; [congruence|]. apply free_app'; [exact Hx|]. split; [congruence|]. apply free_app'; [exact Hb|]. split; [congruence|]. exact Hy. }
  unfold parse_hypos, setval_list. rewrite split_free by (apply F; try assumption; discriminate). cbn [mapM]. unfold process_setvals, assignments. rewrite split_free by (apply F; try assumption; discriminate). cbn [map]. rewrite no_space_free by (apply F; try assumption; discriminate).
  change (a ++ "=" ++ x ++ "#" ++ b ++ "=" ++ y)%string with (a ++ String "=" (x ++ String "#" (b ++ String "=" y)))%string.
  rewrite split_app by exact A2. replace (x ++ String "#" (b ++ String "=" y))%string with ((x ++ String "#" b) ++ String "=" y)%string; [|clear; induction x as [|? ? IH]; cbn; [reflexivity|]; f_equal; exact IH].
  rewrite split_app by (apply free_app'; [exact X2|]; split; [discriminate|exact B2]). rewrite split_free by exact Y2. reflexivity.
Qed.
Print Assumptions C107_documented_separator_refuted.
(** with --show-timing a stored raster cannot be used *)
Theorem C107_timing_refuted : forall L E C w pf pi rmatch o f m I data r spec hypos, scan_model E C pf rmatch o f = Ok (m, I) -> scan_data C pf rmatch o f (m, I) = Ok data ->
  cached_raster L C o f I = Ok (Some r) -> so_hypos o = Some spec -> parse_hypos (e_fuel E) pf pi rmatch m spec = Ok hypos -> answers r hypos -> so_timing o = true ->
  exists e, scan_run L E C w pf pi rmatch o f = ([], e) /\ forall cls d, map pf (split "," (so_cl o)) = map Some cls -> scan_results L m r (have_compatible_pois hypos) cls = Ok d -> e = Some NameError.
Proof.
  intros L E C w pf pi rmatch o f m I data r spec hypos Hm Hd Hc Hs Hh Hr Ht. rewrite (run_cached _ _ _ _ _ _ _ _ _ _ _ _ _ _ _ Hm Hd Hc Hs Hh Hr). unfold scan_finish. fold (level_value pf). rewrite Ht. cbn [negb andb].
  destruct (mapM (level_value pf) (split "," (so_cl o))) as [cls|e] eqn:El.
  - destruct (scan_results L m r (have_compatible_pois hypos) cls) as [d|e] eqn:Er.
    + exists (Some NameError). split; [reflexivity|auto].
    + exists (Some e). split; [reflexivity|]. intros cls' d Hcl Hd'. rewrite (cls_read _ _ _ Hcl) in El. injection El as ->. congruence.
  - exists None. split; [reflexivity|]. intros cls' d Hcl _. rewrite (cls_read _ _ _ Hcl) in El. discriminate.
Qed.
Print Assumptions C107_timing_refuted.
(** an invalid --cl ends the run without an error and without results, after the computation *)
Theorem C107_invalid_level_refuted : forall L E C w pf pi rmatch o f ops e s, scan_run L E C w pf pi rmatch o f = (ops, e) -> In s (split "," (so_cl o)) -> pf s = None ->
  run_ops ops f (results_file o) = f (results_file o) /\
  forall m I data r spec hypos, scan_model E C pf rmatch o f = Ok (m, I) -> scan_data C pf rmatch o f (m, I) = Ok data -> cached_raster L C o f I = Ok (Some r) -> so_hypos o = Some spec -> parse_hypos (e_fuel E) pf pi rmatch m spec = Ok hypos -> answers r hypos -> e = None.
Proof.
  intros L E C w pf pi rmatch o f ops e s H Hin Hpf.
  assert (Hbad : exists e', mapM (level_value pf) (split "," (so_cl o)) = Err e').
  { revert Hin. induction (split "," (so_cl o)) as [|x l IH]; [intros []|]. intros [->|Hin]; cbn [mapM]; [unfold level_value at 1; rewrite Hpf; cbn; eauto|]. destruct (level_value pf x); cbn; [|eauto]. destruct (IH Hin) as [e' ->]. cbn. eauto. }
  destruct Hbad as [e' Hbad]. assert (Hfin : forall m hypos r comp ops0, scan_finish L C w pf o m hypos r comp ops0 = (ops0, None)) by (intros; unfold scan_finish; fold (level_value pf); now rewrite Hbad). split.
  - unfold scan_run in H. destruct (let! mi := scan_model E C pf rmatch o f in _) as [[[[m hypos] r] [l|]]|]; [| |injection H as <- _; reflexivity].
    + destruct (save_ops C w (raster_file o) None [("fast", JList l)]) as [ops1 [e1|]] eqn:E1; [injection H as <- _|rewrite Hfin in H; injection H as <- _]; (eapply save_only; [exact E1|]); intros X; symmetry in X; revert X; apply files_differ.
    + rewrite Hfin in H. injection H as <- _. reflexivity.
  - intros m I data r spec hypos Hm Hd Hc Hs Hh Hr. rewrite (run_cached _ _ _ _ _ _ _ _ _ _ _ _ _ _ _ Hm Hd Hc Hs Hh Hr), Hfin in H. congruence.
Qed.
Print Assumptions C107_invalid_level_refuted.
(** a single hypothesis, or hypotheses on different parameters, end the run with IndexError after the raster has been written *)
Theorem C107_incompatible_hypotheses_refuted : forall L E C w pf pi rmatch o f m I data spec h0 rest r l ops cls, scan_model E C pf rmatch o f = Ok (m, I) -> scan_data C pf rmatch o f (m, I) = Ok data ->
  fresh o f -> so_hypos o = Some spec -> parse_hypos (e_fuel E) pf pi rmatch m spec = Ok (h0 :: rest) -> (rest = [] \/ exists h, In h rest /\ keys h <> keys h0) -> map pf (split "," (so_cl o)) = map Some cls ->
  scan_compute L o (m, I) data (h0 :: rest) = Ok r -> raster_dump r = Ok l -> save_ops C w (raster_file o) None [("fast", JList l)] = (ops, None) -> scan_run L E C w pf pi rmatch o f = (ops, Some IndexError).
Proof.
  intros L E C w pf pi rmatch o f m I data spec h0 rest r l ops cls Hm Hd Hf Hs Hh Hbad Hcl Hr Hl Hsave. rewrite (run_fresh _ _ _ _ _ _ _ _ _ _ _ _ _ _ Hm Hd Hf Hs Hh). rewrite Hr. cbn [bind]. rewrite Hl. cbn [bind]. rewrite Hsave.
  assert (X : have_compatible_pois (h0 :: rest) = []).
  { destruct Hbad as [->|(h & Hin & Hk)]; [reflexivity|]. destruct rest as [|h1 rest]; [destruct Hin|]. cbn [have_compatible_pois]. assert (existsb (fun h => negb (if list_eq_dec string_dec (keys h) (keys h0) then true else false)) (h1 :: rest) = true) as ->; [|reflexivity].
    apply existsb_exists. exists h. split; [exact Hin|]. destruct (list_eq_dec string_dec (keys h) (keys h0)); [contradiction|reflexivity]. }
  unfold scan_finish. fold (level_value pf). rewrite (cls_read _ _ _ Hcl), X. reflexivity.
Qed.
Print Assumptions C107_incompatible_hypotheses_refuted.
(** with two parameters, no result is stored *)
Theorem C107_two_parameters_no_results_refuted : forall L E C w pf pi rmatch o f ops m I data spec hypos p1 p2 cls, faithful C ->
  scan_model E C pf rmatch o f = Ok (m, I) -> scan_data C pf rmatch o f (m, I) = Ok data -> fresh o f ->
  so_hypos o = Some spec -> parse_hypos (e_fuel E) pf pi rmatch m spec = Ok hypos -> have_compatible_pois hypos = [p1; p2] -> map pf (split "," (so_cl o)) = map Some cls ->
  scan_run L E C w pf pi rmatch o f = (ops, None) -> load_file C (run_ops ops f) (results_file o) (Some "json") = Ok [].
Proof.
  intros L E C w pf pi rmatch o f ops m I data spec hypos p1 p2 cls HC Hm Hd Hf Hs Hh Hc Hcl H.
  rewrite (run_fresh _ _ _ _ _ _ _ _ _ _ _ _ _ _ Hm Hd Hf Hs Hh) in H. destruct (scan_compute L o (m, I) data hypos) as [r|] eqn:Er; cbn [bind] in H; [|discriminate]. destruct (raster_dump r) as [l|] eqn:El; cbn [bind] in H; [|discriminate].
  destruct (save_ops C w (raster_file o) None [("fast", JList l)]) as [ops1 [e|]] eqn:E1; [discriminate|].
  apply finish_ok in H as [(cls' & d & ops' & Hcls & Hd' & _ & Hsave & ->)|([e He] & _)]. 2:{ rewrite (cls_read _ _ _ Hcl) in He. discriminate. }
  rewrite Hc in Hd'. cbn [scan_results] in Hd'. apply bind_Ok in Hd' as (_u & _ & Hd'). injection Hd' as <-. rewrite run_ops_app. apply (C89_saved_file_is_loaded _ _ _ _ _ _ _ HC Hsave).
Qed.
Print Assumptions C107_two_parameters_no_results_refuted.
(** NP values in --asimov are accepted and ignored *)
Lemma nth_error_ext' {A} (l l' : list A) : (forall i, nth_error l i = nth_error l' i) -> l = l'.
Proof. revert l'. induction l as [|a l IH]; intros [|b l'] H; try reflexivity; try (specialize (H 0%nat); discriminate). f_equal; [specialize (H 0%nat); cbn in H; congruence|]. apply IH. intros i. exact (H (S i)). Qed.
Theorem C107_asimov_nps_ignored_refuted : forall C pf rmatch o o' f m I spec spec' vals vals', (so_data o = None \/ so_data o = Some "") -> (so_data o' = None \/ so_data o' = Some "") -> so_asimov o = Some spec -> so_asimov o' = Some spec' -> NoDup (pm_pois (i_pm I)) ->
  process_setvals pf rmatch m true true true false spec = Ok vals -> process_setvals pf rmatch m true true true false spec' = Ok vals' ->
  (forall n, In n (pm_pois (i_pm I)) -> dget n vals = dget n vals') ->
  forall data data', scan_data C pf rmatch o f (m, I) = Ok data -> scan_data C pf rmatch o' f (m, I) = Ok data' -> data = data'.
Proof.
  intros C pf rmatch o o' f m I spec spec' vals vals' Hn Hn' Ha Ha' HN Hp Hp' Hag data data' H H'.
  destruct (C105_dataset _ _ _ _ _ _ _ _ H) as (_ & _ & D). destruct (C105_dataset _ _ _ _ _ _ _ _ H') as (_ & _ & D').
  destruct (D Hn _ Ha HN) as (v & ps & t & Hv & Hl & Hg & Ht & Hc & Hx). destruct (D' Hn' _ Ha' HN) as (v' & ps' & t' & Hv' & Hl' & Hg' & Ht' & Hc' & Hx').
  rewrite Hp in Hv. injection Hv as <-. rewrite Hp' in Hv'. injection Hv' as <-.
  assert (ps' = ps) as ->.
  { apply nth_error_ext'. intros i. destruct (nth_error (pm_pois (i_pm I)) i) as [n|] eqn:En.
    - destruct (Hg i n En) as (x & A & B). destruct (Hg' i n En) as (x' & A' & B'). rewrite (Hag n (nth_error_In _ _ En)) in A. congruence.
    - apply nth_error_None in En. rewrite (proj2 (nth_error_None ps i)), (proj2 (nth_error_None ps' i)) by lia. reflexivity. }
  rewrite Ht in Ht'. injection Ht' as <-. destruct data, data'. cbn in Hc, Hx, Hc', Hx'. congruence.
Qed.
Print Assumptions C107_asimov_nps_ignored_refuted.
