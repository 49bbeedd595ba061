(** Property theorems about compute_fast_limits: C109 (asymptotic limits, options, stored rasters), C110 (limits from samples).
    Concrete cases that meet the hypotheses are in LimitCommandExProps.v. *)
From Coq Require Import Permutation Sorted.
From Verif Require Import Py PyFacts RSort Base BaseFacts Expressions Norms Sample Channels Params ParamsFacts Core CoreFacts NpMin PoiMin PoiMinFacts PoiHistProps TestStat FitData FitDataFacts FitDataProps RasterProps
  ParamsProps UtilFacts Calculators CalcFacts CalcProps Scans ScansProps ModelIO ModelTools UtilTools LimitTools FileIO FileIOProps Commands Sampling SamplingFacts SamplingProps FileName FileNameProps ScanFacts ScanCommand ScanCommandProps SamplesRun SamplesRunProps
  LimitCommand LimitFacts.
Local Open Scope string_scope.
Local Open Scope list_scope.
Local Open Scope R_scope.

(** ** Specification *)
(** the values of a p-value over the points of a raster *)
Definition curve (r : Raster) (poi key : string) (pts : list (R * R)) : Prop :=
  Forall2 (fun hp xy => dget poi (fst hp) = Some (fst xy) /\ dget key (plr_pvs (snd hp)) = Some (VNum (snd xy))) (ra_points r) pts.
(** where the cubic spline through the logarithms of the positive values crosses a level; with fewer than 4 values it is not looked for *)
Definition crossings_at (S : SplineLib) (level : R) (pts : list (R * R)) : list R :=
  let u := ScansProps.usable true pts in if (length u <? 4)%nat then [] else sp_roots S (map fst u) (shifted true level u).
(** the limit at 95%: the first crossing of 5% *)
Definition limit95 (S : SplineLib) (pts : list (R * R)) : option R := hd_error (crossings_at S (1 - 95 / 100) pts).
Definition opt_str (o : option string) : jv := match o with Some s => JStr s | None => JNull end.
(** a limit in the results file *)
Definition in_file (l : option R) : jv := match l with Some x => JFlt x | None => JList [JNull; JNull; JNull] end.
(** the statistic asked for *)
Definition asked (o : LimitOpts) (k : calc_kind) : Prop := (lo_stat o = "q~mu" /\ k = CalcQMuTilda) \/ (lo_stat o = "q_mu" /\ k = CalcQMu).
(** where the data come from *)
Definition limit_path (o : LimitOpts) : string := match lo_data o with Some p => if String.eqb p "" then lo_model o else p | None => lo_model o end.
(** all fits evaluate the likelihood *)
Definition fits_evaluate (L : LimitLibs) (m : Model) (it : Internal) : Prop := forall d, evaluates (sl_fit (ll_scan L) m it d).

(** ** Lemmas *)
Lemma limit_files_differ o : limit_raster_file o <> limit_results_file o.
Proof. apply app_tail_neq. discriminate. Qed.
Lemma curve_points r poi key pts : curve r poi key pts -> scan_points (mkScan1D (mkScan r key) poi) 0 = Ok (map fst pts, map VNum (map snd pts)).
Proof.
  unfold curve, scan_points. cbn [s1_scan s1_poi sc_raster]. intros H.
  assert (A : mapM (fun hp => let! x := dgetE poi (fst hp) in let! v := scan_value (mkScan r key) (snd hp) 0 in Ok (x, v)) (ra_points r) = Ok (map (fun xy => (fst xy, VNum (snd xy))) pts)).
  { induction H as [|[h p] [x y] l l' [E1 E2] _ IH]; cbn [mapM map fst snd] in *; [reflexivity|]. unfold dgetE at 1. rewrite E1. cbn [bind]. unfold scan_value at 1. cbn [sc_key]. rewrite E2. cbn [bind]. rewrite (proj2 (Reqb_true 0 0)) by reflexivity. cbn [bind]. rewrite IH. reflexivity. }
  rewrite A. cbn [bind]. rewrite !map_map. reflexivity.
Qed.
Lemma interp_positive level : 0 < level -> forall pts, interp_points level true (map fst pts) (map VNum (map snd pts)) = Ok (combine (map fst (ScansProps.usable true pts)) (shifted true level (ScansProps.usable true pts))).
Proof.
  intros HL. induction pts as [|[x y] pts IH]; [reflexivity|]. cbn [map fst snd interp_points as_num bind]. unfold ScansProps.usable in *. cbn [filter snd]. destruct (Rleb y 0) eqn:E.
  - apply Rleb_true in E. rewrite (proj2 (Rltb_false 0 y)) by lra. exact IH.
  - apply Rleb_false in E. rewrite (proj2 (Rltb_true 0 y)) by lra. rewrite (proj2 (Reqb_false level 0)) by lra. assert (0 < y / level) by now apply Rdiv_lt_0_compat. rewrite (proj2 (Rleb_false (y / level) 0)) by lra. rewrite IH. reflexivity.
Qed.
Lemma interp_curve S level pts l : 0 < level -> interpolate_crossings S (map fst pts) (map VNum (map snd pts)) level 3 true = Ok (Some l) -> l = crossings_at S level pts.
Proof.
  intros HL H. unfold interpolate_crossings in H. rewrite (interp_positive _ HL) in H. cbn [bind] in H. unfold crossings_at. set (u := ScansProps.usable true pts) in *.
  destruct (map_fst_combine2 (map fst u) (shifted true level u)) as [F1 F2]; [symmetry; apply shifted_length|]. rewrite F1, F2 in H. rewrite combine_length, shifted_length, map_length, Nat.min_id in H.
  destruct (length u <? 2)%nat eqn:E2; [discriminate|]. apply Nat.ltb_ge in E2. destruct (negb (increasing (map fst u))); [discriminate|]. change (3 + 1)%nat with 4%nat in H.
  destruct (length u <? 4)%nat eqn:E4; [|cbn in H; congruence]. apply Nat.ltb_lt in E4. assert (E3 : (length u - 1 =? 3)%nat = false) by (apply Nat.eqb_neq; lia). rewrite E3 in H. congruence.
Qed.
Lemma level_pos : 0 < 1 - 95 / 100.
Proof. lra. Qed.
Lemma ul_value S r key cl u l n pts : ul_new r key None cl = Ok u -> ul_limit S u 3 true = Ok l -> hd_error (ra_pois r) = Some n -> curve r n key pts -> l = limit95 S pts.
Proof.
  intros Hu Hl Hn Hc. unfold ul_new, scan1d_new in Hu. apply bind_Ok in Hu as (s & Hs & E). injection E as <-. apply bind_Ok in Hs as (s0 & Hs0 & Hs). apply bind_Ok in Hs as (n' & Hf & Hs). injection Hs as <-.
  unfold scan_new in Hs0. destruct (is_filled r key false false); [|discriminate]. injection Hs0 as <-. unfold find_poi in Hf. cbn [sc_raster] in Hf. destruct (ra_pois r) as [|n0 ps]; [discriminate|]. cbn in Hn, Hf. injection Hn as <-. injection Hf as <-.
  unfold ul_limit, crossings in Hl. cbn [ul_scan ul_cl] in Hl. rewrite (curve_points _ _ _ _ Hc) in Hl. cbn [bind fst snd] in Hl. apply bind_Ok in Hl as (o & Ho & Hl). apply bind_Ok in Hl as (l0 & Hl0 & Hl). destruct o as [l1|]; [|discriminate]. injection Hl0 as ->.
  apply interp_curve in Ho; [|exact level_pos]. subst l0. unfold limit95. destruct (crossings_at S (1 - 95 / 100) pts); cbn in *; congruence.
Qed.

(** the model *)
Lemma limit_model_names E C o f m it : limit_model E C o f = Ok (m, it) -> pm_pois (i_pm it) = keys (m_pois m).
Proof.
  unfold limit_model, model_load_file, model_load, finish. intros H. apply bind_Ok in H as ([m0 it0] & H & H1). apply bind_Ok in H as (sd & _ & H). apply bind_Ok in H as (m1 & _ & H). apply bind_Ok in H as (it1 & Hs & H). injection H as <- <-.
  apply bind_Ok in H1 as (_u & _ & H1). cbn [fst snd] in H1. injection H1 as <- <-. apply siv_built in Hs. pose proof (bt_pm _ _ _ Hs) as Hp. unfold pmodel_of in Hp. apply bind_Ok in Hp as (l & _ & Hp). injection Hp as <-.
  destruct (lo_cutoff o); reflexivity.
Qed.
Lemma model_pois_keys_names E C o f m it n p rest : limit_model E C o f = Ok (m, it) -> m_pois m = (n, p) :: rest -> pm_pois (i_pm it) = n :: keys rest.
Proof. intros H E1. rewrite (limit_model_names _ _ _ _ _ _ H), E1. reflexivity. Qed.
Lemma limit_stat_spec m o k : limit_stat m (lo_stat o) = Ok k -> asked o k /\ (length (m_pois m) <= 1)%nat /\ k <> CalcTMu.
Proof.
  unfold limit_stat, asked. destruct (String.eqb_spec (lo_stat o) "q~mu") as [E|_]; [|destruct (String.eqb_spec (lo_stat o) "q_mu") as [E|_]; [|discriminate]]; rewrite ?E;
    (destruct (1 <? length (m_pois m))%nat eqn:El; [discriminate|]); apply Nat.ltb_ge in El; intros [= <-]; (split; [auto|split; [exact El|discriminate]]).
Qed.

(** the reference parameters of the hypotheses *)
Definition full_step (hash : list string -> Z) (it : Internal) (d : hdict Params) (h : Hypo) : res (hdict Params) :=
  let! p := pars_init (PIDict (map (fun kv => (fst kv, Some (snd kv))) h)) NINone (Some (i_pm it)) in Ok (hset hash h p d).
Lemma init_dict_full m d p : pars_init (PIDict d) NINone (Some m) = Ok p -> wf p m /\ nps p = repeat 0 (length (pm_nps m)).
Proof.
  unfold pars_init. intros H. apply bind_Ok in H as (ps & _ & H). apply bind_Ok in H as (u & Hu & H). apply bind_Ok in H as (ns & Hn & H). injection Hn as <-. apply bind_Ok in H as (u2 & Hu2 & H). injection H as <-.
  destruct (length ps =? length (pm_pois m))%nat eqn:E; [|discriminate]. apply Nat.eqb_eq in E. split; [|reflexivity]. split; [reflexivity|]. split; [exact E|apply repeat_length].
Qed.
Lemma full_loop hash it : forall hypos d d', foldM (full_step hash it) hypos d = Ok d' -> (forall h p, In (h, p) d -> wf p (i_pm it) /\ nps p = repeat 0 (length (pm_nps (i_pm it)))) ->
  forall h p, In (h, p) d' -> wf p (i_pm it) /\ nps p = repeat 0 (length (pm_nps (i_pm it))).
Proof.
  induction hypos as [|h hypos IH]; intros d d' H HP; cbn [foldM] in H; [injection H as <-; exact HP|]. apply bind_Ok in H as (d1 & H1 & H). unfold full_step in H1. apply bind_Ok in H1 as (p & Hp & H1). injection H1 as <-.
  eapply IH; [exact H|]. apply init_dict_full in Hp. clear - HP Hp. induction d as [|[h0 p0] d IHd]; cbn [hset]; intros x q Hin.
  - destruct Hin as [[= <- <-]|[]]. exact Hp.
  - destruct (same_key hash h0 h); destruct Hin as [[= <- <-]|Hin].
    + exact Hp.
    + apply (HP x q). now right.
    + apply (HP h0 p0). now left.
    + apply (IHd (fun y z Hy => HP y z (or_intror Hy)) x q Hin).
Qed.
Lemma hget_In {V} hash h (d : hdict V) v : hget hash h d = Some v -> exists h', In (h', v) d.
Proof. induction d as [|[h0 v0] d IH]; cbn; [discriminate|]. destruct (same_key hash h0 h); [intros [= <-]; eauto|]. intros H. destruct (IH H) as [h' Hin]. eauto. Qed.

Lemma hset_some {V} hash x h (v : V) d : hget hash x d <> None -> hget hash x (hset hash h v d) <> None.
Proof. induction d as [|[h0 v0] d IH]; cbn [hget hset]; [congruence|]. intros H. destruct (same_key hash h0 h); cbn [hget]; destruct (same_key hash h0 x); try discriminate; auto. Qed.
Lemma hset_own {V} hash h (v : V) d : NoDup (keys h) -> hget hash h (hset hash h v d) <> None.
Proof. intros N. induction d as [|[h0 v0] d IH]; cbn [hget hset]; [rewrite same_key_refl by exact N; discriminate|]. destruct (same_key hash h0 h) eqn:E; cbn [hget]; rewrite E; [discriminate|exact IH]. Qed.
Lemma full_found hash it : forall hypos d d', (forall h, In h hypos -> NoDup (keys h)) -> foldM (full_step hash it) hypos d = Ok d' -> (forall h, hget hash h d <> None -> hget hash h d' <> None) /\ forall h, In h hypos -> hget hash h d' <> None.
Proof.
  induction hypos as [|h hypos IH]; intros d d' HN H; cbn [foldM] in H; [injection H as <-; split; [auto|intros ? []]|]. apply bind_Ok in H as (d1 & H1 & H). unfold full_step in H1. apply bind_Ok in H1 as (p & Hp & H1). injection H1 as <-.
  destruct (IH _ _ (fun x Hx => HN x (or_intror Hx)) H) as [A B]. split; [intros x Hx; apply A, hset_some, Hx|]. intros x [<-|Hx]; [|now apply B]. apply A, hset_own, HN. now left.
Qed.
(** what the computation gives *)
Lemma limit_compute_ok L k s m it data hypos r : k <> CalcTMu -> fits_evaluate L m it -> distinct (sl_hash (ll_scan L)) hypos -> limit_compute L k s (m, it) data hypos = Ok r ->
  map fst (ra_points r) = hypos /\ hkeys_ok (sl_hash (ll_scan L)) (ra_points r) /\ raster_set_pois (ra_points r) (Some (i_pm it)) = Ok (ra_pois r) /\
  (forall h p, In (h, p) (ra_points r) -> plr_hypo p = h /\ point_ok (i_pm it) p /\ (exists v, plr_full p = Some (mkPars v (repeat 0 (length (pm_nps (i_pm it)))) (Some (i_pm it)))) /\
     consistent (sl_dist (ll_scan L)) k p).
Proof.
  intros Hk HE HD H. unfold limit_compute in H. cbn [fst snd] in H. apply bind_Ok in H as (full & Hfull & H). apply bind_Ok in H as ([r0 s'] & H & E). injection E as <-. cbn [fst] in *.
  pose proof (full_loop (sl_hash (ll_scan L)) it hypos [] full Hfull ltac:(intros ? ? [])) as HF.
  assert (HF' : forall h q, hget (sl_hash (ll_scan L)) h full = Some q -> wf q (i_pm it) /\ nps q = repeat 0 (length (pm_nps (i_pm it)))) by (intros h q Hq; apply hget_In in Hq as [h' Hin]; eapply HF, Hin).
  destruct (fast_results_ok _ _ _ _ _ _ _ _ _ _ _ _ _ Hk HE HD (fun h q _ Hq => proj1 (HF' h q Hq)) H) as (A & B & D & F). split; [exact A|]. split; [exact B|]. split; [exact D|].
  intros h p Hin. destruct (F h p Hin) as (F1 & F2 & F3). split; [exact F1|]. split; [exact F2|]. split; [|apply (C77_pvalues_consistent _ _ _ _ _ _ _ _ _ _ _ _ _ Hk H h p Hin)].
  assert (Hh : In h hypos) by (rewrite <- A; apply (in_map fst _ _ Hin)). rewrite F3. destruct (hget (sl_hash (ll_scan L)) h full) as [q|] eqn:Hq; [|exfalso; revert Hq; apply (full_found _ it hypos [] full (proj1 HD) Hfull), Hh].
  destruct (HF' _ _ Hq) as [(W1 & _ & _) W2]. exists (pois q). destruct q; cbn in *. congruence.
Qed.
Lemma set_pois_incl pts m l : raster_set_pois pts (Some m) = Ok l -> l = have_compatible_pois (map fst pts).
Proof.
  unfold raster_set_pois. generalize (have_compatible_pois (map fst pts)). intros ns. revert l. induction ns as [|n ns IH]; intros l H; cbn in H; [congruence|]. destruct (index n (pm_pois m)); [|discriminate]. cbn in H. apply bind_Ok in H as (l' & Hl & H). injection H as <-. f_equal. now apply IH.
Qed.

(** the curves of the p-values of a raster for one parameter *)
Lemma raster_curve r n key : (forall h p, In (h, p) (ra_points r) -> (exists v, dget n h = Some v) /\ exists y, dget key (plr_pvs p) = Some (VNum y)) -> exists pts, curve r n key pts.
Proof.
  unfold curve. generalize (ra_points r). intros l H. induction l as [|[h p] l IH]; [exists []; constructor|]. destruct (H h p (or_introl eq_refl)) as [[v Ev] [y Ey]]. destruct IH as [pts HF]; [intros; apply H; now right|].
  exists ((v, y) :: pts). constructor; [split; [exact Ev|exact Ey]|exact HF].
Qed.

(** ** a run without a stored raster *)
Definition with_results (L : LimitLibs) (C : Codec) (w : string -> bool) (o : LimitOpts) (mi : Model * Internal) (bounds : list ParBound) (dk : disk) (rl : res (Raster * list jv)) : list fsop * disk * option exn :=
  match rl with
  | Err e => ([], dk, Some e)
  | Ok (r, l) => match save_ops C w (limit_raster_file o) None [("fast", JList l)] with
                 | (ops, Some e) => (ops, dk, Some e)
                 | (ops, None) => limit_finish L C w o mi bounds r ops dk
                 end
  end.
Lemma stored_none L C o f it : f (limit_raster_file o) = None -> stored_raster L C o f it = Ok None.
Proof. unfold stored_raster. now intros ->. Qed.
Lemma limit_run_fresh L E C w pf pi rmatch o f dk m it data hypos bounds k s : limit_model E C o f = Ok (m, it) -> parse_hypos (e_fuel E) pf pi rmatch m (lo_hypos o) = Ok hypos -> limit_data C pf o f (m, it) = Ok data ->
  limit_bounds pf o = Ok bounds -> limit_stat m (lo_stat o) = Ok k -> limit_minimizer (m, it) bounds = Ok s -> f (limit_raster_file o) = None ->
  limit_run L E C w pf pi rmatch o f dk = with_results L C w o (m, it) bounds dk (let! r := limit_compute L k s (m, it) data hypos in let! l := raster_dump r in Ok (r, l)).
Proof.
  intros Hm Hh Hd Hb Hk Hs Hf. unfold limit_run. rewrite Hm. cbn [bind fst]. rewrite Hh. cbn [bind]. rewrite Hd. cbn [bind]. rewrite Hb. cbn [bind]. rewrite Hk. cbn [bind]. rewrite Hs. cbn [bind snd]. rewrite (stored_none _ _ _ _ _ Hf). cbn [bind].
  assert (E1 : (if lo_overwrite o then None else @None Raster) = None) by now destruct (lo_overwrite o). rewrite E1. destruct (limit_compute L k s (m, it) data hypos) as [r|]; cbn [bind]; [|reflexivity]. destruct (raster_dump r); reflexivity.
Qed.
(** a successful run has read its inputs *)
Lemma limit_run_inputs L E C w pf pi rmatch o f dk ops dk' : limit_run L E C w pf pi rmatch o f dk = (ops, dk', None) ->
  exists m it hypos data bounds k s, limit_model E C o f = Ok (m, it) /\ parse_hypos (e_fuel E) pf pi rmatch m (lo_hypos o) = Ok hypos /\ limit_data C pf o f (m, it) = Ok data /\
    limit_bounds pf o = Ok bounds /\ limit_stat m (lo_stat o) = Ok k /\ limit_minimizer (m, it) bounds = Ok s.
Proof.
  unfold limit_run. destruct (limit_model E C o f) as [[m it]|]; cbn [bind fst snd]; [|discriminate]. destruct (parse_hypos _ _ _ _ _ _) as [hypos|] eqn:E1; cbn [bind]; [|discriminate]. destruct (limit_data C pf o f (m, it)) as [data|] eqn:E2; cbn [bind]; [|discriminate].
  destruct (limit_bounds pf o) as [bounds|] eqn:E3; cbn [bind]; [|discriminate]. destruct (limit_stat m (lo_stat o)) as [k|] eqn:E4; cbn [bind]; [|discriminate]. destruct (limit_minimizer (m, it) bounds) as [s|] eqn:E5; cbn [bind]; [|discriminate].
  intros _. exists m, it, hypos, data, bounds, k, s. repeat split; assumption || reflexivity.
Qed.

(** ** C109: asymptotic limits *)
Lemma finish_asymptotic L C w o mi bounds r ops0 dk ops dk' : lo_ntoys o = 0%nat -> limit_finish L C w o mi bounds r ops0 dk = (ops, dk', None) ->
  dk' = dk /\ exists asy d ops', asymptotic_limits (sl_spline (ll_scan L)) r (lo_cl o) = Ok asy /\ limit_results (ll_dec L) o (fst mi) asy None = Ok d /\ save_ops C w (limit_results_file o) (Some "json") d = (ops', None) /\ ops = ops0 ++ ops'.
Proof.
  intros Hn H. unfold limit_finish in H. destruct (asymptotic_limits _ r (lo_cl o)) as [asy|]; [|discriminate]. rewrite Hn in H. cbn [Nat.eqb] in H. destruct (limit_results _ o (fst mi) asy None) as [d|] eqn:Ed; [|discriminate].
  destruct (save_ops C w (limit_results_file o) (Some "json") d) as [ops' e] eqn:Es. injection H as <- <- ->. split; [reflexivity|]. exists asy, d, ops'. auto.
Qed.
Lemma asymptotic_spec S r cl lsb ls n psb ps : asymptotic_limits S r cl = Ok (lsb, ls) -> hd_error (ra_pois r) = Some n -> curve r n "pv" psb -> curve r n "cls" ps -> lsb = limit95 S psb /\ ls = limit95 S ps.
Proof.
  intros H Hn H1 H2. unfold asymptotic_limits in H. apply bind_Ok in H as (usb & Hsb & H). apply bind_Ok in H as (us & Hs & H). apply bind_Ok in H as (l1 & Hl1 & H). apply bind_Ok in H as (l2 & Hl2 & H). injection H as <- <-.
  split; [exact (ul_value _ _ _ _ _ _ _ _ Hsb Hl1 Hn H1)|exact (ul_value _ _ _ _ _ _ _ _ Hs Hl2 Hn H2)].
Qed.
Lemma asymptotic_pois S r cl asy : asymptotic_limits S r cl = Ok asy -> exists n, hd_error (ra_pois r) = Some n.
Proof.
  intros H. unfold asymptotic_limits in H. apply bind_Ok in H as (usb & Hsb & _). unfold ul_new, scan1d_new in Hsb. apply bind_Ok in Hsb as (s & Hs & _). apply bind_Ok in Hs as (s0 & Hs0 & Hs). apply bind_Ok in Hs as (n' & Hf & Hs).
  unfold scan_new in Hs0. destruct (is_filled r "pv" false false); [|discriminate]. injection Hs0 as <-. unfold find_poi in Hf. cbn [sc_raster] in Hf. destruct (ra_pois r); [discriminate|]. eexists. reflexivity.
Qed.
(** the parameter of a raster computed for a model with at most one POI *)
Lemma one_poi (hypos : list Hypo) (pm : list string) n : (length pm <= 1)%nat -> (forall h, In h hypos -> NoDup (keys h) /\ incl (keys h) pm) -> hd_error (have_compatible_pois hypos) = Some n -> pm = [n] /\ forall h, In h hypos -> exists v, h = [(n, v)].
Proof.
  intros HL HI Hn. assert (A : forall h : Hypo, In h hypos -> keys h = [] \/ exists x v, pm = [x] /\ h = [(x, v)]).
  { intros h Hh. destruct (HI h Hh) as [Nd Inc]. destruct pm as [|x [|y pm]]; [|  |cbn in HL; lia].
    - destruct h as [|[k v] h]; [now left|]. exfalso. apply (Inc k). now left.
    - destruct h as [|[k v] h]; [now left|]. right. exists x, v. split; [reflexivity|]. assert (k = x) as -> by (destruct (Inc k (or_introl eq_refl)) as [<-|[]]; reflexivity). destruct h as [|[k2 v2] h]; [reflexivity|].
      exfalso. cbn in Nd. inversion Nd as [|? ? Hx _]; subst. apply Hx. left. destruct (Inc k2 (or_intror (or_introl eq_refl))) as [<-|[]]. reflexivity. }
  unfold have_compatible_pois in Hn. destruct hypos as [|h0 [|h1 hs]]; try discriminate. match type of Hn with hd_error (if ?b then _ else _) = _ => destruct b eqn:Ex; [discriminate|] end.
  destruct (A h0 (or_introl eq_refl)) as [E0|(x & v0 & Ex0 & Eh0)]; [rewrite E0 in Hn; discriminate|]. rewrite Eh0 in Hn. cbn in Hn. injection Hn as ->. split; [exact Ex0|].
  intros h Hh. destruct Hh as [<-|Hh]; [eauto|]. assert (Ek : keys h = keys h0).
  { rewrite <- Bool.not_true_iff_false in Ex. destruct (list_eq_dec string_dec (keys h) (keys h0)) as [e|ne]; [exact e|]. exfalso. apply Ex. apply existsb_exists. exists h. split; [exact Hh|]. destruct (list_eq_dec string_dec (keys h) (keys h0)); [contradiction|reflexivity]. }
  destruct (A h (or_intror Hh)) as [E1|(x' & v & Ex1 & ->)]; [rewrite E1, Eh0 in Ek; discriminate|]. rewrite Ex0 in Ex1. injection Ex1 as <-. eauto.
Qed.
(** what the raster of a successful run looks like *)
Lemma limit_raster L k s m it data hypos r n : k <> CalcTMu -> fits_evaluate L m it -> distinct (sl_hash (ll_scan L)) hypos -> (length (pm_pois (i_pm it)) <= 1)%nat -> limit_compute L k s (m, it) data hypos = Ok r -> hd_error (ra_pois r) = Some n ->
  pm_pois (i_pm it) = [n] /\ exists psb ps, curve r n "pv" psb /\ curve r n "cls" ps.
Proof.
  intros Hk HE HD HL Hr Hn. destruct (limit_compute_ok _ _ _ _ _ _ _ _ Hk HE HD Hr) as (K1 & _ & K3 & K4). apply set_pois_incl in K3. rewrite K1 in K3.
  assert (HI : forall h, In h hypos -> NoDup (keys h) /\ incl (keys h) (pm_pois (i_pm it))).
  { intros h Hh. rewrite <- K1 in Hh. apply in_map_iff in Hh as ([h1 p] & E & Hin). cbn in E. subst h1. destruct (K4 _ _ Hin) as (E & P & _). rewrite <- E. split; [apply (ok_hypo _ _ P)|apply (ok_pois _ _ P)]. }
  rewrite K3 in Hn. destruct (one_poi hypos (pm_pois (i_pm it)) n HL HI Hn) as [A B]. split; [exact A|].
  assert (HP : forall h p, In (h, p) (ra_points r) -> (exists v, dget n h = Some v) /\ (exists y, dget "pv" (plr_pvs p) = Some (VNum y)) /\ exists y, dget "cls" (plr_pvs p) = Some (VNum y)).
  { intros h p Hin. destruct (K4 _ _ Hin) as (_ & _ & _ & Hc). destruct Hc as (n' & hv & t & b & a & q & pv & cls & clb & fp & _ & _ & _ & _ & _ & _ & _ & _ & Epv & Ecls & _). split; [|eauto].
    destruct (B h) as [v ->]; [rewrite <- K1; apply (in_map fst _ _ Hin)|]. exists v. cbn. now rewrite String.eqb_refl. }
  destruct (raster_curve r n "pv") as [psb H1]; [intros h p Hin; destruct (HP h p Hin) as (? & ? & ?); auto|]. destruct (raster_curve r n "cls") as [ps H2]; [intros h p Hin; destruct (HP h p Hin) as (? & ? & ?); auto|]. eauto.
Qed.

(** Without toys and without a stored raster, a successful run of compute_fast_limits tests the hypotheses of the command with the statistic of the command: it writes the raster of the p-values, and
    in the results file the limits from CLs and CLs+b: the first points where the interpolated p-values cross 5%. *)
Theorem C109_results : forall L E C w pf pi rmatch o f dk ops dk' m it hypos, faithful C ->
  limit_model E C o f = Ok (m, it) -> parse_hypos (e_fuel E) pf pi rmatch m (lo_hypos o) = Ok hypos -> distinct (sl_hash (ll_scan L)) hypos -> fits_evaluate L m it -> NoDup (pm_pois (i_pm it) ++ np_names (i_pm it)) ->
  f (limit_raster_file o) = None -> lo_ntoys o = 0%nat ->
  limit_run L E C w pf pi rmatch o f dk = (ops, dk', None) ->
  exists k r l n p psb ps, asked o k /\ m_pois m = [(n, p)] /\ map fst (ra_points r) = hypos /\
    (forall h pt, In (h, pt) (ra_points r) -> plr_hypo pt = h /\ consistent (sl_dist (ll_scan L)) k pt) /\ curve r n "pv" psb /\ curve r n "cls" ps /\
    raster_dump r = Ok l /\ load_file C (run_ops ops f) (limit_raster_file o) None = Ok [("fast", JList l)] /\
    load_file C (run_ops ops f) (limit_results_file o) (Some "json") =
      Ok [("cl", JFlt (lo_cl o)); ("poi_name", opt_str (poi_name p)); ("poi_unit", opt_str (poi_unit p));
          ("limit_asymptotics_CLs", in_file (limit95 (sl_spline (ll_scan L)) ps)); ("limit_asymptotics_CLsb", in_file (limit95 (sl_spline (ll_scan L)) psb))] /\
    dk' = dk.
Proof.
  intros L E C w pf pi rmatch o f dk ops dk' m it hypos HC Hm Hh HD HE HN Hf Ht H. destruct (limit_run_inputs _ _ _ _ _ _ _ _ _ _ _ _ H) as (m1 & it1 & hy1 & data & bounds & k & s & Hm1 & Hh1 & Hd & Hb & Hk & Hs).
  rewrite Hm in Hm1. injection Hm1 as <- <-. rewrite Hh in Hh1. injection Hh1 as <-. rewrite (limit_run_fresh _ _ _ _ _ _ _ _ _ _ _ _ _ _ _ _ _ Hm Hh Hd Hb Hk Hs Hf) in H.
  unfold with_results in H. destruct (limit_compute L k s (m, it) data hypos) as [r|] eqn:Er; cbn [bind] in H; [|discriminate]. destruct (raster_dump r) as [l|] eqn:El; cbn [bind] in H; [|discriminate].
  destruct (save_ops C w (limit_raster_file o) None [("fast", JList l)]) as [ops1 [e|]] eqn:E1; [discriminate|]. destruct (finish_asymptotic _ _ _ _ _ _ _ _ _ _ _ Ht H) as (-> & asy & d & ops2 & Ha & Hres & Hsave & ->).
  destruct (limit_stat_spec _ _ _ Hk) as (Hask & Hlen & Hkn). destruct (asymptotic_pois _ _ _ _ Ha) as [n Hn].
  assert (Hl1 : (length (pm_pois (i_pm it)) <= 1)%nat) by (rewrite (limit_model_names _ _ _ _ _ _ Hm); unfold keys; rewrite map_length; exact Hlen).
  destruct (limit_raster _ _ _ _ _ _ _ _ _ Hkn HE HD Hl1 Er Hn) as (Hpm & psb & ps & C1 & C2). destruct asy as [lsb ls]. destruct (asymptotic_spec _ _ _ _ _ _ _ _ Ha Hn C1 C2) as [-> ->].
  rewrite (limit_model_names _ _ _ _ _ _ Hm) in Hpm. destruct (m_pois m) as [|[n' p] rest] eqn:Ep; [discriminate|]. cbn in Hpm. injection Hpm as -> Hrest. assert (rest = []) as -> by (destruct rest; [reflexivity|discriminate]).
  destruct (limit_compute_ok _ _ _ _ _ _ _ _ Hkn HE HD Er) as (K1 & _ & _ & K4).
  exists k, r, l, n, p, psb, ps. split; [exact Hask|]. split; [reflexivity|]. split; [exact K1|]. split; [intros h pt Hin; destruct (K4 _ _ Hin) as (A & _ & _ & B); auto|]. split; [exact C1|]. split; [exact C2|]. split; [exact El|].
  rewrite run_ops_app. split; [|split; [|reflexivity]].
  - assert (X : run_ops ops2 (run_ops ops1 f) (limit_raster_file o) = run_ops ops1 f (limit_raster_file o)) by (eapply save_only; [exact Hsave|apply limit_files_differ]).
    rewrite (load_local _ _ _ _ _ X). apply (C89_saved_file_is_loaded _ _ _ _ _ _ f HC E1).
  - unfold limit_results in Hres. cbn [fst] in Hres. rewrite Ep in Hres. injection Hres as <-. apply (C89_saved_file_is_loaded _ _ _ _ _ _ (run_ops ops1 f) HC Hsave).
Qed.
Print Assumptions C109_results.

(** When the spline goes through the points it is given, a limit x in the file is a value of the parameter between the tested ones, the interpolated p-value there is 5%, and it is the first such point. *)
Theorem C109_limit_is_crossing : forall S pts x, limit95 S pts = Some x -> let u := ScansProps.usable true pts in cubic_ok S (map fst u) (shifted true (1 - 95 / 100) u) ->
  (4 <= length u)%nat /\ hd 0 (map fst u) <= x <= last (map fst u) 0 /\ icurve S true (1 - 95 / 100) u x = 1 - 95 / 100 /\ (forall a y, In (a, y) u -> icurve S true (1 - 95 / 100) u a = y) /\
  forall y, In y (sp_roots S (map fst u) (shifted true (1 - 95 / 100) u)) -> x <= y.
Proof.
  intros S pts x H u HC. unfold limit95, crossings_at in H. fold u in H. destruct (length u <? 4)%nat eqn:E4; [discriminate|]. apply Nat.ltb_ge in E4. split; [exact E4|].
  destruct HC as (C1 & _ & C2 & C3). destruct (sp_roots S (map fst u) (shifted true (1 - 95 / 100) u)) as [|x' l] eqn:El; [discriminate|]. cbn in H. injection H as ->. destruct (C2 x (or_introl eq_refl)) as [A B].
  split; [exact A|]. split; [unfold icurve; rewrite B, exp_0; lra|]. split.
  - intros a y Hin. pose proof Hin as Hin'. apply In_nth_error in Hin as [i Hi]. assert (X1 : nth_error (map fst u) i = Some a) by (rewrite nth_error_map, Hi; reflexivity).
    assert (X2 : nth_error (shifted true (1 - 95 / 100) u) i = Some (ln (y / (1 - 95 / 100)))) by (unfold shifted; rewrite nth_error_map, Hi; reflexivity). unfold icurve. rewrite (C1 i a _ X1 X2).
    assert (0 < y) by (unfold u, ScansProps.usable in Hin'; apply filter_In in Hin' as [_ G]; cbn in G; now apply Rltb_true in G). rewrite exp_ln; [field; lra|]. apply Rdiv_lt_0_compat; lra.
  - clear - C3. intros y [->|Hy]; [lra|]. revert x C3 Hy. induction l as [|z l IH]; intros x Inc Hy; [destruct Hy|]. cbn in Inc. apply andb_true_iff in Inc as [I1 I2]. apply Rltb_true in I1. destruct Hy as [->|Hy]; [lra|]. specialize (IH z I2 Hy). lra.
Qed.
Print Assumptions C109_limit_is_crossing.

(** A run, whatever happens, changes no other file than the raster and the results; without toys it leaves the samples and locks alone. *)
Lemma finish_only L C w o mi bounds r ops0 dk ops dk' e : limit_finish L C w o mi bounds r ops0 dk = (ops, dk', e) -> exists ops', ops = ops0 ++ ops' /\ (lo_ntoys o = 0%nat -> dk' = dk) /\ forall f q, q <> limit_results_file o -> run_ops ops' f q = f q.
Proof.
  assert (Z : forall (d : disk) (e' : option exn) (x : disk), (ops0, d, e') = (ops, x, e) -> exists ops', ops = ops0 ++ ops' /\ x = d /\ forall f q, q <> limit_results_file o -> run_ops ops' f q = f q).
  { intros d e' x [= <- <- <-]. exists []. rewrite app_nil_r. split; [reflexivity|]. split; reflexivity. }
  assert (Y : forall asy toys (d x : disk), match limit_results (ll_dec L) o (fst mi) asy toys with Err e => (ops0, d, Some e) | Ok v => let '(ops', e) := save_ops C w (limit_results_file o) (Some "json") v in (ops0 ++ ops', d, e) end = (ops, x, e) ->
     exists ops', ops = ops0 ++ ops' /\ x = d /\ forall f q, q <> limit_results_file o -> run_ops ops' f q = f q).
  { intros asy toys d x H. destruct (limit_results _ _ _ _ _) as [v|]; [|eapply Z, H]. destruct (save_ops _ _ _ _ v) as [ops' e'] eqn:Es. injection H as <- <- <-. exists ops'. split; [reflexivity|]. split; [reflexivity|]. intros f q N. eapply save_only; eauto. }
  unfold limit_finish. intros H. destruct (asymptotic_limits _ r (lo_cl o)) as [asy|]; [|destruct (Z _ _ _ H) as (ops' & A & -> & B); eauto].
  destruct (lo_ntoys o =? 0)%nat eqn:En; [destruct (Y _ _ _ _ H) as (ops' & A & -> & B); eauto|]. apply Nat.eqb_neq in En.
  assert (W : forall d, (exists ops', ops = ops0 ++ ops' /\ dk' = d /\ forall f q, q <> limit_results_file o -> run_ops ops' f q = f q) -> exists ops', ops = ops0 ++ ops' /\ (lo_ntoys o = 0%nat -> dk' = dk) /\ forall f q, q <> limit_results_file o -> run_ops ops' f q = f q).
  { intros d (ops' & A & _ & B). exists ops'. split; [exact A|]. split; [intros; lia|exact B]. }
  destruct (let! l := _ in _) as [c|]; [|eapply W, Z, H]. destruct (co_generate_and_save _ _ _ _ _ _) as [[d1 c1] [e1|]]; [eapply W, Z, H|]. destruct (let! c' := _ in _) as [[[r1 l1] lb]|]; [eapply W, Y, H|eapply W, Z, H].
Qed.
Theorem C109_only_two_files : forall L E C w pf pi rmatch o f dk ops dk' e, limit_run L E C w pf pi rmatch o f dk = (ops, dk', e) ->
  (forall q, q <> limit_raster_file o -> q <> limit_results_file o -> run_ops ops f q = f q) /\ (lo_ntoys o = 0%nat -> dk' = dk).
Proof.
  intros L E C w pf pi rmatch o f dk ops dk' e H. unfold limit_run in H. destruct (let! mi := limit_model E C o f in _) as [[[[mi bounds] r] [l|]]|]; [| |injection H as <- <- _; split; reflexivity].
  - destruct (save_ops C w (limit_raster_file o) None [("fast", JList l)]) as [ops1 [e1|]] eqn:E1; [injection H as <- <- _; split; [intros; eapply save_only; eauto|reflexivity]|].
    destruct (finish_only _ _ _ _ _ _ _ _ _ _ _ _ H) as (ops' & -> & D & Hr). split; [|exact D]. intros q N1 N2. rewrite run_ops_app, Hr by exact N2. eapply save_only; eauto.
  - destruct (finish_only _ _ _ _ _ _ _ _ _ _ _ _ H) as (ops' & -> & D & Hr). cbn [app]. split; [|exact D]. intros q _ N2. now apply Hr.
Qed.
Print Assumptions C109_only_two_files.

(** ** the files that are read *)
Lemma limit_model_local E C o f g : f (lo_model o) = g (lo_model o) -> limit_model E C o f = limit_model E C o g.
Proof. intros H. unfold limit_model, model_load_file. now rewrite (load_local _ _ _ _ _ H). Qed.
Lemma limit_data_local C pf o f g mi : f (limit_path o) = g (limit_path o) -> limit_data C pf o f mi = limit_data C pf o g mi.
Proof.
  intros H. unfold limit_data, limit_path in *.
  assert (X : forall p, f p = g p -> data_create C f mi p = data_create C g mi p) by (intros p Hp; unfold data_create; now rewrite (load_local _ _ _ _ _ Hp)).
  destruct (lo_data o) as [p|]; [destruct (String.eqb p "")|]; try (now rewrite (X _ H)); destruct (lo_asimov o); try reflexivity; now rewrite (X _ H).
Qed.
Lemma stored_local L C o f g it : f (limit_raster_file o) = g (limit_raster_file o) -> stored_raster L C o f it = stored_raster L C o g it.
Proof. intros H. unfold stored_raster. now rewrite H, (load_local _ _ _ _ _ H). Qed.
(** Nothing but the model file, the data file and the raster file (and the samples) is read. *)
Theorem C109_reads_only : forall L E C w pf pi rmatch o f g dk, f (lo_model o) = g (lo_model o) -> f (limit_path o) = g (limit_path o) -> f (limit_raster_file o) = g (limit_raster_file o) ->
  limit_run L E C w pf pi rmatch o f dk = limit_run L E C w pf pi rmatch o g dk.
Proof.
  intros L E C w pf pi rmatch o f g dk H1 H2 H3. unfold limit_run. rewrite (limit_model_local _ _ _ _ _ H1). destruct (limit_model E C o g) as [mi|]; cbn [bind]; [|reflexivity]. rewrite (limit_data_local _ _ _ _ _ _ H2), (stored_local _ _ _ _ _ _ H3). reflexivity.
Qed.
Print Assumptions C109_reads_only.

(** ** the dataset *)
Lemma expected_spec m it d data : NoDup (pm_pois (i_pm it)) -> NoDup (keys d) -> expected_data m it d = Ok data ->
  exists ps t, length ps = length (pm_pois (i_pm it)) /\ (forall i n, nth_error (pm_pois (i_pm it)) i = Some n -> exists x, dget n d = Some x /\ nth_error ps i = Some x) /\
    tot_bin_exp m it ps (repeat 0 (length (pm_nps (i_pm it)))) None = Ok t /\ d_counts data = map t (seq 0 (i_nbins it)) /\ d_aux data = repeat 0 (length (pm_nps (i_pm it))).
Proof.
  intros HN HK H. set (dd := map (fun kv : string * R => (fst kv, Some (snd kv))) d).
  assert (HKd : NoDup (keys dd)) by (assert (X : keys dd = keys d) by (unfold keys, dd; rewrite map_map; reflexivity); rewrite X; exact HK).
  unfold expected_data in H. apply bind_Ok in H as (p & Hi & H). destruct (C25_built_vectors_have_model_sizes _ _ _ _ Hi) as (Hpm & Hl1 & Hl2).
  destruct (C25_built_from_dict dd (i_pm it) HN HKd) as [Hgood Hbad].
  assert (Gd : forall n, dget n dd = option_map Some (dget n d)) by (intros n; unfold dd; clear; induction d as [|[k x] d IH]; cbn; [reflexivity|]; destruct (String.eqb n k); [reflexivity|exact IH]).
  assert (Hall : forall n, In n (pm_pois (i_pm it)) -> exists x, dget n d = Some x).
  { intros n Hn. destruct (dget n d) as [x|] eqn:E'; [eauto|]. exfalso. fold dd in Hi. rewrite Hbad in Hi; [discriminate|]. exists n. split; [exact Hn|]. left. rewrite Gd, E'. reflexivity. }
  destruct Hgood as (q & Hq & Hnp & Hget); [intros n Hn; destruct (Hall n Hn) as [x Hx]; exists x; rewrite Gd, Hx; reflexivity|]. fold dd in Hi. rewrite Hi in Hq. injection Hq as <-.
  unfold generate_asimov in H. apply bind_Ok in H as (t & Ht & H). injection H as <-. exists (pois p), t. rewrite Hnp in *. split; [exact Hl1|]. split; [|split; [exact Ht|split; reflexivity]].
  intros i n Hn. assert (Hin : In n (pm_pois (i_pm it))) by (eapply nth_error_In, Hn). destruct (Hall n Hin) as [x Hx]. exists x. split; [exact Hx|].
  specialize (Hget n x Hin ltac:(rewrite Gd, Hx; reflexivity)). unfold pars_get in Hget. rewrite Hpm in Hget.
  destruct (proj2 (index_In n _) Hin) as [j Hj]. rewrite Hj in Hget. unfold lget in Hget. destruct (nth_error (pois p) j) as [y|] eqn:Ey; [|discriminate]. injection Hget as <-.
  assert (j = i) as <-; [|exact Ey]. pose proof (index_nth _ _ _ Hj) as Hj'. eapply NoDup_nth_error; [exact HN|apply nth_error_Some; congruence|congruence].
Qed.
Lemma fold_dset_rev {V} (l : list (string * V)) : forall d n, dget n (fold_left (fun d kv => dset (fst kv) (snd kv) d) l d) = match dget n (rev l) with Some v => Some v | None => dget n d end.
Proof.
  assert (A : forall (a b : list (string * V)) n, dget n (a ++ b) = match dget n a with Some v => Some v | None => dget n b end) by (induction a as [|[k v] a IH]; intros b n; cbn; [reflexivity|]; destruct (String.eqb n k); [reflexivity|apply IH]).
  induction l as [|[k v] l IH]; intros d n; cbn [fold_left rev fst snd]; [reflexivity|]. rewrite IH, A. destruct (dget n (rev l)); [reflexivity|]. cbn. destruct (String.eqb_spec n k) as [->|N]; [now rewrite dget_dset_eq|now rewrite dget_dset_neq].
Qed.
Lemma fold_dset_keys {V} (l : list (string * V)) : forall d, NoDup (keys d) -> NoDup (keys (fold_left (fun d kv => dset (fst kv) (snd kv) d) l d)).
Proof. induction l as [|kv l IH]; intros d H; cbn; [exact H|]. apply IH, NoDup_keys_dset, H. Qed.
Lemma asimov_values_spec pf m spec d : asimov_values pf m spec = Ok d -> exists sets, assignments spec = map (fun kv => [fst kv; snd kv]) sets /\ NoDup (keys d) /\
  forall n x, dget n d = Some x <-> In n (pm_pois m) /\ exists v, dget n (rev sets) = Some v /\ pf v = Some x.
Proof.
  unfold asimov_values. intros H. apply bind_Ok in H as (sets & Hs & H). exists sets. split.
  { clear H. apply mapM_Forall2 in Hs. induction Hs as [|a b l l' E _ IH]; [reflexivity|]. cbn [map]. f_equal; [|exact IH]. destruct a as [|n [|v [|]]]; try discriminate. injection E as <-. reflexivity. }
  clear Hs. set (D := fold_left (fun d kv => dset (fst kv) (snd kv) d) sets []) in *. pose proof (fold_dset_keys sets [] (NoDup_nil _)) as ND. fold D in ND.
  assert (G : forall n, dget n D = dget n (rev sets)) by (intros n; unfold D; rewrite fold_dset_rev; destruct (dget n (rev sets)); reflexivity).
  assert (Z : forall (l : dict string) d0, NoDup (keys l) -> mapM (fun kv => match pf (snd kv) with Some x => Ok (fst kv, x) | None => Err ValueError end) (filter (fun kv => existsb (String.eqb (fst kv)) (pm_pois m)) l) = Ok d0 ->
     NoDup (keys d0) /\ incl (keys d0) (keys l) /\ forall n x, dget n d0 = Some x <-> In n (pm_pois m) /\ exists v, dget n l = Some v /\ pf v = Some x).
  { induction l as [|[k v] l IH]; intros d0 N Hm; cbn [filter mapM fst snd] in Hm.
    - injection Hm as <-. split; [constructor|]. split; [intros ? []|]. intros n x. cbn. split; [discriminate|intros (_ & ? & ? & _); discriminate].
    - inversion N as [|? ? N1 N2]; subst. destruct (existsb (String.eqb k) (pm_pois m)) eqn:Ex.
      + apply existsb_exists in Ex as (k' & Hk & E). apply String.eqb_eq in E. subst k'. cbn [mapM fst snd] in Hm. destruct (pf v) as [x0|] eqn:Ep; [|discriminate]. cbn [bind] in Hm. apply bind_Ok in Hm as (d1 & Hm & E). injection E as <-.
        destruct (IH d1 N2 Hm) as (A & B & Cc). split; [constructor; [intros Hin; apply N1, B, Hin|exact A]|]. split; [intros y [<-|Hy]; [now left|right; apply B, Hy]|].
        intros n x. cbn [dget]. destruct (String.eqb_spec n k) as [->|Nk]; [|apply Cc]. split; [intros [= <-]; split; [exact Hk|eauto]|intros (_ & v' & [= <-] & E); congruence].
      + destruct (IH d0 N2 Hm) as (A & B & Cc). split; [exact A|]. split; [intros y Hy; right; apply B, Hy|]. intros n x. rewrite Cc. cbn [dget]. destruct (String.eqb_spec n k) as [->|Nk]; [|reflexivity].
        assert (Nn : ~ In k (pm_pois m)) by (intros Hin; apply (Bool.diff_false_true); rewrite <- Ex; apply existsb_exists; exists k; split; [exact Hin|apply String.eqb_refl]). tauto. }
  destruct (Z D d ND H) as (A & _ & B). split; [exact A|]. intros n x. rewrite B, G. reflexivity.
Qed.
(** The data are those of the data file, if one is given, else the expected ones of --asimov (where the last value given to a POI counts, and all the NPs are 0), else those of the model file. *)
Theorem C109_dataset : forall C pf o f m it data, limit_data C pf o f (m, it) = Ok data ->
  (forall p, lo_data o = Some p -> p <> "" -> exists rest, data_create C f (m, it) p = Ok (data, rest)) /\
  ((lo_data o = None \/ lo_data o = Some "") -> lo_asimov o = None -> exists rest, data_create C f (m, it) (lo_model o) = Ok (data, rest)) /\
  ((lo_data o = None \/ lo_data o = Some "") -> forall spec, lo_asimov o = Some spec -> NoDup (pm_pois (i_pm it)) ->
     exists sets ps t, assignments spec = map (fun kv => [fst kv; snd kv]) sets /\ length ps = length (pm_pois (i_pm it)) /\
       (forall i n, nth_error (pm_pois (i_pm it)) i = Some n -> exists v x, dget n (rev sets) = Some v /\ pf v = Some x /\ nth_error ps i = Some x) /\
       tot_bin_exp m it ps (repeat 0 (length (pm_nps (i_pm it)))) None = Ok t /\ d_counts data = map t (seq 0 (i_nbins it)) /\ d_aux data = repeat 0 (length (pm_nps (i_pm it)))).
Proof.
  intros C pf o f m it data H. unfold limit_data in H. cbn [fst snd] in H. split; [|split].
  - intros p E N. rewrite E in H. destruct (String.eqb_spec p ""); [contradiction|]. apply bind_Ok in H as ([d rest] & Hd & H). injection H as <-. eauto.
  - intros E A. rewrite A in H. assert (H' : (let! d := data_create C f (m, it) (lo_model o) in Ok (fst d)) = Ok data) by (destruct E as [E|E]; rewrite E in H; exact H).
    apply bind_Ok in H' as ([d rest] & Hd & H'). injection H' as <-. eauto.
  - intros E spec A HN. rewrite A in H.
    assert (H' : or_value_error (let! d := asimov_values pf (i_pm it) spec in expected_data m it d) = Ok data) by (destruct E as [E|E]; rewrite E in H; exact H). clear H.
    unfold or_value_error in H'. destruct (let! d := asimov_values pf (i_pm it) spec in expected_data m it d) as [d0|] eqn:Hd; [|discriminate]. injection H' as ->. apply bind_Ok in Hd as (d & Hv & Hx).
    destruct (asimov_values_spec _ _ _ _ Hv) as (sets & Hs & HK & G). destruct (expected_spec _ _ _ _ HN HK Hx) as (ps & t & X1 & X2 & X3). exists sets, ps, t. split; [exact Hs|]. split; [exact X1|]. split; [|exact X3].
    intros i n Hn. destruct (X2 i n Hn) as (x & Y1 & Y2). apply G in Y1 as (_ & v & Y1 & Y3). exists v, x. auto.
Qed.
Print Assumptions C109_dataset.
(** intended: a name that is not a POI is refused, or set.  Refuted: it is passed over: the dataset is that of the POIs alone. *)
Theorem C109_asimov_other_names_refuted : forall C pf o o' f m it spec spec' sets sets' data data', (lo_data o = None \/ lo_data o = Some "") -> (lo_data o' = None \/ lo_data o' = Some "") ->
  lo_asimov o = Some spec -> lo_asimov o' = Some spec' -> NoDup (pm_pois (i_pm it)) ->
  assignments spec = map (fun kv => [fst kv; snd kv]) sets -> assignments spec' = map (fun kv => [fst kv; snd kv]) sets' -> (forall n, In n (pm_pois (i_pm it)) -> dget n (rev sets') = dget n (rev sets)) ->
  limit_data C pf o f (m, it) = Ok data -> limit_data C pf o' f (m, it) = Ok data' -> data' = data.
Proof.
  intros C pf o o' f m it spec spec' sets sets' data data' Hn Hn' Ha Ha' HN Hs Hs' Hag H H'.
  destruct (C109_dataset _ _ _ _ _ _ _ H) as (_ & _ & D). destruct (C109_dataset _ _ _ _ _ _ _ H') as (_ & _ & D').
  destruct (D Hn _ Ha HN) as (v & ps & t & Hv & Hl & Hg & Ht & Hc & Hx). destruct (D' Hn' _ Ha' HN) as (v' & ps' & t' & Hv' & Hl' & Hg' & Ht' & Hc' & Hx').
  assert (Inj : forall a b : list (string * string), map (fun kv => [fst kv; snd kv]) a = map (fun kv => [fst kv; snd kv]) b -> a = b).
  { induction a as [|[k x] a IH]; intros [|[k' x'] b] E; try discriminate; [reflexivity|]. cbn in E. injection E as -> -> E. f_equal. now apply IH. }
  assert (v = sets) as -> by (apply Inj; congruence). assert (v' = sets') as -> by (apply Inj; congruence).
  assert (ps' = ps) as ->.
  { apply nth_error_ext'. intros i. destruct (nth_error (pm_pois (i_pm it)) i) as [n|] eqn:En.
    - destruct (Hg i n En) as (a & x & A1 & A2 & A3). destruct (Hg' i n En) as (b & y & B1 & B2 & B3). rewrite (Hag n (nth_error_In _ _ En)) in B1. congruence.
    - apply nth_error_None in En. rewrite (proj2 (nth_error_None ps i)), (proj2 (nth_error_None ps' i)) by lia. reflexivity. }
  rewrite Ht in Ht'. injection Ht' as <-. destruct data, data'. cbn in Hc, Hx, Hc', Hx'. congruence.
Qed.
Print Assumptions C109_asimov_other_names_refuted.

(** ** running again *)
(** two rasters that give the same limits and the same samplers *)
Definition alike (r r' : Raster) : Prop := ra_pois r' = ra_pois r /\
  Forall2 (fun hp hp' => fst hp' = fst hp /\ plr_hypo (snd hp') = plr_hypo (snd hp) /\ plr_ts (snd hp') = plr_ts (snd hp) /\ plr_pvs (snd hp') = plr_pvs (snd hp) /\ plr_full (snd hp') = plr_full (snd hp)) (ra_points r) (ra_points r').
Lemma alike_values r r' : alike r r' -> same_values r r'.
Proof. intros [A B]. split; [exact A|]. induction B as [|? ? ? ? (E1 & E2 & E3 & E4 & E5) _ IH]; constructor; auto. Qed.
Lemma ul_new_same r r' key cl : same_values r r' -> ul_new r' key None cl = match ul_new r key None cl with Ok u => Ok (mkUL (mkScan1D (mkScan r' key) (s1_poi (ul_scan u))) (ul_cl u)) | Err e => Err e end.
Proof.
  intros H. unfold ul_new, scan1d_new, scan_new. rewrite (same_filled _ _ _ _ _ H). destruct (is_filled r key false false); cbn [bind]; [|reflexivity]. unfold find_poi. cbn [sc_raster]. rewrite (proj1 H). destruct (ra_pois r); reflexivity.
Qed.
Lemma ul_new_raster r key cl u : ul_new r key None cl = Ok u -> ul_scan u = mkScan1D (mkScan r key) (s1_poi (ul_scan u)).
Proof.
  unfold ul_new, scan1d_new, scan_new. destruct (is_filled r key false false); cbn [bind]; [|discriminate]. unfold find_poi. cbn [sc_raster]. destruct (ra_pois r); cbn [bind]; [discriminate|]. intros [= <-]. reflexivity.
Qed.
Lemma scan_value_same p p' r r' k v : plr_ts p' = plr_ts p -> plr_pvs p' = plr_pvs p -> scan_value (mkScan r' k) p' v = scan_value (mkScan r k) p v.
Proof. intros E2 E3. unfold scan_value. cbn [sc_key]. now rewrite E2, E3. Qed.
Lemma crossings_err_same S r r' k poi level ord lg : same_values r r' -> crossings_err S (mkScan1D (mkScan r' k) poi) level ord lg = crossings_err S (mkScan1D (mkScan r k) poi) level ord lg.
Proof.
  intros H. unfold crossings_err. rewrite !(same_points _ _ _ _ _ H). cbn [s1_scan s1_poi sc_raster]. erewrite (mapM_Forall2_eq _ _ _ (ra_points r) (ra_points r') (proj2 H)); [reflexivity|].
  intros [h p] [h' p'] (E1 & E2 & E3). cbn [fst snd] in *. subst h'. rewrite !(scan_value_same p p' r r' k _ E2 E3). reflexivity.
Qed.
Lemma ul_limits_same S r r' key cl ord lg : same_values r r' ->
  (let! u := ul_new r' key None cl in ul_limit S u ord lg) = (let! u := ul_new r key None cl in ul_limit S u ord lg) /\
  (let! u := ul_new r' key None cl in ul_limit_err S u ord lg) = (let! u := ul_new r key None cl in ul_limit_err S u ord lg).
Proof.
  intros H. rewrite (ul_new_same _ _ _ _ H). destruct (ul_new r key None cl) as [u|] eqn:Eu; cbn [bind]; [|split; reflexivity]. apply ul_new_raster in Eu. unfold ul_limit, ul_limit_err, crossings. cbn [ul_scan ul_cl].
  rewrite (same_points _ _ _ _ _ H), (crossings_err_same _ _ _ _ _ _ _ _ H), <- Eu. split; reflexivity.
Qed.
Lemma bind_cases {A B} (x : res A) (f : A -> res B) : (exists a, x = Ok a /\ bind x f = f a) \/ (exists e, x = Err e /\ bind x f = Err e).
Proof. destruct x; cbn; eauto. Qed.
Lemma asymptotic_same S r r' cl : same_values r r' -> asymptotic_limits S r' cl = asymptotic_limits S r cl.
Proof.
  intros H. unfold asymptotic_limits. rewrite !(ul_new_same _ _ _ _ H). destruct (ul_new r "pv" None cl) as [u|] eqn:Eu; cbn [bind]; [|reflexivity]. destruct (ul_new r "cls" None cl) as [v|] eqn:Ev; cbn [bind]; [|reflexivity].
  apply ul_new_raster in Eu. apply ul_new_raster in Ev. unfold ul_limit, crossings. cbn [ul_scan ul_cl]. rewrite !(same_points _ _ _ _ _ H), <- Eu, <- Ev. reflexivity.
Qed.
Lemma samplers_same L mi bounds n r r' : alike r r' -> mapM (point_samplers L mi bounds n) (map snd (ra_points r')) = mapM (point_samplers L mi bounds n) (map snd (ra_points r)).
Proof.
  intros [_ H]. eapply (mapM_Forall2_eq _ _ (fun p p' => plr_hypo p' = plr_hypo p /\ plr_ts p' = plr_ts p /\ plr_full p' = plr_full p)).
  - clear - H. induction H as [|? ? ? ? (E1 & E2 & E3 & E4 & E5) _ IH]; cbn; constructor; auto.
  - intros p p' (E1 & E2 & E3). unfold point_samplers, ts_num. rewrite E1, E2, E3. reflexivity.
Qed.
Lemma on_points_same hash c r r' : alike r r' -> match on_points (sampling_point hash c) r, on_points (sampling_point hash c) r' with Ok q, Ok q' => alike q q' | Err e, Err e' => e = e' | _, _ => False end.
Proof.
  intros [Hp H]. unfold on_points. rewrite Hp. set (F := fun hp : Hypo * PLR => let! p := sampling_point hash c (snd hp) in Ok (fst hp, p)).
  assert (A : match mapM F (ra_points r), mapM F (ra_points r') with
              | Ok l, Ok l' => Forall2 (fun hp hp' => fst hp' = fst hp /\ plr_hypo (snd hp') = plr_hypo (snd hp) /\ plr_ts (snd hp') = plr_ts (snd hp) /\ plr_pvs (snd hp') = plr_pvs (snd hp) /\ plr_full (snd hp') = plr_full (snd hp)) l l'
              | Err e, Err e' => e = e' | _, _ => False end).
  { induction H as [|[h p] [h' p'] l l' (E1 & E2 & E3 & E4 & E5) H IH]; cbn [mapM]; [constructor|]. cbn [fst snd] in *. subst h'. change (F (h, p)) with (let! q := sampling_point hash c p in Ok (h, q)). change (F (h, p')) with (let! q := sampling_point hash c p' in Ok (h, q)). unfold sampling_point. rewrite E2, E4.
    destruct (bind (dgetE "pv" (plr_pvs p)) num_of) as [apv|]; cbn [bind]; [|reflexivity]. destruct (so_pv_err hash (co_clsb c) (plr_hypo p) apv) as [sb|]; cbn [bind]; [|reflexivity].
    destruct (so_pv_err hash (co_cl_b c) (plr_hypo p) apv) as [b|]; cbn [bind]; [|reflexivity]. destruct (co_pv_err hash c (plr_hypo p) apv) as [s|]; cbn [bind]; [|reflexivity].
    destruct (mapM F l), (mapM F l'); cbn [bind]; try contradiction; [|congruence]. constructor; [|exact IH]. cbn. auto. }
  destruct (mapM F (ra_points r)), (mapM F (ra_points r')); cbn [bind]; try contradiction; [|exact A]. split; [reflexivity|exact A].
Qed.
Lemma fill_band_same dec r r' b : alike r r' -> alike (fill_band dec r b) (fill_band dec r' b).
Proof.
  intros [Hp H]. split; [exact Hp|]. cbn [fill_band ra_points]. generalize (snd b). intros vs. revert vs. induction H as [|[h p] [h' p'] l l' (E1 & E2 & E3 & E4 & E5) H IH]; intros vs; [destruct vs; cbn; constructor|].
  destruct vs as [|v vs]; [cbn; constructor; auto|]. cbn [combine map app skipn length]. constructor; [cbn in *; rewrite E4; auto|apply IH].
Qed.
Lemma fill_bands_same dec bs : forall r r', alike r r' -> alike (fold_left (fill_band dec) bs r) (fold_left (fill_band dec) bs r').
Proof. induction bs as [|b bs IH]; intros r r' H; cbn; [exact H|]. apply IH, fill_band_same, H. Qed.
Lemma sampling_limits_same L o c r r' : alike r r' -> match sampling_limits L o c r, sampling_limits L o c r' with Ok q, Ok q' => snd (fst q') = snd (fst q) /\ snd q' = snd q | Err e, Err e' => e = e' | _, _ => False end.
Proof.
  intros H. unfold sampling_limits. pose proof (on_points_same (sl_hash (ll_scan L)) c r r' H) as X. destruct (on_points (sampling_point (sl_hash (ll_scan L)) c) r) as [q|], (on_points (sampling_point (sl_hash (ll_scan L)) c) r') as [q'|]; cbn [bind]; try contradiction; [|congruence].
  assert (Y : match (match bands_of o with Some n => let! bands := co_bands (sl_hash (ll_scan L)) (ll_cdf L) c n in Ok (fold_left (fill_band (ll_dec L)) bands q) | None => Ok q end),
                    (match bands_of o with Some n => let! bands := co_bands (sl_hash (ll_scan L)) (ll_cdf L) c n in Ok (fold_left (fill_band (ll_dec L)) bands q') | None => Ok q' end) with Ok a, Ok a' => alike a a' | Err e, Err e' => e = e' | _, _ => False end).
  { destruct (bands_of o) as [n|]; [|exact X]. destruct (co_bands _ _ c n) as [bs|]; cbn [bind]; [|reflexivity]. now apply fill_bands_same. }
  destruct (match bands_of o with Some n => let! bands := co_bands (sl_hash (ll_scan L)) (ll_cdf L) c n in Ok (fold_left (fill_band (ll_dec L)) bands q) | None => Ok q end) as [a|],
           (match bands_of o with Some n => let! bands := co_bands (sl_hash (ll_scan L)) (ll_cdf L) c n in Ok (fold_left (fill_band (ll_dec L)) bands q') | None => Ok q' end) as [a'|]; cbn [bind]; try contradiction; [|congruence].
  apply alike_values in Y. rewrite !(ul_new_same _ _ _ _ Y). destruct (ul_new a "sampling_pv" None (lo_cl o)) as [u|] eqn:Eu; cbn [bind]; [|reflexivity]. destruct (ul_new a "sampling_cls" None (lo_cl o)) as [v|] eqn:Ev; cbn [bind]; [|reflexivity].
  apply ul_new_raster in Eu. apply ul_new_raster in Ev. unfold ul_limit_err. cbn [ul_scan ul_cl]. rewrite !(crossings_err_same _ _ _ _ _ _ _ _ Y), <- Eu, <- Ev.
  destruct (let! l := crossings_err _ (ul_scan u) _ _ _ in _) as [lsb|]; cbn [bind]; [|reflexivity]. destruct (let! l := crossings_err _ (ul_scan v) _ _ _ in _) as [ls|]; cbn [bind]; [|reflexivity].
  destruct (bands_of o) as [n|]; [|cbn; auto].
  assert (Z : mapM (fun b => let! u := ul_new a' (band_pv (ll_dec L) b) None (95 / 100) in let! l := ul_limit (sl_spline (ll_scan L)) u 3 true in Ok (b, l)) (band_orders n) =
              mapM (fun b => let! u := ul_new a (band_pv (ll_dec L) b) None (95 / 100) in let! l := ul_limit (sl_spline (ll_scan L)) u 3 true in Ok (b, l)) (band_orders n)).
  { induction (band_orders n) as [|b bs IH]; cbn [mapM]; [reflexivity|]. rewrite IH. rewrite (ul_new_same _ _ _ _ Y). destruct (ul_new a (band_pv (ll_dec L) b) None (95 / 100)) as [z|] eqn:Ez; cbn [bind]; [|reflexivity].
    apply ul_new_raster in Ez. unfold ul_limit, crossings. cbn [ul_scan ul_cl]. rewrite (same_points _ _ _ _ _ Y), <- Ez. reflexivity. }
  rewrite Z. match goal with |- context [mapM ?f (band_orders n)] => destruct (mapM f (band_orders n)) end; cbn; auto.
Qed.
Lemma finish_same L C w o mi bounds r r' ops dk : alike r r' -> limit_finish L C w o mi bounds r' ops dk = limit_finish L C w o mi bounds r ops dk.
Proof.
  intros H. unfold limit_finish. rewrite (asymptotic_same _ _ _ _ (alike_values _ _ H)). destruct (asymptotic_limits _ r (lo_cl o)) as [asy|]; [|reflexivity]. destruct (lo_ntoys o =? 0)%nat; [reflexivity|].
  rewrite (samplers_same _ _ _ _ _ _ H). destruct (let! l := mapM (point_samplers L mi bounds (lo_niter o)) (map snd (ra_points r)) in _) as [c|]; [|reflexivity]. destruct (co_generate_and_save _ c _ _ _ _) as [[dk' c'] [e|]]; [reflexivity|].
  destruct (truncated _ o c') as [c2|]; cbn [bind]; [|reflexivity]. pose proof (sampling_limits_same L o c2 r r' H) as X. destruct (sampling_limits L o c2 r) as [[[q l] lb]|], (sampling_limits L o c2 r') as [[[q' l'] lb']|]; cbn in X; try contradiction; [|congruence].
  destruct X as [-> ->]. reflexivity.
Qed.
(** the raster that was written is the one that is read *)
Lemma limit_raster_reused L C w o f ops k s m it data hypos r l : faithful C -> k <> CalcTMu -> fits_evaluate L m it -> distinct (sl_hash (ll_scan L)) hypos -> NoDup (pm_pois (i_pm it) ++ np_names (i_pm it)) ->
  limit_compute L k s (m, it) data hypos = Ok r -> raster_dump r = Ok l -> save_ops C w (limit_raster_file o) None [("fast", JList l)] = (ops, None) ->
  exists r', stored_raster (ll_scan L) C o (run_ops ops f) it = Ok (Some r') /\ alike r r'.
Proof.
  intros HC Hk HE HD HN Hr Hl Hs. destruct (limit_compute_ok _ _ _ _ _ _ _ _ Hk HE HD Hr) as (K1 & K2 & K3 & K4).
  destruct (raster_roundtrip_full (sl_hash (ll_scan L)) (i_pm it) r true true HN K2) as (l' & r' & D1 & D2 & D3 & D4); [intros h p Hin; destruct (K4 h p Hin) as (A & B & _); auto|exact K3|].
  rewrite Hl in D1. injection D1 as <-. pose proof (C89_saved_file_is_loaded _ _ _ _ _ _ f HC Hs) as [Hlo _]. exists r'. split.
  - unfold stored_raster. assert (X : exists t, run_ops ops f (limit_raster_file o) = Some t) by (unfold load_file in Hlo; destruct (run_ops ops f (limit_raster_file o)); [eauto|discriminate]). destruct X as [t ->]. rewrite Hlo. cbn. rewrite D2. reflexivity.
  - split; [exact D3|]. assert (Q : forall h p, In (h, p) (ra_points r) -> exists v, plr_full p = Some (mkPars v (repeat 0 (length (pm_nps (i_pm it)))) (Some (i_pm it)))) by (intros h p Hin; apply (K4 h p Hin)).
    clear - D4 Q. induction D4 as [|[h p] [h' p'] l1 l2 (E1 & (E2 & E3 & E4 & _) & E5) _ IH]; [constructor|]. constructor; [|apply IH; intros; eapply Q; right; eassumption].
    destruct (Q h p (or_introl eq_refl)) as [v Ev]. cbn [fst snd] in *. specialize (E5 _ Ev). cbn [pois] in E5. rewrite E5, Ev. auto.
Qed.
(** ** a run with a stored raster *)
Lemma limit_run_stored L E C w pf pi rmatch o f dk m it data hypos bounds k s r : limit_model E C o f = Ok (m, it) -> parse_hypos (e_fuel E) pf pi rmatch m (lo_hypos o) = Ok hypos -> limit_data C pf o f (m, it) = Ok data ->
  limit_bounds pf o = Ok bounds -> limit_stat m (lo_stat o) = Ok k -> limit_minimizer (m, it) bounds = Ok s -> stored_raster (ll_scan L) C o f it = Ok (Some r) -> lo_overwrite o = false ->
  limit_run L E C w pf pi rmatch o f dk = limit_finish L C w o (m, it) bounds r [] dk.
Proof.
  intros Hm Hh Hd Hb Hk Hs Hf Ho. unfold limit_run. rewrite Hm. cbn [bind fst]. rewrite Hh. cbn [bind]. rewrite Hd. cbn [bind]. rewrite Hb. cbn [bind]. rewrite Hk. cbn [bind]. rewrite Hs. cbn [bind snd]. rewrite Hf. cbn [bind]. rewrite Ho. reflexivity.
Qed.
Lemma finish_nil L C w o mi bounds r ops dk : limit_finish L C w o mi bounds r ops dk = let '(ops', dk', e) := limit_finish L C w o mi bounds r [] dk in (ops ++ ops', dk', e).
Proof.
  unfold limit_finish. destruct (asymptotic_limits _ r (lo_cl o)) as [asy|]; [|now rewrite app_nil_r].
  assert (Y : forall toys (d : disk), match limit_results (ll_dec L) o (fst mi) asy toys with Err e => (ops, d, Some e) | Ok v => let '(ops', e) := save_ops C w (limit_results_file o) (Some "json") v in (ops ++ ops', d, e) end =
    let '(ops', dk', e) := match limit_results (ll_dec L) o (fst mi) asy toys with Err e => ([], d, Some e) | Ok v => let '(ops', e) := save_ops C w (limit_results_file o) (Some "json") v in ([] ++ ops', d, e) end in (ops ++ ops', dk', e)).
  { intros toys d. destruct (limit_results _ _ _ _ _); [|now rewrite app_nil_r]. destruct (save_ops _ _ _ _ _). reflexivity. }
  destruct (lo_ntoys o =? 0)%nat; [apply Y|]. destruct (let! l := _ in _) as [c|]; [|now rewrite app_nil_r]. destruct (co_generate_and_save _ _ _ _ _ _) as [[d1 c1] [e1|]]; [now rewrite app_nil_r|].
  destruct (let! c' := _ in _) as [[[r1 l1] lb]|]; [apply Y|now rewrite app_nil_r].
Qed.
(** the inputs of the second run are those of the first *)
Lemma second_run L E C w pf pi rmatch o f dk ops dk' m it hypos : faithful C ->
  limit_model E C o f = Ok (m, it) -> parse_hypos (e_fuel E) pf pi rmatch m (lo_hypos o) = Ok hypos -> distinct (sl_hash (ll_scan L)) hypos -> fits_evaluate L m it -> NoDup (pm_pois (i_pm it) ++ np_names (i_pm it)) ->
  lo_model o <> limit_raster_file o -> lo_model o <> limit_results_file o -> limit_path o <> limit_raster_file o -> limit_path o <> limit_results_file o ->
  f (limit_raster_file o) = None -> lo_overwrite o = false -> limit_run L E C w pf pi rmatch o f dk = (ops, dk', None) ->
  exists bounds r ops1 ops2, ops = ops1 ++ ops2 /\ limit_finish L C w o (m, it) bounds r [] dk = (ops2, dk', None) /\ (forall q, q <> limit_raster_file o -> run_ops ops1 f q = f q) /\
    forall L' dk2, ll_scan L' = ll_scan L -> limit_run L' E C w pf pi rmatch o (run_ops ops f) dk2 = limit_finish L' C w o (m, it) bounds r [] dk2.
Proof.
  intros HC Hm Hh HD HE HN N1 N2 N3 N4 Hf Ho H. destruct (limit_run_inputs _ _ _ _ _ _ _ _ _ _ _ _ H) as (m1 & it1 & hy1 & data & bounds & k & s & Hm1 & Hh1 & Hd & Hb & Hk & Hs).
  rewrite Hm in Hm1. injection Hm1 as <- <-. rewrite Hh in Hh1. injection Hh1 as <-. pose proof (C109_only_two_files _ _ _ _ _ _ _ _ _ _ _ _ _ H) as [Honly _]. rewrite (limit_run_fresh _ _ _ _ _ _ _ _ _ _ _ _ _ _ _ _ _ Hm Hh Hd Hb Hk Hs Hf) in H.
  unfold with_results in H. destruct (limit_compute L k s (m, it) data hypos) as [r|] eqn:Er; cbn [bind] in H; [|discriminate]. destruct (raster_dump r) as [l|] eqn:El; cbn [bind] in H; [|discriminate].
  destruct (save_ops C w (limit_raster_file o) None [("fast", JList l)]) as [ops1 [e|]] eqn:E1; [discriminate|]. destruct (limit_stat_spec _ _ _ Hk) as (_ & _ & Hkn).
  rewrite finish_nil in H. destruct (limit_finish L C w o (m, it) bounds r [] dk) as [[ops2 dk2] e2] eqn:Ef. injection H as <- <- ->. destruct (limit_raster_reused L C w o f ops1 k s m it data hypos r l HC Hkn HE HD HN Er El E1) as (r' & Hst & Hal).
  exists bounds, r, ops1, ops2. split; [reflexivity|]. split; [exact Ef|]. split; [intros q Hq; eapply save_only; eauto|].
  intros L' dk3 EL. rewrite (limit_run_stored L' E C w pf pi rmatch o _ dk3 m it data hypos bounds k s r'); auto.
  - apply finish_same, Hal.
  - rewrite <- Hm. apply limit_model_local, Honly; assumption.
  - rewrite <- Hd. apply limit_data_local, Honly; assumption.
  - rewrite EL, <- Hst. apply stored_local. rewrite run_ops_app. destruct (finish_only _ _ _ _ _ _ _ _ _ _ _ _ Ef) as (ops' & E' & _ & Hr). cbn [app] in E'. subst ops'. apply Hr, limit_files_differ.
Qed.
(** Running the same command again without toys changes nothing: the raster is read back, and the results file is written with the same contents. *)
Theorem C109_rerun_same : forall L E C w pf pi rmatch o f dk ops dk' m it hypos, faithful C ->
  limit_model E C o f = Ok (m, it) -> parse_hypos (e_fuel E) pf pi rmatch m (lo_hypos o) = Ok hypos -> distinct (sl_hash (ll_scan L)) hypos -> fits_evaluate L m it -> NoDup (pm_pois (i_pm it) ++ np_names (i_pm it)) ->
  lo_model o <> limit_raster_file o -> lo_model o <> limit_results_file o -> limit_path o <> limit_raster_file o -> limit_path o <> limit_results_file o ->
  f (limit_raster_file o) = None -> lo_overwrite o = false -> lo_ntoys o = 0%nat -> limit_run L E C w pf pi rmatch o f dk = (ops, dk', None) ->
  exists ops2, limit_run L E C w pf pi rmatch o (run_ops ops f) dk' = (ops2, dk', None) /\ forall q, run_ops ops2 (run_ops ops f) q = run_ops ops f q.
Proof.
  intros L E C w pf pi rmatch o f dk ops dk' m it hypos HC Hm Hh HD HE HN N1 N2 N3 N4 Hf Ho Ht H.
  destruct (second_run L E C w pf pi rmatch o f dk ops dk' m it hypos HC Hm Hh HD HE HN N1 N2 N3 N4 Hf Ho H) as (bounds & r & ops1 & ops2 & -> & Ef & _ & Hrun).
  destruct (finish_only _ _ _ _ _ _ _ _ _ _ _ _ Ef) as (_ & _ & D & _). specialize (D Ht). subst dk'. exists ops2. split; [rewrite Hrun by reflexivity; exact Ef|].
  destruct (finish_asymptotic _ _ _ _ _ _ _ _ _ _ _ Ht Ef) as (_ & asy & d & ops' & _ & _ & Hs & E2). cbn [app] in E2. subst ops'. intros q. rewrite run_ops_app. generalize (run_ops ops1 f). intros g.
  destruct (string_dec q (limit_results_file o)) as [->|Nq]; [|now rewrite !(save_only _ _ _ _ _ _ _ _ q Hs Nq)]. clear - Hs. unfold save_ops in Hs. destruct (negb (w (limit_results_file o))); [discriminate|]. destruct (_ || _)%bool; [|discriminate]. destruct (c_dump C _ d) as [x e']. injection Hs as <- _. rewrite !run_truncated. now rewrite !String.eqb_refl.
Qed.
Print Assumptions C109_rerun_same.

(** intended: the limits are those of the command.  Refuted: when a raster is stored, nothing is checked: without toys two commands with the same output file and the same level write the same,
    whatever their hypotheses, datasets, bounds and test statistics, and whatever the predictions of their models. *)
Theorem C109_stale_refuted : forall L E C w pf pi rmatch o o' f f' dk m m' it it' hypos hypos' data data' bounds bounds' k k' s s' r,
  limit_model E C o f = Ok (m, it) -> parse_hypos (e_fuel E) pf pi rmatch m (lo_hypos o) = Ok hypos -> limit_data C pf o f (m, it) = Ok data -> limit_bounds pf o = Ok bounds -> limit_stat m (lo_stat o) = Ok k -> limit_minimizer (m, it) bounds = Ok s ->
  limit_model E C o' f' = Ok (m', it') -> parse_hypos (e_fuel E) pf pi rmatch m' (lo_hypos o') = Ok hypos' -> limit_data C pf o' f' (m', it') = Ok data' -> limit_bounds pf o' = Ok bounds' -> limit_stat m' (lo_stat o') = Ok k' -> limit_minimizer (m', it') bounds' = Ok s' ->
  lo_out o' = lo_out o -> lo_cl o' = lo_cl o -> lo_overwrite o = false -> lo_overwrite o' = false -> lo_ntoys o = 0%nat -> lo_ntoys o' = 0%nat -> m_pois m' = m_pois m -> i_pm it' = i_pm it ->
  f' (limit_raster_file o) = f (limit_raster_file o) -> stored_raster (ll_scan L) C o f it = Ok (Some r) ->
  limit_run L E C w pf pi rmatch o' f' dk = limit_run L E C w pf pi rmatch o f dk.
Proof.
  intros L E C w pf pi rmatch o o' f f' dk m m' it it' hypos hypos' data data' bounds bounds' k k' s s' r Hm Hh Hd Hb Hk Hs Hm' Hh' Hd' Hb' Hk' Hs' Eo Ec Ho Ho' Ht Ht' Ep Epm Ef Hst.
  assert (Era : limit_raster_file o' = limit_raster_file o) by (unfold limit_raster_file; congruence). assert (Ere : limit_results_file o' = limit_results_file o) by (unfold limit_results_file; congruence).
  assert (Hst' : stored_raster (ll_scan L) C o' f' it' = Ok (Some r)) by (rewrite <- Hst; unfold stored_raster; rewrite Era, Ef, Epm, (load_local _ _ _ _ _ Ef); reflexivity).
  rewrite (limit_run_stored _ _ _ _ _ _ _ _ _ _ _ _ _ _ _ _ _ _ Hm Hh Hd Hb Hk Hs Hst Ho), (limit_run_stored _ _ _ _ _ _ _ _ _ _ _ _ _ _ _ _ _ _ Hm' Hh' Hd' Hb' Hk' Hs' Hst' Ho').
  unfold limit_finish. rewrite Ec, Ht, Ht'. cbn [Nat.eqb fst]. destruct (asymptotic_limits _ r (lo_cl o)); [|reflexivity]. unfold limit_results. rewrite Ep, Ec, Ere. reflexivity.
Qed.
Print Assumptions C109_stale_refuted.
(** With --overwrite the run is the one that finds no raster, if the stored one can be read; *)
Theorem C109_overwrite_recomputes : forall L E C w pf pi rmatch o f dk m it r, limit_model E C o f = Ok (m, it) -> stored_raster (ll_scan L) C o f it = Ok r -> lo_overwrite o = true -> lo_model o <> limit_raster_file o -> limit_path o <> limit_raster_file o ->
  limit_run L E C w pf pi rmatch o f dk = limit_run L E C w pf pi rmatch o (fun q => if String.eqb q (limit_raster_file o) then None else f q) dk.
Proof.
  intros L E C w pf pi rmatch o f dk m it r Hm Hst Ho N1 N2. set (g := fun q => if String.eqb q (limit_raster_file o) then None else f q).
  assert (G : forall q, q <> limit_raster_file o -> f q = g q) by (intros q N; unfold g; destruct (String.eqb_spec q (limit_raster_file o)); [contradiction|reflexivity]).
  assert (Hg : g (limit_raster_file o) = None) by (unfold g; now rewrite String.eqb_refl).
  unfold limit_run. rewrite <- (limit_model_local E C o f g) by (apply G, N1). rewrite Hm. cbn [bind fst snd]. rewrite <- (limit_data_local C pf o f g) by (apply G, N2). rewrite Hst, (stored_none _ _ _ _ _ Hg), Ho. reflexivity.
Qed.
Print Assumptions C109_overwrite_recomputes.
(** intended: --overwrite ignores the stored raster.  Refuted: it is read first, and the run ends with the error of reading it, or of finding no "fast" in it; the same happens without --overwrite. *)
Theorem C109_damaged_refuted : forall L E C w pf pi rmatch o f dk m it hypos data bounds k s e, limit_model E C o f = Ok (m, it) -> parse_hypos (e_fuel E) pf pi rmatch m (lo_hypos o) = Ok hypos -> limit_data C pf o f (m, it) = Ok data ->
  limit_bounds pf o = Ok bounds -> limit_stat m (lo_stat o) = Ok k -> limit_minimizer (m, it) bounds = Ok s -> f (limit_raster_file o) <> None ->
  (load_file C f (limit_raster_file o) None = Err e \/ (exists sd, load_file C f (limit_raster_file o) None = Ok sd /\ dget "fast" sd = None /\ e = KeyError)) ->
  limit_run L E C w pf pi rmatch o f dk = ([], dk, Some e).
Proof.
  intros L E C w pf pi rmatch o f dk m it hypos data bounds k s e Hm Hh Hd Hb Hk Hs Hf Hl. unfold limit_run. rewrite Hm. cbn [bind fst]. rewrite Hh. cbn [bind]. rewrite Hd. cbn [bind]. rewrite Hb. cbn [bind]. rewrite Hk. cbn [bind]. rewrite Hs. cbn [bind snd].
  unfold stored_raster. destruct (f (limit_raster_file o)); [|contradiction]. destruct Hl as [Hl|(sd & Hl & Hg & ->)]; rewrite Hl; cbn [bind]; [reflexivity|]. unfold dgetE. rewrite Hg. reflexivity.
Qed.
Print Assumptions C109_damaged_refuted.

(** ** options *)
Definition with_cl (o : LimitOpts) (cl : R) : LimitOpts := mkLO (lo_model o) (lo_hypos o) (lo_ntoys o) cl (lo_out o) (lo_data o) (lo_asimov o) (lo_niter o) (lo_regularize o) (lo_cutoff o) (lo_bounds o) (lo_stat o) (lo_break o) (lo_overwrite o) (lo_bands o) (lo_trunc o).
Definition with_niter (o : LimitOpts) (n : nat) : LimitOpts := mkLO (lo_model o) (lo_hypos o) (lo_ntoys o) (lo_cl o) (lo_out o) (lo_data o) (lo_asimov o) n (lo_regularize o) (lo_cutoff o) (lo_bounds o) (lo_stat o) (lo_break o) (lo_overwrite o) (lo_bands o) (lo_trunc o).
Lemma finish_results L C w o mi bounds r ops0 dk ops dk' : limit_finish L C w o mi bounds r ops0 dk = (ops, dk', None) ->
  exists asy toys d ops', limit_results (ll_dec L) o (fst mi) asy toys = Ok d /\ save_ops C w (limit_results_file o) (Some "json") d = (ops', None) /\ ops = ops0 ++ ops' /\
    forall cl, limit_finish L C w (with_cl o cl) mi bounds r ops0 dk = match limit_results (ll_dec L) (with_cl o cl) (fst mi) asy toys with Err e => (ops0, dk', Some e) | Ok d => let '(ops', e) := save_ops C w (limit_results_file o) (Some "json") d in (ops0 ++ ops', dk', e) end.
Proof.
  assert (Y : forall asy toys (d x : disk), match limit_results (ll_dec L) o (fst mi) asy toys with Err e => (ops0, d, Some e) | Ok v => let '(ops', e) := save_ops C w (limit_results_file o) (Some "json") v in (ops0 ++ ops', d, e) end = (ops, x, None) ->
     x = d /\ exists v ops', limit_results (ll_dec L) o (fst mi) asy toys = Ok v /\ save_ops C w (limit_results_file o) (Some "json") v = (ops', None) /\ ops = ops0 ++ ops').
  { intros asy toys d x H. destruct (limit_results _ _ _ _ _) as [v|]; [|discriminate]. destruct (save_ops _ _ _ _ v) as [ops' e'] eqn:Es. injection H as <- <- ->. split; [reflexivity|]. exists v, ops'. auto. }
  unfold limit_finish. cbn [lo_cl lo_ntoys lo_niter lo_out lo_break with_cl]. intros H.
  destruct (asymptotic_limits (sl_spline (ll_scan L)) r (lo_cl o)) as [asy|] eqn:Ea; [|discriminate]. assert (Ea' : forall cl, asymptotic_limits (sl_spline (ll_scan L)) r cl = Ok asy) by (intros cl; exact Ea).
  destruct (lo_ntoys o =? 0)%nat eqn:En.
  - destruct (Y _ _ _ _ H) as (-> & v & ops' & A & B & D). exists asy, None, v, ops'. split; [exact A|]. split; [exact B|]. split; [exact D|]. intros cl. rewrite Ea'. reflexivity.
  - destruct (let! l := mapM (point_samplers L mi bounds (lo_niter o)) (map snd (ra_points r)) in limit_samples (map fst l) (map snd l) (lo_out o)) as [c|] eqn:Ec; [|discriminate].
    destruct (co_generate_and_save _ c _ _ _ _) as [[d1 c1] [e1|]] eqn:Eg; [discriminate|]. destruct (let! c' := truncated (sl_hash (ll_scan L)) o c1 in sampling_limits L o c' r) as [[[r1 l1] lb]|] eqn:Et; [|discriminate].
    destruct (Y _ _ _ _ H) as (-> & v & ops' & A & B & D). exists asy, (Some (l1, lb)), v, ops'. split; [exact A|]. split; [exact B|]. split; [exact D|]. intros cl. rewrite Ea'.
    change (truncated (sl_hash (ll_scan L)) (with_cl o cl) c1) with (truncated (sl_hash (ll_scan L)) o c1). change (fun c' : CObj => sampling_limits L (with_cl o cl) c' r) with (fun c' : CObj => sampling_limits L o c' r). rewrite Et. reflexivity.
Qed.
(** intended: the limits are at the level of --cl.  Refuted: the level is only written: the results of a run at another level are the same, except for "cl". *)
Theorem C109_level_refuted : forall L E C w pf pi rmatch o cl f dk ops dk' ops2 dk2, faithful C -> limit_run L E C w pf pi rmatch o f dk = (ops, dk', None) -> limit_run L E C w pf pi rmatch (with_cl o cl) f dk = (ops2, dk2, None) ->
  exists rest, load_file C (run_ops ops f) (limit_results_file o) (Some "json") = Ok (("cl", JFlt (lo_cl o)) :: rest) /\ load_file C (run_ops ops2 f) (limit_results_file o) (Some "json") = Ok (("cl", JFlt cl) :: rest) /\ dk2 = dk'.
Proof.
  assert (Z : forall L C w o mi bounds r ops0 dk ops dk' ops2 dk2 cl f, faithful C -> limit_finish L C w o mi bounds r ops0 dk = (ops, dk', None) -> limit_finish L C w (with_cl o cl) mi bounds r ops0 dk = (ops2, dk2, None) ->
    exists rest, load_file C (run_ops ops f) (limit_results_file o) (Some "json") = Ok (("cl", JFlt (lo_cl o)) :: rest) /\ load_file C (run_ops ops2 f) (limit_results_file o) (Some "json") = Ok (("cl", JFlt cl) :: rest) /\ dk2 = dk').
  { intros L C w o mi bounds r ops0 dk ops dk' ops2 dk2 cl f HC H H2. destruct (finish_results _ _ _ _ _ _ _ _ _ _ _ H) as (asy & toys & d & ops' & Hd & Hs & -> & Hcl). rewrite Hcl in H2. unfold limit_results in Hd, H2. cbn [lo_cl with_cl] in H2.
    destruct (m_pois (fst mi)) as [|[n p] rest]; [discriminate|]. injection Hd as <-. cbn [app] in H2, Hs. match type of H2 with (let '(_, _) := save_ops _ _ _ _ (_ :: ?t) in _) = _ => destruct (save_ops C w (limit_results_file o) (Some "json") (("cl", JFlt cl) :: t)) as [ops3 e3] eqn:E3; exists t end.
    injection H2 as <- <- ->. rewrite !run_ops_app. split; [|split; [|reflexivity]]; [apply (C89_saved_file_is_loaded _ _ _ _ _ _ _ HC Hs)|apply (C89_saved_file_is_loaded _ _ _ _ _ _ _ HC E3)]. }
  intros L E C w pf pi rmatch o cl f dk ops dk' ops2 dk2 HC H H2. unfold limit_run in H, H2.
  change (limit_model E C (with_cl o cl) f) with (limit_model E C o f) in H2. change (lo_hypos (with_cl o cl)) with (lo_hypos o) in H2. change (limit_data C pf (with_cl o cl) f) with (limit_data C pf o f) in H2. change (limit_bounds pf (with_cl o cl)) with (limit_bounds pf o) in H2.
  change (lo_stat (with_cl o cl)) with (lo_stat o) in H2. change (stored_raster (ll_scan L) C (with_cl o cl) f) with (stored_raster (ll_scan L) C o f) in H2. change (lo_overwrite (with_cl o cl)) with (lo_overwrite o) in H2. change (limit_raster_file (with_cl o cl)) with (limit_raster_file o) in H2.
  destruct (let! mi := limit_model E C o f in _) as [[[[mi bounds] r] [l|]]|]; [| |discriminate].
  - destruct (save_ops C w (limit_raster_file o) None [("fast", JList l)]) as [ops1 [e1|]]; [discriminate|]. eapply Z; eauto.
  - eapply Z; eauto.
Qed.
Print Assumptions C109_level_refuted.
(** intended: --iterations sets the number of iterations of the computation of the NPs.  Refuted: without toys the runs are the same whatever the number. *)
Theorem C109_iterations_refuted : forall L E C w pf pi rmatch o n f dk, lo_ntoys o = 0%nat -> limit_run L E C w pf pi rmatch (with_niter o n) f dk = limit_run L E C w pf pi rmatch o f dk.
Proof.
  intros L E C w pf pi rmatch o n f dk Ht. unfold limit_run.
  assert (Z : forall mi bounds r ops, limit_finish L C w (with_niter o n) mi bounds r ops dk = limit_finish L C w o mi bounds r ops dk).
  { intros mi bounds r ops. unfold limit_finish. cbn [lo_cl lo_ntoys with_niter]. rewrite Ht. reflexivity. }
  change (limit_model E C (with_niter o n) f) with (limit_model E C o f). change (lo_hypos (with_niter o n)) with (lo_hypos o). change (limit_data C pf (with_niter o n) f) with (limit_data C pf o f). change (limit_bounds pf (with_niter o n)) with (limit_bounds pf o).
  change (lo_stat (with_niter o n)) with (lo_stat o). change (stored_raster (ll_scan L) C (with_niter o n) f) with (stored_raster (ll_scan L) C o f). change (lo_overwrite (with_niter o n)) with (lo_overwrite o). change (limit_raster_file (with_niter o n)) with (limit_raster_file o).
  destruct (let! mi := limit_model E C o f in _) as [[[[mi bounds] r] [l|]]|]; [| |reflexivity].
  - destruct (save_ops C w (limit_raster_file o) None [("fast", JList l)]) as [ops1 [e1|]]; [reflexivity|]. apply Z.
  - apply Z.
Qed.
Print Assumptions C109_iterations_refuted.
(** A test statistic other than q~mu and q_mu, and a model with more than one POI, are refused: nothing is written. *)
Theorem C109_refused : forall L E C w pf pi rmatch o f dk m it hypos data bounds, limit_model E C o f = Ok (m, it) -> parse_hypos (e_fuel E) pf pi rmatch m (lo_hypos o) = Ok hypos -> limit_data C pf o f (m, it) = Ok data -> limit_bounds pf o = Ok bounds ->
  (lo_stat o <> "q~mu" /\ lo_stat o <> "q_mu") \/ (1 < length (m_pois m))%nat -> limit_run L E C w pf pi rmatch o f dk = ([], dk, Some ValueError).
Proof.
  intros L E C w pf pi rmatch o f dk m it hypos data bounds Hm Hh Hd Hb Hr. unfold limit_run. rewrite Hm. cbn [bind fst]. rewrite Hh. cbn [bind]. rewrite Hd. cbn [bind]. rewrite Hb. cbn [bind].
  assert (X : limit_stat m (lo_stat o) = Err ValueError).
  { unfold limit_stat. destruct (String.eqb_spec (lo_stat o) "q~mu") as [E1|N1]; [|destruct (String.eqb_spec (lo_stat o) "q_mu") as [E2|N2]; [|reflexivity]]; (destruct Hr as [[A B]|Hr]; [contradiction|]); apply Nat.ltb_lt in Hr; rewrite Hr; reflexivity. }
  rewrite X. reflexivity.
Qed.
Print Assumptions C109_refused.
(** intended: --regularize sets the regularization.  Refuted: the run fails. *)
Theorem C109_regularize_refuted : forall L E C w pf pi rmatch o f dk mi x, model_load_file E C f (new_model true false) (lo_model o) None = Ok mi -> lo_regularize o = Some x -> limit_run L E C w pf pi rmatch o f dk = ([], dk, Some AttributeError).
Proof. intros L E C w pf pi rmatch o f dk mi x Hm Hr. unfold limit_run, limit_model. rewrite Hm. cbn [bind]. rewrite Hr. reflexivity. Qed.
Print Assumptions C109_regularize_refuted.
(** intended: --bounds sets the bounds of any parameter.  Refuted: a bound on a parameter that is not a POI ends the run with KeyError. *)
Theorem C109_np_bound_refuted : forall L E C w pf pi rmatch o f dk m it hypos data bounds k ib b, limit_model E C o f = Ok (m, it) -> parse_hypos (e_fuel E) pf pi rmatch m (lo_hypos o) = Ok hypos -> limit_data C pf o f (m, it) = Ok data ->
  limit_bounds pf o = Ok bounds -> limit_stat m (lo_stat o) = Ok k -> set_pois_min m it None None None false = Ok ib -> In b bounds -> ~ In (pb_par b) (keys (m_pois m)) ->
  limit_run L E C w pf pi rmatch o f dk = ([], dk, Some KeyError).
Proof.
  intros L E C w pf pi rmatch o f dk m it hypos data bounds k ib b Hm Hh Hd Hb Hk Hi Hin Hn. unfold limit_run. rewrite Hm. cbn [bind fst]. rewrite Hh. cbn [bind]. rewrite Hd. cbn [bind]. rewrite Hb. cbn [bind]. rewrite Hk. cbn [bind].
  assert (X : limit_minimizer (m, it) bounds = Err KeyError); [|rewrite X; reflexivity]. unfold limit_minimizer. cbn [fst snd]. rewrite Hi. cbn [bind]. pose proof (set_pois_bounds _ _ _ _ _ Hi) as Es. rewrite Es.
  assert (Y : mapM (fun b => dgetE (pb_par b) (model_bounds m)) bounds = Err KeyError); [|rewrite Y; reflexivity].
  assert (Hk' : dget (pb_par b) (model_bounds m) = None) by (apply dget_None; unfold model_bounds, keys; rewrite map_map; exact Hn).
  clear - Hin Hk'. induction bounds as [|c bs IH]; [destruct Hin|]. cbn [mapM]. destruct Hin as [->|Hin]; [unfold dgetE; rewrite Hk'; reflexivity|]. unfold dgetE at 1. destruct (dget (pb_par c) (model_bounds m)); cbn [bind]; [|reflexivity]. rewrite (IH Hin). reflexivity.
Qed.
Print Assumptions C109_np_bound_refuted.
(** intended: a single hypothesis is tested and reported.  Refuted: the raster is written, then the run fails with IndexError. *)
Theorem C109_single_hypothesis_refuted : forall L E C w pf pi rmatch o f dk m it data bounds k s h r l ops, limit_model E C o f = Ok (m, it) -> parse_hypos (e_fuel E) pf pi rmatch m (lo_hypos o) = Ok [h] -> NoDup (keys h) -> limit_data C pf o f (m, it) = Ok data ->
  limit_bounds pf o = Ok bounds -> limit_stat m (lo_stat o) = Ok k -> limit_minimizer (m, it) bounds = Ok s -> f (limit_raster_file o) = None -> fits_evaluate L m it ->
  limit_compute L k s (m, it) data [h] = Ok r -> raster_dump r = Ok l -> save_ops C w (limit_raster_file o) None [("fast", JList l)] = (ops, None) ->
  limit_run L E C w pf pi rmatch o f dk = (ops, dk, Some IndexError).
Proof.
  intros L E C w pf pi rmatch o f dk m it data bounds k s h r l ops Hm Hh HNh Hd Hb Hk Hs Hf HE Hr Hl Hsv. rewrite (limit_run_fresh _ _ _ _ _ _ _ _ _ _ _ _ _ _ _ _ _ Hm Hh Hd Hb Hk Hs Hf), Hr. cbn [bind]. rewrite Hl. cbn [bind with_results]. rewrite Hsv.
  destruct (limit_stat_spec _ _ _ Hk) as (_ & _ & Hkn). assert (HD : distinct (sl_hash (ll_scan L)) [h]) by (split; [intros x [<-|[]]; exact HNh|repeat constructor]).
  destruct (limit_compute_ok _ _ _ _ _ _ _ _ Hkn HE HD Hr) as (K1 & _ & K3 & K4). apply set_pois_incl in K3. rewrite K1 in K3. cbn in K3.
  unfold limit_finish, asymptotic_limits, ul_new, scan1d_new, scan_new. assert (F : is_filled r "pv" false false = true).
  { unfold is_filled. apply Bool.negb_true_iff. apply Bool.not_true_is_false. intros X. apply existsb_exists in X as ([h0 p] & Hin & X). destruct (K4 _ _ Hin) as (_ & _ & _ & Hc). destruct Hc as (n' & hv & t & b & a & q & pv & cls & clb & fp & _ & _ & _ & _ & _ & _ & _ & _ & Epv & _).
    cbn [snd] in X. unfold dmem in X. rewrite Epv in X. discriminate. }
  rewrite F. cbn [bind]. unfold find_poi. cbn [sc_raster]. rewrite K3. reflexivity.
Qed.
Print Assumptions C109_single_hypothesis_refuted.
(** intended: two or three hypotheses give a limit.  Refuted: fewer than four give none: the results hold three nulls in place of each limit. *)
Theorem C109_few_points_refuted : forall L E C w pf pi rmatch o f dk ops dk' m it hypos, faithful C ->
  limit_model E C o f = Ok (m, it) -> parse_hypos (e_fuel E) pf pi rmatch m (lo_hypos o) = Ok hypos -> distinct (sl_hash (ll_scan L)) hypos -> fits_evaluate L m it -> NoDup (pm_pois (i_pm it) ++ np_names (i_pm it)) ->
  f (limit_raster_file o) = None -> lo_ntoys o = 0%nat -> (length hypos < 4)%nat -> limit_run L E C w pf pi rmatch o f dk = (ops, dk', None) ->
  exists d, load_file C (run_ops ops f) (limit_results_file o) (Some "json") = Ok d /\ dget "limit_asymptotics_CLs" d = Some (JList [JNull; JNull; JNull]) /\ dget "limit_asymptotics_CLsb" d = Some (JList [JNull; JNull; JNull]).
Proof.
  intros L E C w pf pi rmatch o f dk ops dk' m it hypos HC Hm Hh HD HE HN Hf Ht Hlen H. destruct (C109_results _ _ _ _ _ _ _ _ _ _ _ _ _ _ _ HC Hm Hh HD HE HN Hf Ht H) as (k & r & l & n & p & psb & ps & _ & _ & K & _ & C1 & C2 & _ & _ & Hr & _).
  eexists. split; [exact Hr|]. assert (Z : forall key pts, curve r n key pts -> limit95 (sl_spline (ll_scan L)) pts = None).
  { intros key pts Hc. unfold limit95, crossings_at. assert (A : (length (ScansProps.usable true pts) <= length pts)%nat) by (unfold ScansProps.usable; clear; induction pts as [|a l IH]; cbn; [lia|]; destruct (Rltb 0 (snd a)); cbn; lia).
    apply Forall2_length in Hc. rewrite <- K, map_length in Hlen. assert (B : (length (ScansProps.usable true pts) < 4)%nat) by (unfold Hypo, dict in *; lia). apply Nat.ltb_lt in B. rewrite B. reflexivity. }
  cbn. rewrite (Z _ _ C1), (Z _ _ C2). split; reflexivity.
Qed.
Print Assumptions C109_few_points_refuted.
