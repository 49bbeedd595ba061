(** C56, C60: auxiliary observables of removed NPs, offsets after a merge. *)
From Verif Require Import Py PyFacts Base Expressions Norms Sample SampleFacts Channels ChannelFacts Params ParamsFacts Core CoreFacts CoreSpec CoreCoefs CoreYields CoreExample ModelIO ModelIOFacts ModelTools ModelToolsFacts NPPruneFacts NPPruneProps MergeProps.
Local Open Scope string_scope.
Local Open Scope list_scope.
Local Open Scope R_scope.

(** the auxiliary observable [a] belongs to the nuisance parameter [p] *)
Definition owns (p : NP) (a : string) : Prop := np_aux_obs p = Some a /\ a <> "".

Lemma pop_aux sel : forall d a d' a', foldM pop_np sel (d, a) = Ok (d', a') -> NoDup (keys d) -> NoDup (keys a) ->
  (forall x y, In (x, y) a' <-> In (x, y) a /\ forall n p, In n sel -> dget n d = Some p -> ~ owns p x) /\ (exists keep, a' = filter keep a).
Proof.
  induction sel as [|n sel IH]; intros d a d' a' H HN HA; cbn [foldM] in H.
  - injection H as <- <-. split; [intros x y; split; [intros Hx; split; [exact Hx|intros ? ? []]|intros [Hx _]; exact Hx]|]. exists (fun _ => true). symmetry. apply filter_all. reflexivity.
  - apply bind_Ok in H as ([d1 a1] & H1 & H). unfold pop_np in H1. cbn [fst snd] in H1. destruct (dget n d) as [p|] eqn:En; [|discriminate].
    apply bind_Ok in H1 as (aux & Hx & H1). injection H1 as <- <-.
    assert (A1 : NoDup (keys aux) /\ (forall x y, In (x, y) aux <-> In (x, y) a /\ ~ owns p x) /\ exists keep, aux = filter keep a).
    { unfold owns. destruct (np_aux_obs p) as [o|] eqn:Eo.
      - destruct (String.eqb_spec o "") as [->|Ho].
        + injection Hx as <-. split; [exact HA|]. split; [|exists (fun _ => true); symmetry; apply filter_all; reflexivity]. intros x y. split; [intros Hi; split; [exact Hi|intros [[= <-] C]; contradiction]|intros [Hi _]; exact Hi].
        + unfold dpopE in Hx. destruct (dmem o a) eqn:Ed; [|discriminate]. injection Hx as <-. split; [apply NoDup_keys_dremove, HA|]. split.
          * intros x y. clear -HA Ho. induction a as [|[k v] a IHa]; [cbn; intuition|]. inversion HA as [|? ? Hk HA']; subst. cbn [dremove]. destruct (String.eqb_spec o k) as [->|Hne].
            -- split; [intros Hi; split; [right; exact Hi|intros [[= ->] _]; apply Hk; unfold keys; apply in_map_iff; exists (x, y); auto]|]. intros [[E|Hi] Hn]; [injection E as <- <-; exfalso; apply Hn; split; [reflexivity|exact Ho]|exact Hi].
            -- cbn [In]. rewrite IHa by exact HA'. split; [intros [E|[Hi Hn]]; [injection E as <- <-; split; [left; reflexivity|intros [[= ->] _]; contradiction]|split; [right; exact Hi|exact Hn]]|].
               intros [[E|Hi] Hn]; [left; exact E|right; split; assumption].
          * exists (fun kv => negb (String.eqb o (fst kv))). clear -HA. induction a as [|[k v] a IHa]; [reflexivity|]. inversion HA as [|? ? Hk HA']; subst. cbn [dremove filter fst]. destruct (String.eqb_spec o k) as [->|Hne]; cbn [negb].
            -- symmetry. apply filter_all. intros [x y] Hi. cbn. apply negb_true_iff, String.eqb_neq. intros <-. apply Hk. unfold keys. apply in_map_iff. exists (k, y). auto.
            -- rewrite IHa by exact HA'. reflexivity.
      - injection Hx as <-. split; [exact HA|]. split; [|exists (fun _ => true); symmetry; apply filter_all; reflexivity]. intros x y. split; [intros Hi; split; [exact Hi|intros [E _]; discriminate]|intros [Hi _]; exact Hi]. }
    destruct A1 as (NA & A1 & (keep & Ek)). destruct (pop_loop _ _ _ _ _ H (NoDup_keys_dremove _ _ HN)) as (_ & Hin & _).
    destruct (IH _ _ _ _ H (NoDup_keys_dremove _ _ HN) NA) as (B & (keep' & Ek')).
    assert (Hnot : ~ In n sel) by (intros Hs; apply Hin in Hs; revert Hs; apply dget_None; apply dget_dremove_eq; exact HN).
    split.
    + intros x y. rewrite B, A1. split.
      * intros [[Hi Hp] Hr]. split; [exact Hi|]. intros k q [<-|Hk] Hq; [rewrite En in Hq; injection Hq as <-; exact Hp|]. apply (Hr k q Hk). rewrite dget_dremove_neq; [exact Hq|]. intros ->. contradiction.
      * intros [Hi Hr]. split; [split; [exact Hi|apply (Hr n p (or_introl eq_refl) En)]|]. intros k q Hk Hq. apply (Hr k q (or_intror Hk)). rewrite dget_dremove_neq in Hq; [exact Hq|]. intros ->. contradiction.
    + exists (fun kv => keep kv && keep' kv)%bool. rewrite Ek', Ek. clear. induction a as [|x a IH]; [reflexivity|]. cbn. destruct (keep x); cbn; [destruct (keep' x); cbn; rewrite IH; reflexivity|exact IH].
Qed.

(** Removing NPs removes their auxiliary observables and no others *)
Theorem C56_auxiliary_observables : forall E m0 m I rmatch pv m' I', finish E m0 = Ok (m, I) ->
  NoDup (keys (m_channels m)) -> names_ok m -> stored (m_channels m) -> tables_ok E m (m_channels m) -> NoDup (keys (m_aux m)) ->
  remove_nps E rmatch (m, I) pv = Ok (m', I') ->
  (forall a x, In (a, x) (m_aux m') <-> In (a, x) (m_aux m) /\ forall n p, In (n, p) (m_nps m) -> ~ In n (keys (m_nps m')) -> ~ owns p a) /\
  (exists keep, m_aux m' = filter keep (m_aux m)).
Proof.
  intros E m0 m I rmatch pv m' I' HF Hd HN HSt HT HA H.
  destruct (C56_removes_exactly_the_designated _ _ _ _ _ _ _ _ HF Hd HN HSt HT H) as (D & _ & _).
  assert (NN : NoDup (keys (m_nps m))) by (apply (NoDup_app_r _ _ (names_ok_base _ HN))).
  unfold remove_nps in H. apply bind_Ok in H as (sel & Hsel & H). apply bind_Ok in H as (p0 & _ & H). apply bind_Ok in H as (pars & _ & H). apply bind_Ok in H as (n & _ & H).
  apply bind_Ok in H as (rv & _ & H). apply bind_Ok in H as (chs & _ & H). apply bind_Ok in H as ([d a] & Hp & H). cbn [fst snd] in H.
  assert (Ea : m_aux m' = a /\ m_nps m' = d).
  { unfold finish in H. apply bind_Ok in H as (it & _ & H). injection H as <- _. split; reflexivity. }
  destruct Ea as [-> En]. destruct (pop_loop _ _ _ _ _ Hp NN) as (_ & Hin & Ed). destruct (pop_aux _ _ _ _ _ Hp NN HA) as (B & K). split; [|exact K].
  intros x y. rewrite B. split; intros [Hi Hr]; (split; [exact Hi|]).
  - intros k p Hk Hnk. apply (Hr k p); [|apply In_dget; assumption]. destruct (in_dec string_dec k sel) as [Hs|Hs]; [exact Hs|]. exfalso. apply Hnk. rewrite En, Ed. unfold keys. apply in_map_iff. exists (k, p).
    split; [reflexivity|]. apply filter_In. split; [exact Hk|]. cbn. apply negb_true_iff, memb_false, Hs.
  - intros k p Hk Hp'. apply (Hr k p); [apply dget_In, Hp'|]. rewrite En, Ed. intros Hc. unfold keys in Hc. apply in_map_iff in Hc as ([k' q] & Ek & Hc). cbn in Ek. subst k'. apply filter_In in Hc as [_ Hc]. cbn in Hc. apply negb_true_iff, memb_false in Hc. contradiction.
Qed.
Print Assumptions C56_auxiliary_observables.

Definition pa_np (n aux : string) : string * NP := (n, mkNP (Some n) (Some 0) 1 (Some 1) (Some aux) None None).
Definition pa0 : Model := mkModel "pa" None [("mu", mkPOI (Some "mu") None None (Some 1) None None)] [pa_np "a" "aux_a"; np1 "b" 0; pa_np "c" "aux_c"]
  [("aux_a", mkAux (Some "aux_a") None None None None); ("aux_c", mkAux (Some "aux_c") None None None None)]
  [("SR", mkChannel "SR" KSingle [("S", pr_sample (ExprNorm "mu") (pr_imps ++ [("c", up_down (1/10) (-1/10))]))])] [] true false true false 0.
Example C56_auxiliary_observables_nonvacuous : exists I m' I', finish ex_env pa0 = Ok (pa0, I) /\ NoDup (keys (m_channels pa0)) /\ names_ok pa0 /\ NoDup (keys (m_aux pa0)) /\
  remove_nps ex_env never (pa0, I) [("a", Some (1/2))] = Ok (m', I') /\ keys (m_nps m') = ["b"; "c"] /\ keys (m_aux m') = ["aux_c"].
Proof.
  assert (X : exists it m' I', set_internal_vars ex_env pa0 = Ok it /\ i_channels it = m_channels pa0 /\ remove_nps ex_env never (pa0, it) [("a", Some (1/2))] = Ok (m', I') /\
     keys (m_nps m') = ["b"; "c"] /\ keys (m_aux m') = ["aux_c"]).
  { do 3 eexists. split; [unfold pa0; ev; reflexivity|]. split; [reflexivity|]. split; [unfold pa0; ev; reflexivity|]. split; reflexivity. }
  destruct X as (I & m' & I' & X & Xc & Y & Yk & Ya). exists I, m', I'.
  split; [unfold finish; rewrite X; cbn [bind]; rewrite Xc; reflexivity|]. split; [repeat constructor; cbn; intuition congruence|]. split; [repeat constructor; cbn; intuition congruence|].
  split; [repeat constructor; cbn; intuition congruence|]. auto.
Qed.

(** * C60: where the channels of the merged model start *)
(** the number of bins of the channels listed before [k] *)
Fixpoint bins_before (k : string) (chs : dict Channel) : nat :=
  match chs with [] => 0 | (k', c) :: r => if String.eqb k k' then 0 else (nbins c + bins_before k r)%nat end.

Lemma offsets_before k chs : forall n, In k (keys chs) -> dget k (offsets_of chs n) = Some (n + bins_before k chs)%nat.
Proof.
  induction chs as [|[k' c] r IH]; intros n H; [contradiction|]. cbn [offsets_of dget bins_before]. destruct (String.eqb_spec k k') as [->|Hn]; [f_equal; lia|].
  destruct H as [H|H]; [cbn in H; congruence|]. rewrite IH by exact H. f_equal. lia.
Qed.

Theorem C60_offsets : forall E target models m' offs n,
  Forall (fun mi => object E (fst mi) (snd mi)) (target :: models) ->
  Forall (fun mi : Model * Internal => length (m_channels (fst mi)) = 1%nat) models ->
  merge_models target models = Ok (m', offs, n) ->
  NoDup (keys (concat (map (fun mi : Model * Internal => m_channels (fst mi)) (target :: models)))) ->
  (forall k, In k (keys (m_channels m')) -> dget k offs = Some (bins_before k (m_channels m'))) /\
  n = total_bins (m_channels m').
Proof.
  intros E target models m' offs n Ho H1 H HN. unfold merge_models in H. apply bind_Ok in H as ([[chs o] n1] & Hs & H).
  repeat match type of H with (if ?b then _ else _) = _ => destruct b; [discriminate|] end. injection H as <- <- <-. cbn [with_channels m_channels].
  inversion Ho as [|? ? Ht Hm]; subst; clear Ho. destruct Ht as [HS HC]. pose proof (siv_built _ _ _ HS) as Bt.
  rewrite (bt_off _ _ _ Bt), (bt_nb _ _ _ Bt), <- HC in Hs. clear HS HC Bt.
  cbn [map concat] in HN. revert Hs HN Hm H1. generalize (m_channels (fst target)) as d.
  assert (G : forall d, foldM (fun st mi => foldM (merge_channel (i_offsets (snd mi)) (i_nbins (snd mi))) (m_channels (fst mi)) st) models (d, offsets_of d 0, total_bins d) = Ok (chs, o, n1) ->
    NoDup (keys (d ++ concat (map (fun mi : Model * Internal => m_channels (fst mi)) models))) -> Forall (fun mi => object E (fst mi) (snd mi)) models ->
    Forall (fun mi : Model * Internal => length (m_channels (fst mi)) = 1%nat) models -> o = offsets_of chs 0 /\ n1 = total_bins chs).
  { induction models as [|mi l IH]; intros d Hs HN Hm H1; cbn [foldM] in Hs; [injection Hs as <- <- <-; split; reflexivity|].
    inversion Hm as [|? ? [HS HC] Hm']; subst. inversion H1 as [|? ? Hl H1']; subst. apply bind_Ok in Hs as (st & Hs1 & Hs).
    pose proof (siv_built _ _ _ HS) as Bt. rewrite (bt_off _ _ _ Bt), (bt_nb _ _ _ Bt), <- HC in Hs1. cbn [map concat] in HN.
    destruct (m_channels (fst mi)) as [|[k c] [|]]; try discriminate. cbn [foldM] in Hs1. apply bind_Ok in Hs1 as (s1 & Hs1 & E1). injection E1 as <-.
    unfold merge_channel in Hs1. cbn [fst snd offsets_of dgetE dget] in Hs1. unfold dgetE in Hs1. cbn [dget] in Hs1. rewrite String.eqb_refl in Hs1. cbn [bind] in Hs1. injection Hs1 as <-.
    assert (Hk : ~ In k (keys d)). { unfold keys in *. rewrite map_app in HN. cbn [app map fst] in HN. apply NoDup_remove_2 in HN. intros Hi. apply HN. apply in_or_app. now left. }
    rewrite dset_app_new in Hs by exact Hk. rewrite dset_app_new in Hs by (rewrite keys_offsets; exact Hk). cbn [Nat.add] in Hs.
    apply (IH (d ++ [(k, c)])); [|rewrite <- app_assoc; exact HN|exact Hm'|exact H1'].
    rewrite offsets_of_app. cbn [offsets_of Nat.add]. rewrite total_bins_app. cbn [total_bins fold_right snd] in *. rewrite Nat.add_0_r in *. exact Hs. }
  intros d Hs HN Hm H1. destruct (G d Hs HN Hm H1) as [-> ->]. split; [|reflexivity]. intros k Hk. rewrite offsets_before by exact Hk. reflexivity.
Qed.
Print Assumptions C60_offsets.

(** The hypothesis on the number of channels is needed: the second channel of an added model is shifted once more by
    the number of bins of the whole model (ModelMerger adds the bins of the model for each of its channels) *)
Theorem C60_offsets_refuted : forall E target m I m' offs n k1 c1 k2 c2, object E (fst target) (snd target) -> object E m I ->
  m_channels m = [(k1, c1); (k2, c2)] -> NoDup (keys (m_channels (fst target) ++ m_channels m)) ->
  merge_models target [(m, I)] = Ok (m', offs, n) ->
  dget k2 offs = Some (bins_before k2 (m_channels m') + nbins c1 + nbins c2)%nat /\ (n = total_bins (m_channels m') + nbins c1 + nbins c2)%nat.
Proof.
  intros E target m I m' offs n k1 c1 k2 c2 [HS HC] [HS2 HC2] Em HN H. unfold merge_models in H. apply bind_Ok in H as ([[chs o] n1] & Hs & H).
  repeat match type of H with (if ?b then _ else _) = _ => destruct b; [discriminate|] end. injection H as <- <- <-. cbn [with_channels m_channels].
  pose proof (siv_built _ _ _ HS) as Bt. pose proof (siv_built _ _ _ HS2) as Bt2. rewrite (bt_off _ _ _ Bt), (bt_nb _ _ _ Bt), <- HC in Hs.
  cbn [foldM fst snd] in Hs. rewrite (bt_off _ _ _ Bt2), (bt_nb _ _ _ Bt2), <- HC2, Em in Hs. rewrite Em in HN. clear HC. revert Hs HN. generalize (m_channels (fst target)) as d. intros d Hs HN.
  assert (Hk1 : ~ In k1 (keys d)) by (unfold keys in HN |- *; rewrite map_app in HN; apply NoDup_remove_2 in HN; intros Hi; apply HN; apply in_or_app; now left).
  assert (Hk2 : ~ In k2 (keys (d ++ [(k1, c1)]))).
  { replace (d ++ [(k1, c1); (k2, c2)]) with ((d ++ [(k1, c1)]) ++ [(k2, c2)]) in HN by (rewrite <- app_assoc; reflexivity). unfold keys in HN |- *. rewrite (map_app _ (d ++ _)) in HN. apply NoDup_remove_2 in HN. intros Hi. apply HN. rewrite app_nil_r. exact Hi. }
  assert (Hne : k2 <> k1) by (intros ->; apply Hk2; unfold keys; rewrite map_app; apply in_or_app; right; left; reflexivity).
  apply bind_Ok in Hs as (s & Hs & E1). injection E1 as ->. cbn [foldM offsets_of total_bins fold_right snd] in Hs. unfold merge_channel in Hs. cbn [fst snd] in Hs. unfold dgetE in Hs. cbn [dget] in Hs.
  rewrite String.eqb_refl in Hs. cbn [bind] in Hs. rewrite (proj2 (String.eqb_neq _ _) Hne), String.eqb_refl in Hs. cbn [bind] in Hs. injection Hs as <- <- <-.
  rewrite (dset_app_new k1 c1 d) by exact Hk1. rewrite (dset_app_new k2 c2 (d ++ [(k1, c1)])) by exact Hk2. split.
  - rewrite dget_dset_eq. f_equal. rewrite <- app_assoc. cbn [app].
    assert (G : bins_before k2 (d ++ [(k1, c1); (k2, c2)]) = (total_bins d + nbins c1)%nat).
    { clear -Hk2 Hne. induction d as [|[k c] d IH]; cbn [app bins_before total_bins fold_right snd].
      - rewrite (proj2 (String.eqb_neq _ _) Hne), String.eqb_refl. lia.
      - destruct (String.eqb_spec k2 k) as [->|Hn]; [exfalso; apply Hk2; left; reflexivity|]. rewrite IH; [unfold total_bins; lia|]. intros Hi. apply Hk2. right. exact Hi. }
    rewrite G. lia.
  - rewrite !total_bins_app. cbn [total_bins fold_right snd]. lia.
Qed.
Print Assumptions C60_offsets_refuted.

Example C60_offsets_nonvacuous : exists I Iv m' offs n,
  object ex_env ex_two I /\ object ex_env ex_vr Iv /\ merge_models (ex_two, I) [(ex_vr, Iv)] = Ok (m', offs, n) /\
  NoDup (keys (concat (map (fun mi : Model * Internal => m_channels (fst mi)) [(ex_two, I); (ex_vr, Iv)]))) /\ offs = [("CR", 0%nat); ("VR", 2%nat)].
Proof.
  destruct ex_two_finish as (I & HI & Hb & Hv & Ho & Hc & Hs). destruct ex_vr_finish as (Iv & HIv & Hbv & Hvv & Hov & Hcv). exists I, Iv.
  unfold merge_models. cbn [foldM fst snd with_channels m_channels ex_vr ex_two]. unfold merge_channel. cbn [fst snd]. rewrite Hov. cbn [foldM]. unfold dgetE. cbn [dget String.eqb Ascii.eqb Bool.eqb bind].
  cbn [existsb forallb fst snd]. rewrite Ho, Hb, Hbv, Hc, Hcv, Hvv, Hv. cbn [existsb forallb length m_channels ex_vr ex_two with_channels fst snd Nat.eqb orb negb andb m_nps m_asym m_lognormal ex_model dset String.eqb Ascii.eqb Bool.eqb].
  do 3 eexists. split; [eapply finish_object; exact HI|]. split; [eapply finish_object; exact HIv|]. split; [reflexivity|]. split; [repeat constructor; cbn; intuition congruence|reflexivity].
Qed.
(** and the two-channel model of C60_offsets_refuted *)
Definition ex_2ch : Model := with_channels ex_model [("VR", mkChannel "VR" KSingle [("Background", ex_bkg)]); ("VR2", mkChannel "VR2" KSingle [("Background", ex_bkg)])].
Example C60_offsets_refuted_nonvacuous : exists I Iv m' offs n, object ex_env ex_two I /\ object ex_env ex_2ch Iv /\ merge_models (ex_two, I) [(ex_2ch, Iv)] = Ok (m', offs, n) /\
  NoDup (keys (m_channels ex_two ++ m_channels ex_2ch)).
Proof.
  destruct ex_two_finish as (I & HI & Hb & Hv & Ho & Hc & Hs).
  assert (X : exists it, set_internal_vars ex_env ex_2ch = Ok it /\ i_channels it = m_channels ex_2ch /\ i_nbins it = 2%nat /\ i_nvar it = 1%nat /\ i_offsets it = [("VR", 0%nat); ("VR2", 1%nat)]).
  { eexists. split; [unfold ex_2ch, ex_model; ev; reflexivity|]. repeat split; reflexivity. }
  destruct X as (Iv & X & Hcv & Hbv & Hvv & Hov). exists I, Iv.
  unfold merge_models. cbn [foldM fst snd with_channels m_channels ex_2ch ex_two]. unfold merge_channel. cbn [fst snd]. rewrite Hov. cbn [foldM]. unfold dgetE. cbn [dget String.eqb Ascii.eqb Bool.eqb bind].
  cbn [existsb forallb fst snd]. rewrite Ho, Hb, Hbv, Hc, Hcv, Hvv, Hv. cbn [existsb forallb length m_channels ex_2ch ex_two with_channels fst snd Nat.eqb orb negb andb m_nps m_asym m_lognormal ex_model dset String.eqb Ascii.eqb Bool.eqb].
  do 3 eexists. split; [eapply finish_object; exact HI|]. split; [split; [exact X|symmetry; exact Hcv]|]. split; [reflexivity|]. repeat constructor; cbn; intuition congruence.
Qed.
