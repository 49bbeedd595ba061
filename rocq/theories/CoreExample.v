(** A concrete model, used to show that the hypotheses of the theorems can be met: a Poisson region with one bin and
    two samples, a Poisson region with two bins and one sample, one POI (mu) and two NPs, one constrained and one
    free. *)
From Verif Require Import Py PyFacts Base Expressions Norms Sample SampleFacts Channels Params Core CoreFacts RSort.
Local Open Scope string_scope.
Local Open Scope list_scope.

Definition ex_env : Env := mkEnv (fun r => if Reqb r 1 then "+1" else "-1")
  (fun s => if String.eqb s "+1" then Some 1 else if String.eqb s "-1" then Some (-1) else None)
  (fun _ _ => Err LinAlgError) 5.

Definition ex_signal := mkSample "Signal" (ExprNorm "mu") (Some 1) (Some [3]) [("acc", JObj [("+1", JFlt (1/10)); ("-1", JFlt (-1/20))])].
Definition ex_bkg := mkSample "Background" (ExprNorm "bkg") (Some 1) (Some [10]) [("acc", JFlt (1/5)); ("bkg", JFlt 0)].
Definition ex_cr := mkSample "Control" (NumberNorm (Some 1)) (Some 1) (Some [20; 40]) [].
Definition ex_channels : dict Channel :=
  [("SR", mkChannel "SR" KSingle [("Signal", ex_signal); ("Background", ex_bkg)]);
   ("CR", mkChannel "CR" (KMulti ["b1"; "b2"]) [("Control", ex_cr)])].
Definition ex_model : Model :=
  mkModel "example" None
    [("mu", mkPOI (Some "mu") (Some 0) (Some 10) (Some 1) None None)]
    [("acc", mkNP (Some "acc") (Some 0) 1 (Some 1) (Some "aux_acc") None None);
     ("bkg", mkNP (Some "bkg") (Some 1) (1/10) None None None None)]
    [("aux_acc", mkAux (Some "aux_acc") (Some (-5)) (Some 5) None None)]
    ex_channels [] true true true false 0.

Ltac rdec := repeat match goal with
  | |- context [Reqb ?a ?b] => first [rewrite (proj2 (Reqb_true a b)) by lra | rewrite (proj2 (Reqb_false a b)) by lra]
  | |- context [Rltb ?a ?b] => first [rewrite (proj2 (Rltb_true a b)) by lra | rewrite (proj2 (Rltb_false a b)) by lra]
  | |- context [Rleb ?a ?b] => first [rewrite (proj2 (Rleb_true a b)) by lra | rewrite (proj2 (Rleb_false a b)) by lra]
  end.
Ltac ev := repeat (progress (lazy -[Reqb Rltb Rleb IZR Rplus Rminus Rmult Rdiv Ropp Rinv set_slice Rmax Rmin pow exp ln]; rdec)).

(** the channels after the implicit impacts have been added *)
Definition ex_signal' := mkSample "Signal" (ExprNorm "mu") (Some 1) (Some [3])
  [("acc", JObj [("+1", JFlt (1/10)); ("-1", JFlt (-1/20))]);
   ("bkg", JObj [("+1", JFlt (1 * (1 / 10) * 0 / 1)); ("-1", JFlt (- (1 * (1 / 10) * 0 / 1)))])].
Definition ex_channels' : dict Channel :=
  [("SR", mkChannel "SR" KSingle [("Signal", ex_signal'); ("Background", ex_bkg)]);
   ("CR", mkChannel "CR" (KMulti ["b1"; "b2"]) [("Control", ex_cr)])].

Lemma ex_built_full : exists I, set_internal_vars ex_env ex_model = Ok I /\ i_channels I = ex_channels' /\
  i_offsets I = [("SR", 0%nat); ("CR", 1%nat)] /\ i_nbins I = 3%nat /\ i_nsamples I = 2%nat /\
  i_pm I = mkPM ["mu"] [("acc", 0, 1); ("bkg", 1, 1/10)] /\ i_ref_pois I = [1] /\ i_nvar I = 1%nat /\ i_nbins_p I = 3%nat /\ i_nbins_g I = 0%nat.
Proof. unfold ex_model. eexists. split; [ev; reflexivity|]. repeat split; reflexivity. Qed.
Lemma ex_built : exists I, set_internal_vars ex_env ex_model = Ok I.
Proof. destruct ex_built_full as (I & H & _). eauto. Qed.

Lemma ex_tot I : set_internal_vars ex_env ex_model = Ok I -> forall mu a b, exists t, tot_bin_exp ex_model I [mu] [a; b] None = Ok t.
Proof.
  intros H mu a b. destruct ex_built_full as (I' & H' & Hc & _ & Hb & Hs & Hp & _). rewrite H in H'. inversion H'; subst I'; clear H'.
  unfold tot_bin_exp, n_exp, nominal_row, cut_k_exp, k_exp. rewrite Hc, Hb, Hs, Hp. cbn [m_asym m_linear ex_model].
  eexists. ev. reflexivity.
Qed.
