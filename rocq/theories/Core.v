(** Model of the class Model of src/fastprof/core.py: internal variables, expected yields, likelihood and its
    derivatives with respect to the POIs. *)
From Verif Require Import Py Base Expressions Norms Sample Channels Params.
Local Open Scope string_scope.
Local Open Scope list_scope.

(** The Python functions the code relies on: '%+g' formatting, float(str), np.linalg.inv, and the recursion limit. *)
Record Env := mkEnv {
  e_fmt : R -> string;
  e_float : string -> option R;
  e_inv : nat -> mat -> res mat;
  e_fuel : nat }.

(** core.py:388-428 Model.__init__: the primary attributes.  Dictionary keys are the object names.
    [variations] is None (its default). *)
Record Model := mkModel {
  m_name : string;
  m_descr : option string;
  m_pois : dict POI;
  m_nps : dict NP;
  m_aux : dict Aux;
  m_channels : dict Channel;
  m_exprs : dict expr;
  m_asym : bool;
  m_linear : bool;
  m_simple_sym : bool;
  m_lognormal : bool;
  m_cutoff : R }.

(** The secondary attributes computed by set_internal_vars.  Coefficient arrays of shape
    (max_nsamples, nbins, nnps, nvariations) are kept in memory order: see [coef]. *)
Record Internal := mkInternal {
  i_pm : PModel;              (* npois, nnps, np_nominal_values, np_variations *)
  i_ref_pois : list R;        (* ref_pars.pois; ref_pars.nps are zero *)
  i_cons : list R;            (* diagonal of constraint_hessian *)
  i_channels : dict Channel;  (* channels after the update of their samples *)
  i_nbins_p : nat;            (* nbins_poisson *)
  i_nbins_g : nat;            (* nbins_gaussian *)
  i_poi_hess : mat;           (* poi_hessian *)
  i_offsets : dict nat;       (* channel_offsets *)
  i_nsamples : nat;           (* max_nsamples *)
  i_nbins : nat;              (* nbins *)
  i_nvar : nat;               (* nvariations *)
  i_pos : nat -> R;           (* pos_impact_coeffs *)
  i_neg : nat -> R;           (* neg_impact_coeffs *)
  i_sym : nat -> nat -> nat -> R  (* sym_impact_coeffs[s,b,p] *) }.

(** memory index of [s,b,p,v] in an array of shape (_, B, P, V) *)
Definition flat (B P V s b p v : nat) : nat := (((s * B + b) * P + p) * V + v)%nat.
Definition coef (I : Internal) (a : nat -> R) (s b p v : nat) : R :=
  a (flat (i_nbins I) (length (pm_nps (i_pm I))) (i_nvar I) s b p v).
(** arr[s,:,p,:k] = f *)
Definition set_slice (B P V s p k : nat) (f : nat -> nat -> R) (arr : nat -> R) : nat -> R :=
  fun i => let v := (i mod V)%nat in let q := (i / V)%nat in
           let p' := (q mod P)%nat in let r := (q / P)%nat in
           let b := (r mod B)%nat in let s' := (r / B)%nat in
           if ((s' =? s) && (p' =? p) && (v <? k))%nat then f b v else arr i.

(** core.py:460-468 parameter sizes and nominal values.  A null nominal value becomes NaN in the array. *)
Definition pmodel_of (m : Model) : res PModel :=
  let! l := mapM (fun kp => match np_nominal (snd kp) with
                            | Some x => Ok (fst kp, x, np_variation (snd kp))
                            | None => Err NonFinite
                            end) (m_nps m) in
  Ok (mkPM (keys (m_pois m)) l).

(** core.py:471-473: 1/scaled_constraint**2 for a constrained NP, 0 for a free one *)
Definition cons_of (p : NP) : res R :=
  match np_constraint p with
  | None => Ok 0
  | Some _ => let! c := scaled_constraint p in
              if Reqb c 0 then Err ZeroDivisionError else Ok (1 / (c * c))
  end.

(** core.py:655-672 real_vals: the NPs enter at their nominal values (nominal_nps=True, 669) *)
Definition model_real_vals (m : Model) (pm : PModel) (ps : list R) : res (dict R) :=
  let! d := pars_dict (mkPars ps (repeat 0 (length (pm_nps pm))) (Some pm)) true true false in
  real_vals (values (m_exprs m)) d.

(** core.py:575-585 reals *)
Definition model_reals (m : Model) : dict expr := reals (keys (m_pois m) ++ keys (m_nps m)) (values (m_exprs m)).

(** core.py:481-489: Poisson channels first; any other order refers to the undefined attribute self.verbose *)
Definition poisson_first (chs : dict Channel) : dict Channel :=
  filter (fun c => negb (is_gaussian (snd c))) chs ++ filter (fun c => is_gaussian (snd c)) chs.
Fixpoint list_eqb (l k : list string) : bool :=
  match l, k with
  | [], [] => true
  | x :: l', y :: k' => String.eqb x y && list_eqb l' k'
  | _, _ => false
  end.
Definition total_bins (chs : dict Channel) : nat := fold_right (fun c n => (nbins (snd c) + n)%nat) 0%nat chs.

(** core.py:493-497: offset of each channel, and the Hessian blocks of the Gaussian channels (a Hessian of None gives
    NaN entries) *)
Fixpoint offsets_of (chs : dict Channel) (n : nat) : dict nat :=
  match chs with [] => [] | (k, c) :: r => (k, n) :: offsets_of r (n + nbins c)%nat end.
Fixpoint hess_blocks (chs : dict Channel) (n : nat) (h : mat) : res mat :=
  match chs with
  | [] => Ok h
  | (_, c) :: r =>
    match ch_kind c with
    | KGauss bins o =>
      match o with
      | None => Err NonFinite
      | Some hc => hess_blocks r (n + length bins)%nat
          (fun i j => if ((n <=? i) && (i <? n + length bins) && (n <=? j) && (j <? n + length bins))%nat
                      then hc (i - n)%nat (j - n)%nat else h i j)
      end
    | _ => hess_blocks r n h
    end
  end.

(** core.py:498-500 set_np_data on every sample *)
Definition update_channel (E : Env) (pm : PModel) (rls : dict expr) (rv : dict R) (c : Channel) : res Channel :=
  let! sm := mapM (fun ks => let! s := set_np_data (e_fuel E) (e_fmt E) (pm_nps pm) rls rv 1 (snd ks) in Ok (fst ks, s)) (ch_samples c) in
  Ok (mkChannel (ch_name c) (ch_kind c) sm).

(** samples[(channel, s)] *)
Definition sample_at (c : Channel) (s : nat) : option Sample := nth_error (values (ch_samples c)) s.

(** max_nsamples, 492 *)
Definition max_samples (chs : dict Channel) : nat := fold_right (fun c n => Nat.max (length (ch_samples (snd c))) n) 0%nat chs.

(** core.py:511-516, 528 for one NP and one sample index: the symmetric impacts of all bins *)
Definition sym_row (E : Env) (chs : dict Channel) (par : string) (s : nat) : res (list R) :=
  let! l := mapM (fun kc => match sample_at (snd kc) s with
                            | Some sm => let! r := sym_impact (e_fmt E) sm par in
                                         match r with Some x => Ok x | None => Err TypeError end
                            | None => Ok (repeat 0 (nbins (snd kc)))
                            end) chs in
  Ok (concat l).
(** core.py:515-520: the coefficients of one channel, [order][bin] *)
Definition channel_coeffs (E : Env) (is_log : bool) (par : string) (s : nat) (kc : string * Channel) : res (list (list R) * list (list R)) :=
  match sample_at (snd kc) s with
  | Some sm => impact_coefficients (e_float E) (e_fmt E) (e_inv E) sm par is_log
  | None => Ok ([repeat 0 (nbins (snd kc))], [repeat 0 (nbins (snd kc))])
  end.
(** np.concatenate of the transposed coefficients: all blocks must have the same number [k] of orders;
    value at [bin][order].
    There must be one row per bin of the model (numpy would also accept a single row). *)
Definition concat_coeffs (B : nat) (l : list (list (list R))) : res (nat * (nat -> nat -> R)) :=
  match l with
  | [] => Err ValueError
  | c0 :: _ =>
    if forallb (fun c => (length c =? length c0)%nat) l
       && forallb (fun v => (length (concat (map (fun c => nth v c []) l)) =? B)%nat) (seq 0 (length c0))
    then Ok (length c0, fun b v => nth b (concat (map (fun c => nth v c []) l)) 0)
    else Err ValueError
  end.

(** The state of the loop 507-528: nvariations and the coefficient arrays.  ndarray.resize keeps the memory contents
    and appends zeros: the arrays are total functions that vanish outside, so the contents do not change. *)
Record CoefState := mkCS { cs_nvar : nat; cs_pos : nat -> R; cs_neg : nat -> R; cs_sym : nat -> nat -> nat -> R }.

Definition coef_step (E : Env) (m : Model) (chs : dict Channel) (B P : nat) (st : CoefState) (ps : (nat * string) * nat) : res CoefState :=
  let '((p, par), s) := ps in
  let! sym := sym_row E chs par s in
  if negb (length sym =? B)%nat then Err ValueError else
  let sym' := fun s' b' p' => if ((s' =? s) && (p' =? p))%nat then nth b' sym 0 else cs_sym st s' b' p' in
  if m_asym m then
    let! cl := mapM (channel_coeffs E (negb (m_linear m)) par s) chs in
    (* 521-524 *)
    let nvar := fold_left (fun n c => if ((n <? length (fst c)) || (n <? length (snd c)))%nat
                                      then Nat.max (length (fst c)) (length (snd c)) else n) cl (cs_nvar st) in
    let! pc := concat_coeffs B (map fst cl) in
    let! nc := concat_coeffs B (map snd cl) in
    let k := fst pc in
    let! nf := if (fst nc =? k)%nat then Ok (snd nc)
               else if (fst nc =? 1)%nat then Ok (fun b _ => snd nc b 0%nat)
               else Err ValueError in
    Ok (mkCS nvar (set_slice B P nvar s p k (snd pc) (cs_pos st)) (set_slice B P nvar s p k nf (cs_neg st)) sym')
  else Ok (mkCS (cs_nvar st) (cs_pos st) (cs_neg st) sym').

Definition enumerate {A} (l : list A) : list (nat * A) := combine (seq 0 (length l)) l.

(** core.py:451-530 set_internal_vars (the last line, 530 ref_yields, is [ref_yields] below) *)
Definition set_internal_vars (E : Env) (m : Model) : res Internal :=
  let! pm := pmodel_of m in
  let! refp := mapM (fun kp => match poi_initial (snd kp) with Some x => Ok x | None => Err NonFinite end) (m_pois m) in
  let! cdiag := mapM (fun kp => cons_of (snd kp)) (m_nps m) in
  let chs := poisson_first (m_channels m) in
  if negb (list_eqb (keys chs) (keys (m_channels m))) then Err AttributeError else
  let np := total_bins (filter (fun c => negb (is_gaussian (snd c))) chs) in
  let ng := total_bins (filter (fun c => is_gaussian (snd c)) chs) in
  let! hess := hess_blocks chs 0 (fun _ _ => 0) in
  let! chs' := match m_channels m with
               | [] => Ok []
               | _ => let! rv := model_real_vals m pm refp in
                      mapM (fun kc => let! c := update_channel E pm (model_reals m) rv (snd kc) in Ok (fst kc, c)) chs
               end in
  let S := max_samples chs' in
  let B := total_bins chs' in
  let P := length (pm_nps pm) in
  (* 502: np.stack of an empty list raises ValueError *)
  let! _ := match m_channels m with [] => Ok tt | _ => if (S =? 0)%nat then Err ValueError else Ok tt end in
  let! st := foldM (coef_step E m chs' B P) (list_prod (enumerate (map (fun p => fst (fst p)) (pm_nps pm))) (seq 0 S))
               (mkCS 1 (fun _ => 0) (fun _ => 0) (fun _ _ _ => 0)) in
  Ok (mkInternal pm refp cdiag chs' np ng hess (offsets_of chs' 0) S B (cs_nvar st) (cs_pos st) (cs_neg st) (cs_sym st)).

(** core.py:603-649 k_exp: modifier of sample s in bin b.  np.log of a non-positive number is NaN or infinite. *)
Definition k_exp (m : Model) (I : Internal) (ns : list R) : res (nat -> nat -> R) :=
  let P := length (pm_nps (i_pm I)) in
  let th := fun p => nth p ns 0 in
  if m_asym m then
    let delta := fun s b =>
      rsum P (fun p => rsum (i_nvar I) (fun v => coef I (i_pos I) s b p v * Rmax (th p) 0 ^ (v + 1)))
      + rsum P (fun p => rsum (i_nvar I) (fun v => coef I (i_neg I) s b p v * Rmin (th p) 0 ^ (v + 1))) in
    Ok (if m_linear m then fun s b => 1 + delta s b else fun s b => exp (delta s b))
  else if m_linear m then Ok (fun s b => 1 + rsum P (fun p => i_sym I s b p * th p))
  else if forallb (fun s => forallb (fun b => forallb (fun p => Rltb 0 (1 + i_sym I s b p)) (seq 0 P)) (seq 0 (i_nbins I))) (seq 0 (i_nsamples I))
       then Ok (fun s b => exp (rsum P (fun p => ln (1 + i_sym I s b p) * th p)))
       else Err NonFinite.

(** core.py:651-653 cut_k_exp *)
Definition cut (cutoff k : R) : R := if Reqb cutoff 0 then k else 1 + cutoff * tanh ((k - 1) / cutoff).
Definition cut_k_exp (m : Model) (I : Internal) (ns : list R) : res (nat -> nat -> R) :=
  let! k := k_exp m I ns in Ok (fun s b => cut (m_cutoff m) (k s b)).

(** core.py:689-690: the yields of sample index s in all channels, before NP effects *)
Definition nominal_row (I : Internal) (rv : dict R) (s : nat) : res (list R) :=
  let! l := mapM (fun kc => match sample_at (snd kc) s with
                            | Some sm => sample_yields sm rv
                            | None => Ok (repeat 0 (nbins (snd kc)))
                            end) (i_channels I) in
  Ok (concat l).

(** core.py:674-692 n_exp: [sample][bin].  Rows of different sizes cannot be stacked, and must match the modifiers
    (numpy would also accept rows of size one). *)
Definition n_exp (m : Model) (I : Internal) (ps ns : list R) : res (nat -> nat -> R) :=
  let! rv := model_real_vals m (i_pm I) ps in
  let! rows := mapM (nominal_row I rv) (seq 0 (i_nsamples I)) in
  if (i_nsamples I =? 0)%nat then Err ValueError
  else if negb (forallb (fun r => (length r =? i_nbins I)%nat) rows) then Err ValueError
  else let! k := cut_k_exp m I ns in
       Ok (fun s b => nth b (nth s rows []) 0 * k s b).

(** core.py:726-740 tot_bin_exp, with an optional floor for the Poisson bins *)
Definition tot_bin_exp (m : Model) (I : Internal) (ps ns : list R) (floor : option R) : res (nat -> R) :=
  let! n := n_exp m I ps ns in
  let tot := fun b => rsum (i_nsamples I) (fun s => n s b) in
  Ok (match floor with
      | None => tot
      | Some f => fun b => if (b <? i_nbins_p I)%nat then Rmax (tot b) f else tot b
      end).

(** core.py:694-723 channel_n_exp: the bins of one channel, from a vector over all bins *)
Definition channel_slice (I : Internal) (channel : string) (v : list R) : res (list R) :=
  let! off := dgetE channel (i_offsets I) in
  let! c := dgetE channel (i_channels I) in
  Ok (firstn (nbins c) (skipn off v)).

(** Python floats, for the likelihood only: real numbers, infinities and NaN *)
Inductive ext := Fin (x : R) | PInf | MInf | NaN.
Definition eadd (a b : ext) : ext :=
  match a, b with
  | NaN, _ | _, NaN => NaN
  | Fin x, Fin y => Fin (x + y)
  | PInf, MInf | MInf, PInf => NaN
  | PInf, _ | _, PInf => PInf
  | MInf, _ | _, MInf => MInf
  end.
(** c * a for a real number c *)
Definition emulr (c : R) (a : ext) : ext :=
  match a with
  | NaN => NaN
  | Fin x => Fin (c * x)
  | PInf => if Rltb 0 c then PInf else if Rltb c 0 then MInf else NaN
  | MInf => if Rltb 0 c then MInf else if Rltb c 0 then PInf else NaN
  end.
(** np.log of a real number, and of an extended one *)
Definition elog (x : R) : ext := if Rltb 0 x then Fin (ln x) else if Rltb x 0 then NaN else MInf.
Definition eloge (a : ext) : ext := match a with Fin x => elog x | PInf => PInf | MInf => NaN | NaN => NaN end.
(** numpy division *)
Definition ediv (a b : R) : ext :=
  if Reqb b 0 then (if Rltb 0 a then PInf else if Rltb a 0 then MInf else NaN) else Fin (a / b).
Fixpoint esum (n : nat) (f : nat -> ext) : ext := match n with O => Fin 0 | S n' => eadd (esum n' f) (f n') end.

(** np.linalg.multi_dot((a, H, b)) *)
Definition qform (n : nat) (h : mat) (a b : nat -> R) : R := rsum n (fun i => rsum n (fun j => a i * h i j * b j)).

(** the constraint matrix: diagonal *)
Definition cons_hess (I : Internal) : mat := fun i j => if (i =? j)%nat then nth i (i_cons I) 0 else 0.

(** core.py:1347-1400 Data: observed counts and auxiliary observables *)
Record Data := mkData { d_counts : list R; d_aux : list R }.

(** core.py:530 ref_yields, summed over samples as on lines 773 and 776 *)
Definition ref_yields (m : Model) (I : Internal) : res (nat -> R) :=
  let! n := n_exp m I (i_ref_pois I) (repeat 0 (length (pm_nps (i_pm I)))) in
  Ok (fun b => rsum (i_nsamples I) (fun s => n s b)).

(** core.py:742-787 nll; Infinity is PInf.  A NaN result becomes Infinity (780).  The expected yields are computed
    outside the try block. *)
Definition nll (m : Model) (I : Internal) (ps ns : list R) (data : Data) (offset : bool) (floor : option R)
    (no_constraints : bool) : res ext :=
  let! ntot := tot_bin_exp m I ps ns floor in
  let! ref := ref_yields m I in
  let n := fun b => nth b (d_counts data) 0 in
  let Np := i_nbins_p I in
  let dg := fun i => ntot (Np + i)%nat - n (Np + i)%nat in
  let pois_part := esum Np (fun b =>
      if offset then eadd (Fin (ntot b - ref b)) (emulr (- n b) (eloge (ediv (ntot b) (ref b))))
      else eadd (Fin (ntot b)) (emulr (- n b) (elog (ntot b)))) in
  let gauss_part :=
      if offset then 1 / 2 * qform (i_nbins_g I) (i_poi_hess I) (fun i => dg i + ref (Np + i)%nat) (fun i => dg i - ref (Np + i)%nat)
      else 1 / 2 * qform (i_nbins_g I) (i_poi_hess I) dg dg in
  let dn := fun p => nth p (d_aux data) 0 - nth p ns 0 in
  let P := length (pm_nps (i_pm I)) in
  let penalty := if no_constraints then 0 else 1 / 2 * qform P (cons_hess I) dn dn in
  let result := eadd (eadd pois_part (Fin gauss_part)) (Fin penalty) in
  Ok (match result with NaN => PInf | r => r end).

(** core.py:807-815: gradients of the yields of one sample index, [bin][poi] *)
Definition gradient_row (E : Env) (m : Model) (I : Internal) (rv : dict R) (s : nat) : res (list vec) :=
  let! l := mapM (fun kc => match sample_at (snd kc) s with
                            | Some sm => sample_gradient (e_fuel E) sm (keys (m_pois m)) (model_reals m) rv
                            | None => Ok (repeat (fun _ => 0) (nbins (snd kc)))
                            end) (i_channels I) in
  Ok (concat l).
Definition hessian_row (E : Env) (m : Model) (I : Internal) (rv : dict R) (s : nat) : res (list mat) :=
  let! l := mapM (fun kc => match sample_at (snd kc) s with
                            | Some sm => sample_hessian (e_fuel E) sm (keys (m_pois m)) (model_reals m) rv
                            | None => Ok (repeat (fun _ _ => 0) (nbins (snd kc)))
                            end) (i_channels I) in
  Ok (concat l).
(** np.divide(a, b, out=zeros, where=b!=0) *)
Definition div0 (a b : R) : R := if Reqb b 0 then 0 else a / b.

(** core.py:789-822 gradient.  Exceptions are caught and None returned: Err here. *)
Definition nll_gradient (E : Env) (m : Model) (I : Internal) (ps ns : list R) (data : Data) : res vec :=
  let! rv := model_real_vals m (i_pm I) ps in
  let! nexp := n_exp m I ps ns in
  let! gr := mapM (gradient_row E m I rv) (seq 0 (i_nsamples I)) in
  if negb (forallb (fun r => (length r =? i_nbins I)%nat) gr) then Err ValueError else
  let! k := cut_k_exp m I ns in
  let ntot := fun b => rsum (i_nsamples I) (fun s => nexp s b) in
  let gtot := fun b a => rsum (i_nsamples I) (fun s => nth b (nth s gr []) (fun _ => 0) a * k s b) in
  Ok (fun a => rsum (i_nbins I) (fun b => gtot b a - div0 (gtot b a) (ntot b) * nth b (d_counts data) 0)).

(** core.py:824-866 hessian *)
Definition nll_hessian (E : Env) (m : Model) (I : Internal) (ps ns : list R) (data : Data) : res mat :=
  let! rv := model_real_vals m (i_pm I) ps in
  let! nexp := n_exp m I ps ns in
  let! gr := mapM (gradient_row E m I rv) (seq 0 (i_nsamples I)) in
  let! hr := mapM (hessian_row E m I rv) (seq 0 (i_nsamples I)) in
  if negb (forallb (fun r => (length r =? i_nbins I)%nat) gr) then Err ValueError else
  if negb (forallb (fun r => (length r =? i_nbins I)%nat) hr) then Err ValueError else
  let! k := cut_k_exp m I ns in
  let ntot := fun b => rsum (i_nsamples I) (fun s => nexp s b) in
  let gtot := fun b a => rsum (i_nsamples I) (fun s => nth b (nth s gr []) (fun _ => 0) a * k s b) in
  let htot := fun b a c => rsum (i_nsamples I) (fun s => nth b (nth s hr []) (fun _ _ => 0) a c * k s b) in
  Ok (fun a c => rsum (i_nbins I) (fun b =>
        htot b a c - (div0 (htot b a c) (ntot b) - div0 (gtot b a) (ntot b) * div0 (gtot b c) (ntot b)) * nth b (d_counts data) 0)).

(** core.py:1136-1151 generate_asimov (with 1386-1448 set_data on a non-empty vector of model size) *)
Definition generate_asimov (m : Model) (I : Internal) (ps ns : list R) : res Data :=
  let! t := tot_bin_exp m I ps ns None in
  Ok (mkData (map t (seq 0 (i_nbins I))) ns).
