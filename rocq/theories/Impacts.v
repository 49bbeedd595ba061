(** Model of PlotImpacts.impacts (src/fastprof/plot_tools.py 294-342), of PlotImpacts.plot (234-258) and of the command-line program src/fastprof_utils/plot_impacts.py.
    The drawing itself (matplotlib) and the printing are not modelled: the figures are taken to be drawn and saved without error, and their files are not described.
    The debugging files written at a verbosity above 3 are not modelled. *)
From Verif Require Import Py Base Expressions Norms Sample Channels Params Core CoreMore NpMin PoiMin ModelIO ModelTools UtilTools FileIO Commands.
Local Open Scope string_scope.
Local Open Scope list_scope.
Local Open Scope R_scope.

(** A minimizer after its creation, as impacts uses it: minimize of a dataset, then the attribute min_pars *)
Definition fitter := Model * Internal -> Data -> res Params.
(** its method clone, called with one argument (a Parameters object).  This method has no argument in all the minimizers of the package (minimizers.py 299, 479, 565):
    TypeError.  Other classes given by the user may accept it. *)
Definition cloner := Params -> res fitter.
Definition package_clone : cloner := fun _ => Err TypeError.

(** 338-341 the entry of a parameter *)
Record Impact := mkImpact { im_name : string; im_pos : R; im_neg : R; im_best : R }.

(** np.delete(array, i) *)
Definition delete_at (i : nat) (l : list R) : res (list R) :=
  if (i <? length l)%nat then Ok (firstn i l ++ skipn (S i) l) else Err IndexError.

(** model_tools.py 520-541 remove_nps with clone_model=True *)
Definition remove_nps_of_clone (E : Env) (rmatch : string -> string -> bool) (m : Model) (pv : dict (option R)) : res (Model * Internal) :=
  let! mi := model_clone E m (Some (m_name m ++ "_pruned")%string) in remove_nps E rmatch mi pv.

(** 322-324, and the same in 325-327: the model without the parameter [n], which is set to [v], the fit of this model, and the POI at the minimum *)
Definition varied_fit (E : Env) (rmatch : string -> string -> bool) (cl : cloner) (m : Model) (d : Data) (aux : list R) (n : string) (v : R) (poi : string) : res R :=
  let! mi := remove_nps_of_clone E rmatch m [(n, Some v)] in
  let! ref := pars_clone (mkPars (i_ref_pois (snd mi)) (repeat 0 (length (pm_nps (i_pm (snd mi))))) (Some (i_pm (snd mi)))) in
  let! fit := cl ref in
  let! d' := data_init (fst mi) (snd mi) (d_counts d) aux in
  let! p := fit mi d' in
  pars_get p poi.

(** 316-341 one parameter; the index of a parameter is its position among the NPs *)
Definition impact_of (E : Env) (rmatch : string -> string -> bool) (cl : cloner) (m : Model) (d : Data) (best : Params) (poi : string) (key : string) : res Impact :=
  let! par := dgetE key (m_nps m) in
  let! n := name_of (np_name par) in
  let! aux := match index key (keys (m_nps m)) with Some i => delete_at i (d_aux d) | None => Err KeyError end in
  let! x := pars_get best n in
  let! nom := match np_nominal par with Some v => Ok v | None => Err TypeError end in
  let! up := varied_fit E rmatch cl m d aux n (unscaled_value nom (np_variation par) (x + 1)) poi in
  let! dn := varied_fit E rmatch cl m d aux n (unscaled_value nom (np_variation par) (x - 1)) poi in
  let! mu := pars_get best poi in
  Ok (mkImpact n (up - mu) (dn - mu) x).

(** 342 sorted(..., reverse=True): decreasing, entries of equal keys stay in their order *)
Definition size_of (i : Impact) : R := Rabs (im_pos i - im_neg i) / 2.
Fixpoint place (x : Impact) (l : list Impact) : list Impact :=
  match l with [] => [x] | y :: l' => if Rltb (size_of x) (size_of y) then y :: place x l' else x :: l end.
Fixpoint by_size (l : list Impact) : list Impact := match l with [] => [] | x :: l' => place x (by_size l') end.

(** 294-342 impacts; [pars] None stands for all the NPs *)
Definition impacts (E : Env) (rmatch : string -> string -> bool) (fit : fitter) (cl : cloner) (mi : Model * Internal) (d : Data) (poi : string) (pars : option (list string)) : res (dict Impact) :=
  let! p := fit mi d in
  let! best := pars_clone p in
  let! l := mapM (impact_of E rmatch cl (fst mi) d best poi) (match pars with Some l => l | None => keys (m_nps (fst mi)) end) in
  Ok (fold_left (fun acc i => dset (im_name i) i acc) (by_size l) []).

(** 202-214 the default minimizer OptiMinimizer(verbosity), with which min_pars is None if the likelihood was never evaluated *)
Definition opti_fitter (L : Model -> Internal -> Data -> FitEnv) (verbosity : Z) : fitter := fun mi d =>
  let! (_, s) := minimize (fst mi) (snd mi) (L (fst mi) (snd mi) d) (mini_init "scalar" 1 (Some (/ 10000000)) 0 None false verbosity) None in
  match mi_min_pars s with Some p => Ok p | None => Err AttributeError end.

(** 256-258 the file of the impacts *)
Definition impact_json (i : Impact) : jv := JObj [("name", JStr (im_name i)); ("pos_impact", JFlt (im_pos i)); ("neg_impact", JFlt (im_neg i)); ("best_fit", JFlt (im_best i))].
Definition impacts_json (d : dict Impact) : dict jv := map (fun ki => (fst ki, impact_json (snd ki))) d.

(** 234-258 plot with an output prefix: all the impacts are written, whatever the number of NPs plotted *)
Definition save_impacts (C : Codec) (w : string -> bool) (output : string) (l : dict Impact) : list fsop * option exn :=
  save_ops C w (output ++ "_impacts.json")%string (Some "json") (impacts_json l).

(** plot_impacts.py 21-30 the options *)
Record ImpOpts := mkIO { io_model : string; io_data : option string; io_out : string; io_poi : string; io_verbosity : Z }.
(** plot_impacts.py 41 the output name without '.json' *)
Definition impact_prefix (out : string) : string :=
  if String.eqb (substring (String.length out - 5) 5 out) ".json" then substring 0 (String.length out - 5) out else out.
(** plot_impacts.py 42-47 the dataset *)
Definition impact_source (o : ImpOpts) : string := match io_data o with Some f => if String.eqb f "" then io_model o else f | None => io_model o end.
(** plot_impacts.py 32-51 run, with the operations on the markup files and the exception that ends it, if any *)
Definition impacts_run (L : Model -> Internal -> Data -> FitEnv) (E : Env) (C : Codec) (w : string -> bool) (rmatch : string -> string -> bool) (o : ImpOpts) (f : fs) : list fsop * option exn :=
  match (let! mi := model_create E C f (io_model o) in
         let! d := data_create C f mi (impact_source o) in
         impacts E rmatch (opti_fitter L (io_verbosity o)) package_clone mi (fst d) (io_poi o) None) with
  | Err e => ([], Some e)
  | Ok l => save_impacts C w (impact_prefix (io_out o)) l
  end.
