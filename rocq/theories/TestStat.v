(** Model of src/fastprof/test_statistics.py : test statistics and their asymptotic p-values. *)
From Verif Require Import Py.

(** the functions of scipy.stats that are used: norm.sf, norm.isf and chi2.sf(x, n).  isf is +-infinity outside (0,1):
    NonFinite here. *)
Record Dist := mkDist { sf : R -> R; isf : R -> R; chi2sf : R -> nat -> R }.
Definition norm_isf (D : Dist) (p : R) : res R := if Rltb 0 p && Rltb p 1 then Ok (isf D p) else Err NonFinite.

(** test_statistics.py:116-184 TMu: test_poi_values, tmu *)
Record TMu := mkTMu { t_npois : nat; t_tmu : R }.
(** test_statistics.py 134-142 *)
Definition tmu_value (q : TMu) : R := t_tmu q.
(** test_statistics.py 144-157; [ts] is the optional argument *)
Definition tmu_pv (D : Dist) (q : TMu) (ts : option R) : R := chi2sf D (match ts with None => tmu_value q | Some t => t end) (t_npois q).
(** test_statistics.py 174-184: the normal quantile, not the chi2 one *)
Definition tmu_ts (D : Dist) (pv : R) : res R := norm_isf D pv.

(** test_statistics.py:187-229 QMu *)
Record QMu := mkQMu { q_test : R; q_tmu : R; q_best : R; q_comp : R; q_Amu : option R; q_sigma : option R }.
(** test_statistics.py 206-229 __init__ *)
Definition qmu_init (test tmu best : R) (comp Amu sigma : option R) : QMu :=
  mkQMu test tmu best (match comp with Some c => c | None => test end) Amu sigma.
(** test_statistics.py 241-250 value *)
Definition qmu_value (q : QMu) : R := if Rltb (q_best q) (q_comp q) then q_tmu q else - q_tmu q.
(** test_statistics.py 252-262 signed_sqrt *)
Definition signed_sqrt (x : R) : R := if Rleb 0 x then sqrt x else - sqrt (- x).
(** test_statistics.py 264-290 non_centrality_parameter *)
Definition ncp (q : QMu) : res R :=
  if Reqb (q_comp q) (q_test q) then Ok 0
  else match q_Amu q with
       | Some a => Ok (if Rltb a 0 then 0 else a)
       | None => match q_sigma q with
                 | Some s => if Reqb s 0 then Err ZeroDivisionError else Ok (((q_comp q - q_test q) / s) ^ 2)
                 | None => Err ValueError
                 end
       end.
(** test_statistics.py 292-305 asymptotic_pv *)
Definition qmu_pv (D : Dist) (q : QMu) (ts : option R) : res R :=
  let t := match ts with None => qmu_value q | Some t => t end in
  let! l := ncp q in Ok (sf D (signed_sqrt t - sqrt l)).
(** test_statistics.py 323-334 asymptotic_ts *)
Definition qmu_ts (D : Dist) (q : QMu) (pv : R) : res R :=
  let! z := norm_isf D pv in
  let! l := ncp q in
  let q1 := z + sqrt l in Ok (q1 * Rabs q1).
(** test_statistics.py 336-343 asymptotic_clb *)
Definition qmu_clb (D : Dist) (q : QMu) : res R :=
  qmu_pv D (qmu_init 0 (q_tmu q) (q_best q) (Some (q_comp q)) (q_Amu q) (q_sigma q)) None.
(** test_statistics.py 345-355 asymptotic_cls *)
Definition cls_of (clsb clb : R) : R := if Rltb 0 clb then clsb / clb else 1.
Definition qmu_cls (D : Dist) (q : QMu) : res R :=
  let! clsb := qmu_pv D q None in
  let! clb := qmu_clb D q in Ok (cls_of clsb clb).

(** test_statistics.py:358-401 QMuTilda *)
Record QMuTilda := mkQT { qt_base : QMu; qt_tmu_0 : R; qt_A0 : option R }.
Definition qmt_init (test tmu best : R) (tmu_0 comp Amu A0 : option R) : QMuTilda :=
  mkQT (qmu_init test tmu best comp Amu None) (match tmu_0 with Some t => t | None => tmu end) A0.
(** test_statistics.py 403-414 value *)
Definition qmt_value (q : QMuTilda) : R :=
  if Rltb (q_best (qt_base q)) 0 then qt_tmu_0 q
  else if Rltb (q_best (qt_base q)) (q_comp (qt_base q)) then q_tmu (qt_base q) else - q_tmu (qt_base q).
(** test_statistics.py 416-438 threshold *)
Definition threshold (q : QMuTilda) : res R :=
  match qt_A0 q with None => Err TypeError | Some a => Ok (if Rltb a 0 then 0 else a) end.
(** test_statistics.py 440-456 asymptotic_pv.  The division by a zero threshold: ZeroDivisionError (an infinity or NaN if [ts] is a numpy
    number). *)
Definition qmt_pv (D : Dist) (q : QMuTilda) (ts : option R) : res R :=
  let t := match ts with None => qmt_value q | Some t => t end in
  let! h := threshold q in
  if Rltb t h then qmu_pv D (qt_base q) (Some t)
  else if Reqb h 0 then Err ZeroDivisionError
  else let! l := ncp (qt_base q) in Ok (sf D ((t + h) / (2 * sqrt h) - sqrt l)).
(** test_statistics.py 477-491 asymptotic_ts *)
Definition qmt_ts (D : Dist) (q : QMuTilda) (pv : R) : res R :=
  let! z := norm_isf D pv in
  let! l := ncp (qt_base q) in
  let q1 := z + sqrt l in
  let! h := threshold q in
  Ok (if Rltb q1 h then q1 * Rabs q1 else q1 * 2 * sqrt h - h).
(** test_statistics.py 493-500 asymptotic_clb: tmu_0 is not passed *)
Definition qmt_clb (D : Dist) (q : QMuTilda) : res R :=
  qmt_pv D (qmt_init 0 (q_tmu (qt_base q)) (q_best (qt_base q)) None (Some (q_comp (qt_base q))) (qt_A0 q) (qt_A0 q)) None.
(** test_statistics.py 345-355, inherited *)
Definition qmt_cls (D : Dist) (q : QMuTilda) : res R :=
  let! clsb := qmt_pv D q None in
  let! clb := qmt_clb D q in Ok (cls_of clsb clb).

(** calculators.py:338-348 and 394-405 make_q of QMuCalculator and QMuTildaCalculator: [A0] is the tmu of the Asimov
    dataset of hypothesis 0 *)
Definition make_qmu (hypo tmu best A0 : R) : QMu := qmu_init hypo tmu best None (Some A0) None.
Definition make_qmt (hypo tmu best A0 : R) : QMuTilda := qmt_init hypo tmu best None None (Some A0) (Some A0).
(** calculators.py:350-373 and 407-431 fill_pv: value, p-value, CLs and CLb *)
Definition fill_pv_qmu (D : Dist) (q : QMu) : res (R * R * R * R) :=
  let! pv := qmu_pv D q None in let! cls := qmu_cls D q in let! clb := qmu_clb D q in Ok (qmu_value q, pv, cls, clb).
Definition fill_pv_qmt (D : Dist) (q : QMuTilda) : res (R * R * R * R) :=
  let! pv := qmt_pv D q None in let! cls := qmt_cls D q in let! clb := qmt_clb D q in Ok (qmt_value q, pv, cls, clb).
