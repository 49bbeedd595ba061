(** Model of the toy samplers, src/fastprof/samplers.py.

    The outcomes of the successive toy computations (data generation followed by [compute]) are a stream: [out k] is the
    result of the k-th computation of the run, None for a failed one.  Printing is not modelled.  Fuel counts the
    computations: a run without a result for any fuel does not terminate. *)
From Verif Require Import Py Base Expressions Norms Sample Channels Params Core NpMin PoiMin TestStat.
Local Open Scope string_scope.
Local Open Scope list_scope.

Definition stream := nat -> option R.

(** samplers.py:120-134, the loop over attempts for one toy: [tries] is self.ntries, [total] is ntotal. The two branches
    of a failure (lines 130 to 133) only print a message: both continue. *)
Fixpoint attempts (fuel : nat) (out : stream) (max_tries tries total : nat) : option (R * nat) :=
  match fuel with
  | 0%nat => None
  | S f => match out total with
           | Some r => Some (r, S total)
           | None => if (S tries <? max_tries)%nat then attempts f out max_tries (S tries) (S total) else attempts f out max_tries (S tries) (S total)
           end
  end.
(** samplers.py:115-135, the loop over the toys *)
Fixpoint toys (fuel : nat) (out : stream) (max_tries ntoys total : nat) : option (list R * nat) :=
  match ntoys with
  | 0%nat => Some ([], total)
  | S n => match attempts fuel out max_tries 0 total with
           | None => None
           | Some (r, total') => match toys fuel out max_tries n total' with
                                 | None => None
                                 | Some (l, t) => Some (r :: l, t)
                                 end
           end
  end.

(** What generate needs of a sampler: the attribute max_tries, and whether the attribute debug exists *)
Record Sampler := mkSampler { sm_max_tries : nat; sm_has_debug : bool }.
(** samplers.py:93-138 generate: the value is None while the run has not ended.  self.debug is read for every attempt. *)
Definition generate (fuel : nat) (s : Sampler) (out : stream) (ntoys : nat) : res (option (list R * nat)) :=
  if ((0 <? ntoys)%nat && negb (sm_has_debug s))%bool then Err AttributeError else Ok (toys fuel out (sm_max_tries s) ntoys 0).

(** samplers.py:65-82 Sampler.__init__ with max_tries = 20 by default; 196-236 OptiSampler.__init__ does not pass its
    argument on; 340-364 ScanSampler.__init__ and 420-436 LimitSampler.__init__ do not define debug *)
Definition sampler_init (max_tries : option nat) : Sampler := mkSampler (match max_tries with None => 20 | Some n => n end) false.
Definition opti_sampler (max_tries : nat) : Sampler := mkSampler (sm_max_tries (sampler_init None)) true.
Definition scan_sampler : Sampler := sampler_init None.
Definition limit_sampler : Sampler := sampler_init None.

(** samplers.py:238-304 OptiSampler.compute without debugging: [tmu] is the value of the minimizer (a number, see
    PoiMin.v), [fd] and [hd] its attributes free_deltas and hypo_deltas, [pv] the asymptotic p-value of the test
    statistic *)
Fixpoint test_bounds (bounds : list ParBound) (fd hd : Params) : res bool :=
  match bounds with
  | [] => Ok true
  | b :: l => let! x := pb_test b fd in if negb x then Ok false else
              let! y := pb_test b hd in if negb y then Ok false else test_bounds l fd hd
  end.
Definition opti_compute (bounds : list ParBound) (pv : ext -> res R) (tmu : ext) (fd hd : Params) : res (option R) :=
  if eltb tmu 0 then Ok None else
  let! ok := test_bounds bounds fd hd in
  if ok then let! p := pv tmu in Ok (Some p) else Ok None.
