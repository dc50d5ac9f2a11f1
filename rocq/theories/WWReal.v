(** The real-number instance of the weight-window model, for [soften] and
    [add_particle] with real exponents (weight_window.py 301-359).  [rpow x s] is
    numpy's x ** s for x >= 0 (numpy gives 0 ** s = 0 for s > 0, 1 for s = 0; negative
    bases and 0 with a negative exponent are excluded by the theorems' hypotheses). *)
From Verif Require Import PyBase WWModel WWSpec.
From Coq Require Import Reals.
Open Scope R_scope.
Definition Rltb (a b : R) : bool := if Rlt_dec a b then true else false.
Definition Reqb (a b : R) : bool := if Req_EM_T a b then true else false.
Definition Rops : ops R := mkops R 0 1 Rmult Rdiv Rltb Reqb.
Definition rpow (x s : R) : R :=
  if Req_EM_T x 0 then (if Req_EM_T s 0 then 1 else 0) else Rpower x s.
(** every value of the window is non-negative *)
Definition rnonneg (v : pvals R) : Prop := forall p e x y, at_ v p e x = Some y -> 0 <= y.
