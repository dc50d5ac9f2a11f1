(** Specification vocabulary for C116. *)
From Coq Require Import Qabs.
From Verif Require Import PyBase PyStr D1SModel EqModel.
Open Scope nat_scope.

(** a text that float() accepts *)
Definition numeric (s : str) : Prop := exists q, parse_float s = Ok q.
(** two texts of the same number *)
Definition same_number (s t : str) : Prop := exists p q, parse_float s = Ok p /\ parse_float t = Ok q /\ p == q.
Definition numeric_irr (i : irr) : Prop := numeric (i_lambda i) /\ Forall numeric (i_times i).
(** the two mesh vectors have the same number of points, pairwise less than 1.5e-6 apart *)
Definition close_points (a b : list Q) : Prop := Forall2 (fun p q => Qabs (p - q) < 3 # 2000000)%Q a b.
