(** C123: the scale of a plot. *)
From Coq Require Import ZArith QArith.
From Verif Require Import PyBase PyStr.
(* ten to the power [z], [z] any whole number *)
Definition ten (z : Z) : Q := Qpower (10 # 1) z.
(* the colours go from 10^lo to 10^hi *)
Definition on_scale (lo hi : Z) (v : Q) : Prop := (ten lo <= v <= ten hi)%Q.
