(** Independent description of the WW file format's mesh vectors (MCNP manual, as
    quoted in the docstring utils.py 18-23): first point, then for each coarse
    interval its number of fine intervals, its end point and the filler 1. *)
From Verif Require Import PyBase.
Open Scope Q_scope.

Definition b2_tail (rest : list (Z * Q)) : list Q :=
  flat_map (fun nc => [inject_Z (fst nc); snd nc; 1]) rest.
Definition b2_layout (c0 : Q) (rest : list (Z * Q)) : list Q := c0 :: b2_tail rest.

(** Two vectors are equal when they have the same length and the same numbers. *)
Definition qlist_eq (l l' : list Q) : Prop := Forall2 Qeq l l'.

(** Index, in the fine mesh, of coarse point number [i]. *)
Fixpoint fine_index (fine : list Z) (i : nat) : nat :=
  match i, fine with
  | S i', n :: ns => (Z.to_nat n + fine_index ns i')%nat
  | _, _ => 0%nat
  end.

Definition strictly_increasing (l : list Q) : Prop :=
  forall i a b, nth_error l i = Some a -> nth_error l (S i) = Some b -> a < b.

(** Total number of fine intervals. *)
Definition zsum (l : list Z) : Z := fold_right Z.add 0%Z l.
