(** C131: how the mass of a material is shared by its elements. *)
From Coq Require Import ZArith.
From Verif Require Import PyBase PyStr PyText LibModel LibSpec MatModel MatSpec MatLifeModel.
Open Scope nat_scope.

(** every zaid is of an element with a number *)
Definition of_elements (m : material) : Prop := forall z, In z (all_zaids m) -> exists n, parse_int (z_elem z) = Ok n.
Definition of_element (n : Z) (z : zaid) : bool := match parse_int (z_elem z) with Ok k => Z.eqb k n | Err _ => false end.
Definition has_element (m : material) (n : Z) : Prop := exists z, In z (all_zaids m) /\ parse_int (z_elem z) = Ok n.
(** the relative mass of a zaid: its mass fraction, or its atoms times their atomic mass *)
Definition grams (E : matenv) (m : material) (z : zaid) : Q :=
  if Qlt_le_dec (tot_fraction m) 0 then (- z_frac z)%Q else (z_frac z * massof E z)%Q.
Definition mass_of (E : matenv) (m : material) (n : Z) : Q := qsum (map (grams E m) (filter (of_element n) (all_zaids m))).
Definition mass_share (E : matenv) (m : material) (n : Z) : Q := (mass_of E m n / qsum (map (grams E m) (all_zaids m)))%Q.
(** all fractions are atom fractions, or all are mass fractions *)
Definition pure (m : material) : Prop := atom_material m \/ mass_material m.
(** a translation finds mass fractions, and an answer for every zaid; a switch finds all masses; a factor is positive *)
Fixpoint careful (nav : Q) (E : matenv) (m : material) (os : list mop) : Prop :=
  match os with
  | [] => True
  | o :: os' => match o with
                | MTranslate nl => wf_newlib nl /\ mass_material m /\ forall z, In z (all_zaids m) -> translatable E nl z
                | MScale k => (0 < k)%Q
                | _ => has_masses E m
                end /\ forall m', mstep nav E m o = Ok m' -> careful nav E m' os'
  end.
