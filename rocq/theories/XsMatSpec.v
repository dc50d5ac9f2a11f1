(** The cross section of a material: its specification. *)
From Coq Require Import Sorted.
From Verif Require Import PyBase PyStr OutSpec MatModel MatSpec AceModel AceSpec.
Open Scope nat_scope.

(* the atoms of each nuclide, up to a common factor: atom fractions, or mass fractions (negative) over the atomic masses *)
Definition Amounts (E : matenv) (m : material) (a : zaid -> Q) : Prop :=
  (atom_material m /\ forall z, a z = z_frac z) \/ (mass_material m /\ forall z, a z = (- z_frac z / massof E z)%Q).
(* the mean over the nuclides, each weighted by its atoms, of the values of the nuclide before it (C88), the last for the first *)
Definition mean_before (a : zaid -> Q) (f : str -> Q) (zaids : list zaid) : Q :=
  (qsum (map (fun p => a (snd p) * f (z_elem (fst p) ++ z_iso (fst p)))%Q (combine (before_each zaids) zaids)) / qsum (map a zaids))%Q.
Definition same_rows (a b : list (list Q)) : Prop := Forall2 (Forall2 Qeq) a b.
(* every nuclide is in the library, with increasing energies *)
Definition InLibrary (grid : str -> res (list Q)) (zaids : list zaid) (gs : list (list Q)) : Prop :=
  Forall2 (fun z g => grid (z_elem z ++ z_iso z) = Ok g /\ StronglySorted Qlt g) zaids gs.
