(** Versions in the other files of a folder, and tables that are not read. *)
From Verif Require Import PyBase PyStr PyText OutModel OutSpec.
Open Scope nat_scope.

(* a line with a D1SUNED version as the dump files write it *)
Definition D1SVer (v l : str) : Prop := exists a b, l = a ++ s2l "d1suned  ver=" ++ v ++ b /\ ~ Mentions (s2l "d1suned  ver=") a /\ all_digits v /\ not_starting_digit b.
(* a line without version *)
Definition silent (l : str) : Prop := ~ Mentions (s2l "d1suned  ver=") l /\ ~ Mentions (s2l "MCNP_") l.
(* an output file whose own lines do not give a version *)
Definition no_version (lines : list str) : Prop := Forall no_d1s (firstn 34 lines) /\ forall l r, lines = l :: r -> ~ Mentions (s2l "MCNP_") l.
(* the three rows of the first table of a tally *)
Definition RowsAt (t : Z) (lines : list str) (a b c : str) : Prop :=
  exists i, (exists l, nth_error lines i = Some l /\ TitleOf t l) /\ (forall j l, j < i -> nth_error lines j = Some l -> ~ TitleOf t l)
  /\ nth_error lines (i + 5) = Some a /\ nth_error lines (i + 6) = Some b /\ nth_error lines (i + 7) = Some c.
