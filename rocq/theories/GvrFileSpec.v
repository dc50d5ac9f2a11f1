(** C133: tallies whose weight window can be held by a file, and the window a file holds *)
From Coq Require Import ZArith QArith.
From Verif Require Import PyBase PyStr MeshModel MeshSpec TrsfModel WWTextSpec GvrSpec.
Open Scope nat_scope.

Definition few (x : list Q) : Prop := (Z.of_nat (length x) < 100000)%Z.
Definition triple_ok (v : Q * Q * Q) : Prop := let '(x, y, z) := v in in_range x /\ in_range y /\ in_range z.
(** no number is beyond what a double holds (1e-999 to 1e998 here), no axis has 99999 intervals *)
Definition Printable (s : tally_text placement) (r : Q) : Prop :=
  let b := t_bounds s in
  few (bd_x1 b) /\ few (bd_x2 b) /\ few (bd_x3 b) /\ Forall in_range (bd_x1 b) /\ Forall in_range (bd_x2 b) /\ Forall in_range (bd_x3 b) /\
  (forall p, bd_trsf b = Some p -> triple_ok (pl_origin p) /\ triple_ok (pl_axis p) /\ (forall v, pl_vec p = Some v -> triple_ok v)) /\
  (forall m, (0 < m)%Q -> sizes s (fun nz ny nx => Peak nz ny nx (flux s) m) ->
     sizes s (fun nz ny nx => forall k j i, k < nz -> j < ny -> i < nx -> in_range (flux s k j i / m * (2 / (r + 1)))%Q)).
