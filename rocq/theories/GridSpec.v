(** Where the points of a grid belong, independently of how they are computed *)
From Coq Require Import Reals.
From Verif Require Import PyBase GridModel.
Open Scope R_scope.

(** a cylinder with the given origin, unit axis and unit vector at which the angles start (right-handed): the place of the point with
    radius r, height z and angle t, in turns *)
Definition cyl_place (o a u : V) (r z t : R) : V :=
  addR o (addR (scaleR (r * cos (2 * PI * t)) u) (addR (scaleR (r * sin (2 * PI * t)) (crossR a u)) (scaleR z a))).
(** the vector divided by its length *)
Definition direction (v u : V) : Prop := exists c, 0 < c /\ v = scaleR c u /\ dotR u u = 1.
Definition less (p q : V) : V := addR p (scaleR (-1) q).
(** neither zero nor straight down *)
Definition not_down (a : V) : Prop := let '(x, y, z) := a in x <> 0 \/ y <> 0 \/ 0 < z.
(** the number of angular intervals drawn for one interval of the window *)
Definition pieces (n : nat) : nat := match n with 1 => 20 | 2 => 10 | _ => 1 end.

(** the radii drawn: the boundaries, but a first one within 1e-8 of zero is drawn at a hundredth of the second *)
Definition Radii (v r : list Q) : Prop :=
  length r = length v
  /\ forall i x, nth_error v i = Some x -> exists y, nth_error r i = Some y
       /\ (if (i =? 0)%nat then ((Qabs.Qabs x <= 1 # 10 ^ 8)%Q -> exists x', nth_error v 1 = Some x' /\ y == (1 # 100) * x')%Q /\ (~ (Qabs.Qabs x <= 1 # 10 ^ 8)%Q -> y = x)
           else y = x).
(** the angles, in turns: the boundaries (the first drawn at 0 when it is within 1e-8 of it, the last at 1 when within 1.001e-5), with one
    or two intervals cut into equal pieces, twenty in all *)
Definition first_turn (v : list Q) (i : nat) (x : Q) : Prop := i = 0%nat /\ (Qabs.Qabs x <= 1 # 10 ^ 8)%Q.
Definition last_turn (v : list Q) (i : nat) (x : Q) : Prop := S i = length v /\ (Qabs.Qabs (x - 1) <= 1001 # 10 ^ 8)%Q.
Definition Corrected (v c : list Q) : Prop :=
  length c = length v
  /\ forall i x, nth_error v i = Some x -> exists y, nth_error c i = Some y
       /\ (first_turn v i x -> y = 0%Q) /\ (last_turn v i x -> y = 1%Q) /\ (~ first_turn v i x -> ~ last_turn v i x -> y = x).
Definition Angles (v t : list Q) : Prop := exists c, Corrected v c
  /\ let n := (length v - 1)%nat in let m := pieces n in
     length t = S (m * n)
     /\ forall k s a b, nth_error c k = Some a -> nth_error c (S k) = Some b -> (s <= m)%nat ->
          exists y, nth_error t (k * m + s) = Some y /\ (y == a + inject_Z (Z.of_nat s) * ((b - a) / inject_Z (Z.of_nat m)))%Q.
(** the grid shows the cylinder with this origin, axis and starting vector *)
Definition Drawn (o a u : V) (vi vj vk : list Q) (g : pgrid) : Prop := exists r t, Radii vi r /\ Angles vk t
  /\ pg_dims g = (length vi, length t, length vj) /\ length (pg_points g) = (length vj * length t * length vi)%nat
  /\ forall i j k x y z, nth_error r i = Some x -> nth_error vj j = Some y -> nth_error t k = Some z ->
       nth_error (pg_points g) ((j * length t + k) * length vi + i) = Some (cyl_place o a u (Q2R x) (Q2R y) (Q2R z)).
