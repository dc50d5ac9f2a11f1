(** What a weight window made from a mesh tally is, independently of how it is computed *)
From Verif Require Import PyBase PyStr MeshModel MeshSpec TrsfModel.
Open Scope nat_scope.

(** the tally asked for: by its number, or the one with the smallest number *)
Definition Chosen {T} (ss : list (tally_text T)) (asked : Z) (s : tally_text T) : Prop :=
  In s ss /\ t_num s <> 0%Z
  /\ (asked = t_num s \/ asked = 0%Z /\ forall s', In s' ss -> (t_num s <= t_num s')%Z).
(** the angular slices of the window and the slice of the tally each one lies in: a first slice of a cylinder that ends beyond half
    a turn is cut there *)
Inductive Slices (cyl : bool) : list Q -> list Q -> (nat -> nat) -> Prop :=
| Uncut x : (cyl = true -> forall b, nth_error x 1 = Some b -> (b <= 1 # 2)%Q) -> Slices cyl x x (fun k => k)
| Cut a b x : cyl = true -> (1 # 2 < b)%Q -> Slices cyl (a :: b :: x) (a :: (1 # 2)%Q :: b :: x) pred.
(** [m] is the largest of the values *)
Definition Peak (nz ny nx : nat) (v : nat -> nat -> nat -> Q) (m : Q) : Prop :=
  (forall k j i, k < nz -> j < ny -> i < nx -> (v k j i <= m)%Q)
  /\ exists k j i, k < nz /\ j < ny /\ i < nx /\ (v k j i == m)%Q.
(** the flux of a tally: the values of its first time and energy bins *)
Definition flux {T} (s : tally_text T) (k j i : nat) : Q := fst (t_values s 0 0 k j i).
Definition sizes {T} (s : tally_text T) (P : nat -> nat -> nat -> Prop) : Prop :=
  let b := t_bounds s in P (intervals (bd_x3 b)) (intervals (bd_x2 b)) (intervals (bd_x1 b)).
(** at most one energy group (Energy bin boundaries: two numbers), some time, and an interval along each axis *)
Definition OneGroup {T} (s : tally_text T) : Prop :=
  let b := t_bounds s in
  x_vals (bd_t b) <> [] /\ x_vals (bd_e b) <> [] /\ length (x_vals (bd_e b)) <= 2
  /\ 2 <= length (bd_x1 b) /\ 2 <= length (bd_x2 b) /\ 2 <= length (bd_x3 b).
(** no negative flux, and some positive one *)
Definition SomeFlux {T} (s : tally_text T) : Prop :=
  sizes s (fun nz ny nx => (forall k j i, k < nz -> j < ny -> i < nx -> (0 <= flux s k j i)%Q)
                        /\ exists k j i, k < nz /\ j < ny /\ i < nx /\ (0 < flux s k j i)%Q).
(** a cylinder must be placed, and its axis not point down *)
Definition up (a : Q * Q * Q) : Prop := let '(x, y, z) := a in ~ (x == 0 /\ y == 0 /\ z <= 0)%Q.
Definition Placed (s : tally_text placement) : Prop :=
  bd_cyl (t_bounds s) = true -> exists p, bd_trsf (t_bounds s) = Some p /\ up (pl_axis p).
