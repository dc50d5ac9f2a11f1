(** C135: what the grid made from a tally of a meshtal file must show. *)
From Verif Require Import PyBase PyStr MeshModel MeshSpec TrsfModel FmeshModel FmeshSpec GvrModel.
Open Scope nat_scope.

(** [x] is the mesh, with its grid, that is made from the tally [s] of the file [f], all tallies being read *)
Definition Made (sn cs : Q -> Q) (old : nat -> nat -> nat -> nat -> nat -> file -> res arr) (f : file) (s : tally_text placement) (x : FmeshModel.fmesh (R := placement)) : Prop :=
  exists d r m, scan_meshfile f = Ok d /\ read_mesh (get_transformation true) old Every d = Some (Ok r)
    /\ dget Z.eqb (t_num s) r = Some m /\ fmesh_of sn cs m = Ok x.
(** every time and energy has its two arrays, which list the values and errors V with the first coordinate running fastest; there are no
    other arrays *)
Definition GridShows (g : grid) (nt ne nz ny nx : nat) (V : nat -> nat -> nat -> nat -> nat -> Q * Q) : Prop :=
  (forall t e, t < nt -> e < ne -> exists v er,
     dget str_eqb (label (s2l "Value - Total") nt ne t e) (g_arrays g) = Some v /\ length v = nz * ny * nx
     /\ dget str_eqb (label (s2l "Error - Total") nt ne t e) (g_arrays g) = Some er /\ length er = nz * ny * nx
     /\ forall k j i, k < nz -> j < ny -> i < nx ->
          nth_error v ((k * ny + j) * nx + i) = Some (fst (V t e k j i)) /\ nth_error er ((k * ny + j) * nx + i) = Some (snd (V t e k j i)))
  /\ length (g_arrays g) = 2 * (nt * ne) /\ NoDup (map fst (g_arrays g)).
