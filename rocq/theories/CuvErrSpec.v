(** What a CUV file says about the volumes of the cells in the voxels, independently of how it is read *)
From Coq Require Import Reals.
From Verif Require Import PyBase PyStr MeshModel MeshSpec CuvErrModel.
Open Scope nat_scope.

(** a voxel as printed: its number (from 1) and its cells, each with the fraction of the voxel it fills *)
Record pvoxel := mkPV { pv_index : Z; pv_cells : list (Z * Q) }.
Definition Int (w : str) (z : Z) : Prop := parse_int w = Ok z.

(* "cell fraction ..." *)
Definition CellLine (c : Z * Q) (l : str) : Prop :=
  exists w0 w1 ws, split l = w0 :: w1 :: ws /\ Int w0 (fst c) /\ numeral w1 (snd c).
(* "index x y z volume ncell ..." *)
Definition HeadLine (v : pvoxel) (l : str) : Prop :=
  exists w0 w1 w2 w3 w4 w5 ws, split l = w0 :: w1 :: w2 :: w3 :: w4 :: w5 :: ws
    /\ Int w0 (pv_index v) /\ Int w5 (Z.of_nat (length (pv_cells v))).
(* the head, the cells, and a line of values and one of errors for each cell *)
Definition PVoxelText (v : pvoxel) : Txt := fun ls =>
  exists h cs vals, ls = h :: cs ++ vals /\ HeadLine v h /\ Forall2 CellLine (pv_cells v) cs
    /\ length vals = 2 * length (pv_cells v).
Definition PVoxels (vs : list pvoxel) : Txt := fun ls => exists ts, ls = concat ts /\ Forall2 PVoxelText vs ts.
(* lines of a file up to and including the one that announces the voxels *)
Definition Preamble (pre : file) : Prop :=
  exists before l, pre = before ++ [l] /\ mentions "INDEX" l /\ Forall (fun x => ~ mentions "INDEX" x) before.
(* no voxel starts here: the end of the file or an empty line *)
Definition Stops (rest : file) : Prop := rest = [] \/ exists l r, rest = l :: r /\ split l = [].

(** fractions of a volume *)
Definition Fraction (q : Q) : Prop := (0 < q)%Q /\ (q <= 1)%Q.

(** the last voxel printed under an index, and the fraction of a cell in it (the last one printed) *)
Definition last_with {A} (key : A -> Z) (k : Z) (l : list A) : option A := find (fun a => Z.eqb (key a) k) (rev l).

(** the relative standard deviation of the fraction of [points] independent points that fall in a part
    [p] of the volume: the number of hits is binomial, of mean points*p and variance points*p*(1-p) *)
Definition relative_deviation (p points : R) : R := (sqrt (points * p * (1 - p)) / (points * p))%R.
(** the error of a cell that fills a fraction [q]; [root] is the square root on floats *)
Definition error_value (root : Q -> Q) (points : Z) (q : Q) : Q := (root ((q - q * q) / inject_Z points) / q)%Q.
(* the cells fill fractions of the voxel *)
Definition Fractions (v : pvoxel) : Prop := Forall (fun c => Fraction (snd c)) (pv_cells v).

(** voxel (i, j, k) of a mesh of nx x ny x nz voxels: its place in the file (k fastest: see [CuvText] in
    MeshCuvSpec) and the number of the cell of the grid that shows it (i fastest: VTK) *)
Definition printed (ny nz i j k : nat) : nat := (i * ny + j) * nz + k.
Definition vtk_cell (nx ny i j k : nat) : nat := i + nx * (j + ny * k).
