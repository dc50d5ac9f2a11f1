(** Small independent vocabulary for the weight-window properties: voxels of a 3D
    array, face neighbours, ratio of two numbers. *)
From Verif Require Import PyBase.
Open Scope Q_scope.

Definition pos := (nat * nat * nat)%type.                 (* (k, j, i) *)
Definition voxel {A} (a : list (list (list A))) (p : pos) : option A :=
  match p with (k, j, i) =>
    match nth_error a k with
    | Some pl => match nth_error pl j with Some row => nth_error row i | None => None end
    | None => None
    end
  end.

(** [a] has shape (nz, ny, nx). *)
Definition rect {A} (nz ny nx : nat) (a : list (list (list A))) : Prop :=
  length a = nz /\ Forall (fun pl => length pl = ny /\ Forall (fun row => length row = nx) pl) a.

(** Face neighbours: exactly one index differs, by one. *)
Definition next (m n : nat) : Prop := m = S n \/ n = S m.
Definition adjacent (p q : pos) : Prop :=
  match p, q with (k, j, i), (k', j', i') =>
    (k = k' /\ j = j' /\ next i i') \/ (k = k' /\ next j j' /\ i = i') \/ (next k k' /\ j = j' /\ i = i')
  end.

Definition nonneg (a : list (list (list Q))) : Prop := forall p v, voxel a p = Some v -> 0 <= v.

(** larger over smaller of two positive numbers *)
Definition pair_ratio (a b : Q) : Q := if Qle_bool a b then b / a else a / b.

(** [r] is the ratio of voxel [p]: the largest pair ratio of the voxel with a positive
    face neighbour; 1 if there is none (or if the voxel is not positive). *)
Definition is_ratio (a : list (list (list Q))) (p : pos) (r : Q) : Prop :=
  1 <= r /\
  (forall q v b, adjacent p q -> voxel a p = Some v -> voxel a q = Some b -> 0 < v -> 0 < b ->
     pair_ratio v b <= r) /\
  (r == 1 \/ exists q v b, adjacent p q /\ voxel a p = Some v /\ voxel a q = Some b /\ 0 < v /\ 0 < b /\
     r == pair_ratio v b).

(** What [ww.values[p][e][k, j, i]] (or [ww.ratios...]) returns; [None] when the
    particle, energy or voxel does not exist. *)
From Verif Require Import WWModel.
Definition at_ {A} (v : pvals A) (p : particle) (e : Q) (x : pos) : option A :=
  match dget particle_eqb p v with
  | Some b => match dget Qeq_bool e b with Some a => voxel a x | None => None end
  | None => None
  end.

(** every array of the window has the shape of the mesh *)
Definition shaped {A} (nz ny nx : nat) (v : pvals A) : Prop :=
  Forall (fun pb => Forall (fun ea => rect nz ny nx (snd ea)) (snd pb)) v.
Definition nonneg_pv (v : pvals Q) : Prop := forall p e x y, at_ v p e x = Some y -> 0 <= y.

(** the exposed ratios are those of the exposed values *)
Definition consistent {A} (O : ops A) (w : ww A) : Prop := rats w = calculate_ratios O (vals w).

(** pairwise different energies (as numbers) *)
Definition distinct_energies (l : list Q) : Prop := ForallOrdPairs (fun a b => ~ a == b) l.

(** A window holds neutrons, or neutrons and photons, in that order. *)
Definition standard {A} (v : pvals A) : Prop :=
  (exists b, v = [(Neutron, b)]) \/ (exists b c, v = [(Neutron, b); (Photon, c)]).

(** No two energies of a particle share their 2-decimal label. *)
Definition unique_labels {A} (v : pvals A) : Prop :=
  Forall (fun pb => NoDup (map e2 (dkeys (snd pb)))) v.

(** Parsed content of a file: one or two particles, pairwise different energies per
    particle, and exactly one value per energy and voxel. *)
Definition well_formed_nested {A} (ni nz ny nx : nat) (energies : list (list Q)) (values : list (list A)) : Prop :=
  (ni = 1 \/ ni = 2)%nat /\ (0 < nz)%nat /\ (0 < ny)%nat /\ (0 < nx)%nat /\
  length energies = ni /\ length values = ni /\
  Forall distinct_energies energies /\
  Forall2 (fun es vs => length vs = length es * nz * ny * nx)%nat energies values.


(** position of a particle's block in the file *)
Definition pcode (p : particle) : nat := match p with Neutron => 0 | Photon => 1 end.

(** {energy: array} of one particle *)
Definition ebin_at (b : ebin Q) e x := match dget Qeq_bool e b with Some a => voxel a x | None => None end.

(** same particles, energies and voxels, equal numbers *)
Definition same_at (v v' : pvals Q) : Prop := forall p e x,
  match at_ v p e x, at_ v' p e x with Some a, Some b => a == b | None, None => True | _, _ => False end.


(** current values and ratios are what the grid shows under their label *)
Definition grid_ok {A} (O : ops A) (w : ww A) : Prop :=
  unique_labels (vals w) ->
  forall p b e a, In (p, b) (vals w) -> In (e, a) b ->
    dget gname_eqb (GVal p (e2 e)) (gr w) = Some (grid_array (ge w) a) /\
    dget gname_eqb (GRatio p (e2 e)) (gr w) = Some (grid_array (ge w) (calc_ratios O a)) /\
    dget gname_eqb (GMax p) (gr w) = Some (grid_array (ge w) (max_over O (map (calc_ratios O) (dvals b)))).


(** The cells of the exported grid that show voxel (k, j, i) of an nz*ny*nx mesh:
    x runs fastest, then y, then z; in a cylindrical grid whose theta intervals (axis 0)
    were subdivided by m, theta runs before z (axis 1). *)
Definition shown (g : geom) (nz ny nx : nat) (p : pos) (c : nat) : Prop :=
  match p with (k, j, i) =>
    match g with
    | Cartesian => c = ((k * ny + j) * nx + i)%nat
    | Cylindrical m => exists s, (s < m)%nat /\ c = ((j * (nz * m) + (k * m + s)) * nx + i)%nat
    end
  end.
