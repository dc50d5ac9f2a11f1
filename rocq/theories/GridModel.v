(** Model of the grids of weight windows, src/f4enix/input/ww_gvr/meshgrids.py and geometry.py 59-69, 133-138.  The mesh vectors
    are exact rationals, the points real numbers (single precision of create_cartesian_grid, 43-46, is not modelled).  A grid is its
    dimensions and its points in the order of vtk: first index fastest. *)
From Coq Require Import Reals Qabs.
From Verif Require Import PyBase B2Model.
Open Scope R_scope.

Definition V := (R * R * R)%type.
Definition dotR (a b : V) : R := let '(a1, a2, a3) := a in let '(b1, b2, b3) := b in a1 * b1 + a2 * b2 + a3 * b3.
Definition crossR (a b : V) : V := let '(a1, a2, a3) := a in let '(b1, b2, b3) := b in (a2 * b3 - a3 * b2, a3 * b1 - a1 * b3, a1 * b2 - a2 * b1).
Definition addR (a b : V) : V := let '(a1, a2, a3) := a in let '(b1, b2, b3) := b in (a1 + b1, a2 + b2, a3 + b3).
Definition scaleR (c : R) (a : V) : V := let '(a1, a2, a3) := a in (c * a1, c * a2, c * a3).
(** np.linalg.norm *)
Definition normR (a : V) : R := sqrt (dotR a a).
Definition toR (a : Q * Q * Q) : V := let '(x, y, z) := a in (Q2R x, Q2R y, Q2R z).

(** meshgrids.py 198-200 _normalize_vector.  The zero vector gives nan in numpy: not modelled *)
Definition unitR (a : V) : V := scaleR (/ normR a) a.
(** 190-195 _angle_between, in radians (degrees there, which pyvista turns into radians) *)
Definition clip (x : R) : R := Rmin 1 (Rmax (-1) x).
Definition angle_between (a b : V) : R := acos (clip (dotR (unitR a) (unitR b))).
(** pyvista rotate_vector(vector, angle): nothing for an angle of zero, ValueError for the zero vector, and otherwise the rotation
    (Rodrigues) about the direction of the vector *)
Definition rodrigues (k : V) (t : R) (p : V) : V :=
  addR (scaleR (cos t) p) (addR (scaleR (sin t) (crossR k p)) (scaleR ((1 - cos t) * dotR k p) k)).
Definition rotate_vector (k : V) (t : R) (p : V) : res V :=
  if Req_EM_T t 0 then Ok p
  else if Req_EM_T (normR k) 0 then Err ValueError
  else Ok (rodrigues (unitR k) t p).
(** 147-156 _rotate_to_vec *)
Definition rotate_to_vec (vec p : V) : res V := rotate_vector (0, 0, 1) (angle_between (1, 0, 0) vec) p.
(** 158-167 _rotate_to_axis *)
Definition rotate_to_axis (axis p : V) : res V := rotate_vector (crossR (0, 0, 1) axis) (angle_between (0, 0, 1) axis) p.

(** 170-174 _correct_radius_vector; np.isclose(x, 0.0) is |x| <= 1e-8 *)
Definition correct_radius (v : list Q) : res (list Q) :=
  match v with
  | [] => Err IndexError
  | x :: v' => if Qle_bool (Qabs x) (1 # 10 ^ 8)
               then match v' with [] => Err IndexError | y :: _ => Ok ((y * (1 # 100))%Q :: v') end
               else Ok v
  end.
(** 177-186 _correct_theta_vector; np.isclose(x, 1.0) is |x - 1| <= 1e-8 + 1e-5 *)
Definition correct_theta (v : list Q) : res (list Q) :=
  match v with
  | [] => Err IndexError
  | x :: v' => let v1 := (if Qle_bool (Qabs x) (1 # 10 ^ 8) then 0%Q else x) :: v' in
               Ok (if Qle_bool (Qabs (last v1 0%Q - 1)%Q) (1001 # 10 ^ 8) then removelast v1 ++ [1%Q] else v1)
  end.
(** 112-125 _extend_theta_intervals and 85-87: one or two intervals become twenty, and a single value is refused *)
Definition extend_theta (v : list Q) : res (list Q) :=
  match v with
  | [a; b] => Ok (linspace a b 20)
  | [a; b; c] => Ok (linspace a b 10 ++ tl (linspace b c 10))
  | [_] => Err ValueError
  | _ => Ok v
  end.
(** 128-144 _create_cylindrical_grid_with_z_axis: the radius fastest, then the angle, then the height *)
Definition z_point (r z turns : R) : V := (cos (turns * 2 * PI) * r, sin (turns * 2 * PI) * r, z).
Record pgrid := mkPG { pg_dims : nat * nat * nat; pg_points : list V }.
(** 60-109 create_cylindrical_grid, with an origin, an axis and a vector, as geometry.py 65-69 calls it *)
Definition place_point (origin axis vec p : V) : res V :=
  do p1 <- rotate_to_vec vec p; do p2 <- rotate_to_axis axis p1; Ok (addR p2 origin).
Definition cylindrical_grid (vi vj vk : list Q) (origin axis vec : V) : res pgrid :=
  do ri <- correct_radius vi;
  do tk <- correct_theta vk;
  do tk <- extend_theta tk;
  do ps <- mapM (place_point origin axis vec)
             (concat (map (fun z => concat (map (fun t => map (fun r => z_point (Q2R r) (Q2R z) (Q2R t)) ri) tk)) vj));
  Ok (mkPG (length ri, length tk, length vj) ps).
(** 25-53 create_cartesian_grid *)
Definition cartesian_grid (vi vj vk : list Q) (origin : V) : pgrid :=
  mkPG (length vi, length vj, length vk)
       (concat (map (fun z => concat (map (fun y => map (fun x => addR (Q2R x, Q2R y, Q2R z) origin) vi) vj)) vk)).
(** geometry.py 59-69 _create_grid, for the three mesh vectors; without directors the window is cartesian *)
Definition window_grid (vi vj vk : list Q) (origin : V) (dirs : option (V * V)) : res pgrid :=
  match dirs with None => Ok (cartesian_grid vi vj vk origin) | Some (d1, d2) => cylindrical_grid vi vj vk origin d1 d2 end.
(** geometry.py 135-136: grid.n_cells // total_ints *)
Definition cells (g : pgrid) : nat := let '(a, b, c) := pg_dims g in ((a - 1) * (b - 1) * (c - 1))%nat.
