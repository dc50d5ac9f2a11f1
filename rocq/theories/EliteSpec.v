(** C44: what extracting sectors of E-Lite should mean. *)
From Coq Require Import QArith Reals Qabs.
From Verif Require Import PyBase PyStr EliteModel.
Open Scope nat_scope.

(** ** sectors as arcs *)
Definition starts_at (s : sector) (a : Z) : Prop := exists b, In (s, (a, b)) sector_angles.
Definition ends_at (s : sector) (b : Z) : Prop := exists a, In (s, (a, b)) sector_angles.
(** the width of a sector, counterclockwise *)
Definition width_is (s : sector) (w : Z) : Prop := exists a b, In (s, (a, b)) sector_angles /\ w = ((b - a) mod 360)%Z.
(** each sector starts where the one before it ends *)
Inductive contiguous : list sector -> Prop :=
| ct_one s : contiguous [s]
| ct_cons s s' l a : ends_at s a -> starts_at s' a -> contiguous (s' :: l) -> contiguous (s :: s' :: l).
Definition known (s : sector) : Prop := In s sector_names.
(** the place of a sector: its number, 2 for the double one *)
Definition place (s : sector) (n : Z) : Prop := (s = SNum n /\ (n = 1 \/ 4 <= n <= 9)%Z) \/ (s = s23 /\ n = 2%Z).
(** the cells of E-Lite are numbered from 8000 to 8000 along the sectors; the first one of each is the plasma *)
Definition plasma_of (s : sector) (z : Z) : Prop := exists n, place s n /\ z = (419001 + 8000 * n)%Z.

(** the direction [t] (degrees, one turn counted from [a]) is strictly between [a] and [a + w] *)
Definition deg (t : R) : R := (t * PI / 180)%R.
Definition between (a w : Z) (t : R) : Prop := (IZR a < t < IZR a + IZR w)%R.
(** the side of a signed surface number on which a point lies *)
Definition sense (side : str -> bool) (z : Z) : bool := if (z <? 0)%Z then negb (side (str_of_Z (Z.abs z))) else side (str_of_Z (Z.abs z)).
(** [b] is the plane through the axis at angle [a], its positive side (as signed in the table) being counterclockwise / clockwise of it *)
Definition left_of (side : str -> bool) (b a : Z) (t : R) : Prop := sense side b = true <-> (0 < sin (deg (t - IZR a)))%R.
Definition right_of (side : str -> bool) (b a : Z) (t : R) : Prop := sense side b = true <-> (0 < sin (deg (IZR a - t)))%R.

(** ** planes *)
Definition dot3 (a b : vec3) : Q := let '(a1, a2, a3) := a in let '(b1, b2, b3) := b in (a1 * b1 + a2 * b2 + a3 * b3)%Q.
Definition neg3 (a : vec3) : vec3 := let '(a1, a2, a3) := a in ((- a1)%Q, (- a2)%Q, (- a3)%Q).
Definition near (tol : Q) (a b : vec3) : Prop :=
  let '(a1, a2, a3) := a in let '(b1, b2, b3) := b in (Qabs (a1 - b1) <= tol /\ Qabs (a2 - b2) <= tol /\ Qabs (a3 - b3) <= tol)%Q.
(** Moving the plane n.x = d to n.x = d + e shifts it by e n: it goes in the direction [out] *)
Definition goes (e : Q) (n out : vec3) : Prop := (0 < e * dot3 n out)%Q.

(** What is used of sine and cosine at an angle: signs, size, and the opposite direction *)
Record trig_at (sind cosd : Z -> Q) (tol : Q) (a : Z) : Prop := {
  tr_sin : (Qabs (sind a) <= 1)%Q; tr_cos : (Qabs (cosd a) <= 1)%Q;
  tr_one : (1 # 2 <= sind a * sind a + cosd a * cosd a)%Q;
  tr_pos : (-90 < a < 90 \/ 270 < a < 450)%Z -> (tol < cosd a)%Q;
  tr_neg : (90 < a < 270 \/ -270 < a < -90)%Z -> (cosd a < - tol)%Q }.

(** ** surfaces *)
(** [t] is [s] with a star put before its text *)
Definition starred (s t : surf) : Prop :=
  exists l r, s_text s = l :: r /\ t = mkSurf (s_num s) (s_type s) (s_coefs s) (s_tr s) (s_lines s) (("*"%char :: l) :: r).
(** the words of the lines of a card that are no comments *)
Definition card_words (s : surf) : list str := concat (map split (filter not_comment (s_lines s))).
(** [t] is [s] with the last number of its text increased by [e], up to the eight printed decimals *)
Definition moved_by (e : Q) (s t : surf) : Prop :=
  exists ws w d w' d', card_words s = ws ++ [w] /\ parse_float w = Ok d /\ card_words t = ws ++ [w'] /\ parse_float w' = Ok d' /\
    (Qabs (d' - (d + e)) <= 1 # 200000000)%Q /\ s_text t = s_lines t /\ s_num t = s_num s /\ s_type t = s_type s /\ s_coefs t = s_coefs s /\ s_tr t = s_tr s.

(** ** which planes count as boundaries *)
Section Planes.
  Variable sind cosd : Z -> Q.
  Variable cosq : Q -> Q.
  Variable norm : vec3 -> Q.
  Definition veq (a b : vec3) : Prop := let '(a1, a2, a3) := a in let '(b1, b2, b3) := b in (a1 == b1 /\ a2 == b2 /\ a3 == b3)%Q.
  (** the plane p.x = d of a surface card, in its own coordinates *)
  Inductive plane_card (s : surf) : vec3 -> Q -> Prop :=
  | pc_p a b c d r : s_type s = s2l "p" -> s_coefs s = a :: b :: c :: d :: r -> plane_card s (a, b, c) d
  | pc_px d r : s_type s = s2l "px" -> s_coefs s = d :: r -> plane_card s (1, 0, 0)%Q d
  | pc_py d r : s_type s = s2l "py" -> s_coefs s = d :: r -> plane_card s (0, 1, 0)%Q d
  | pc_pz d r : s_type s = s2l "pz" -> s_coefs s = d :: r -> plane_card s (0, 0, 1)%Q d.
  Definition unit_vector (p u : vec3) : Prop :=
    ~ (norm p == 0)%Q /\ let '(a, b, c) := p in veq u ((a / norm p)%Q, (b / norm p)%Q, (c / norm p)%Q).
  (** the direction cosines of a transformation: the axes of the auxiliary system in the main one *)
  Definition axes (t : trans) : option (vec3 * vec3 * vec3) :=
    match (if t_star t then map cosq (t_values t) else t_values t) with
    | _ :: _ :: _ :: _ :: a :: b :: c :: d :: e :: f :: g :: h :: i :: _ => Some ((a, b, c), (d, e, f), (g, h, i))
    | _ => None
    end.
  Definition det3 (a b c : vec3) : Q :=
    let '(a1, a2, a3) := a in let '(b1, b2, b3) := b in let '(c1, c2, c3) := c in
    (a1 * (b2 * c3 - b3 * c2) - a2 * (b1 * c3 - b3 * c1) + a3 * (b1 * c2 - b2 * c1))%Q.
  (** [v] in the main system is the direction whose components along the axes are [u] *)
  Definition main_direction (ts : list (str * trans)) (s : surf) (u v : vec3) : Prop :=
    match s_tr s with
    | None => veq u v
    | Some n => exists t x y z, dget str_eqb (s2l "TR" ++ str_of_Z n) ts = Some t /\ axes t = Some (x, y, z) /\
        ~ (det3 x y z == 0)%Q /\ veq u (dot3 x v, dot3 y v, dot3 z v)
    end.
  (** the card is a plane with |d| within the tolerance whose unit normal is, up to the tolerance, the one of the
      half plane at angle [a] *)
  Definition at_boundary (tol : Q) (ts : list (str * trans)) (a : Z) (s : surf) : Prop :=
    exists p d u v, plane_card s p d /\ (Qabs d <= tol)%Q /\ unit_vector p u /\ main_direction ts s u v /\ near tol v ((- sind a)%Q, cosd a, 0%Q).
End Planes.
