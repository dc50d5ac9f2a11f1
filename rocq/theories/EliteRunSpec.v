(** C111: what the life of an Elite_Input object should look like. *)
From Coq Require Import QArith.
From Verif Require Import PyBase PyStr PyText LibModel MatModel InpModel InpSpec EliteModel EliteSpec EliteRunModel.
Open Scope nat_scope.

(** a cell of the input that is in no universe *)
Definition level0 (h : heap) (a : input) (z : Z) : Prop :=
  exists key l c, In (key, l) (i_cells a) /\ nth_error h l = Some c /\ parse_int key = Ok z /\ get_u c = None.
(** the file of the call can be read and, if the check is asked, lists exactly these cells *)
Definition accepted (h : heap) (a : input) (c : call) (t : rows) : Prop :=
  c_excel c = Ok t /\ (c_check c = true -> forall z, level0 h a z <-> In z (map snd t)).
(** a cell that the table puts in one of the sectors *)
Definition in_sectors (t : rows) (sectors : list sector) (z : Z) : Prop := exists s, In s sectors /\ In (s, z) t.
(** a surface of such a cell *)
Definition sector_surface (h : heap) (a : input) (t : rows) (sectors : list sector) (n : Z) : Prop :=
  exists key l c z k, In (key, l) (i_cells a) /\ nth_error h l = Some c /\ head (c_values c) = Some (z, k) /\ in_sectors t sectors z /\ In (n, Ksur) (c_values c).
(** what is looked for: the cells of the sectors, the outer cell, the graveyard *)
Definition wanted (t : rows) (sectors : list sector) (z : Z) : Prop := in_sectors t sectors z \/ z = 800%Z \/ z = 801%Z.
(** the cells that come with it: those excluded by "#" and those of the universes that fill *)
Inductive comes (h : heap) (a : input) (t : rows) (sectors : list sector) : Z -> Prop :=
| comes_wanted z : wanted t sectors z -> comes h a t sectors z
| comes_with y z : comes h a t sectors y -> needs h (i_cells a) true y z -> comes h a t sectors z.
(** a wanted cell is written without its universe, another as it is *)
Definition cell_written (t : rows) (sectors : list sector) (c c' : card) : Prop :=
  (forall z k, head (c_values c) = Some (z, k) -> wanted t sectors z -> c' = remove_u c) /\
  ((forall z k, head (c_values c) = Some (z, k) -> ~ wanted t sectors z) -> c' = c).
(** the four half planes: where the first sector starts, its opposite, where the last ends, its opposite *)
Definition half_planes (a0 a1 : Z) : list (nat * Z) := [(0, a0); (1, opposite a0); (2, a1); (3, opposite a1)].
Section Surf.
  Variable sind cosd : Z -> Q.
  Variable cosq : Q -> Q.
  Variable norm : vec3 -> Q.
  (** a surface on none of them is left; one on exactly one of them is starred when [l0], moved otherwise *)
  Definition treated (a0 a1 : Z) (tol : Q) (ts : list (str * trans)) (l0 : Prop) (s t : surf) : Prop :=
    ((forall k a, In (k, a) (half_planes a0 a1) -> ~ at_boundary sind cosd cosq norm tol ts a s) -> t = s) /\
    forall k a, In (k, a) (half_planes a0 a1) -> at_boundary sind cosd cosq norm tol ts a s ->
      (forall k' a', In (k', a') (half_planes a0 a1) -> at_boundary sind cosd cosq norm tol ts a' s -> (k', a') = (k, a)) ->
      (l0 -> starred s t) /\
      (~ l0 -> forall y ws w d, nth_error (s_coefs s) 1 = Some y -> card_words s = ws ++ [w] -> parse_float w = Ok d ->
         match ws with x :: _ => not_comment x = true | [] => False end ->
         moved_by (sgn (1 <? k) * sgn (quadrant a) * sgn (negb (Qle_bool y 0)) * 2 * tol)%Q s t).
End Surf.
