(** What users are told about meshes, their grids, conversions and transformations *)
From Coq Require Import Qabs.
From Verif Require Import PyBase PyStr PyStrLemmas LibModel MeshModel FmeshModel.
Open Scope nat_scope.

(** ** selecting bins *)
(* the bin a user calls i: negative numbers count from the end *)
Definition BinNo (b : xbin) (i : Z) (n : nat) : Prop :=
  (Z.of_nat n < nbins b)%Z /\ (i = Z.of_nat n \/ (i < 0)%Z /\ (i + nbins b)%Z = Z.of_nat n).
(* the boundaries or the value of bin n; the last one is the total of all when there is a total *)
Definition BinVals (b : xbin) (n : nat) (vs : list Q) : Prop :=
  if totalbin b && (Z.of_nat (S n) =? nbins b)%Z
  then if binbound b then exists u v, vs = [u; v] /\ nth_error (x_vals b) 0 = Some u /\ nth_error (x_vals b) (length (x_vals b) - 1) = Some v
       else vs = [(-1)%Q]
  else if binbound b then exists u v, vs = [u; v] /\ nth_error (x_vals b) n = Some u /\ nth_error (x_vals b) (S n) = Some v
       else exists u, vs = [u] /\ nth_error (x_vals b) n = Some u.
(* the axis b' kept for a selection, and the old number of each of its bins *)
Definition Selects (b : xbin) (sel : option Z) (b' : xbin) (old : nat -> nat) : Prop :=
  match sel with
  | None => b' = b /\ forall n, old n = n
  | Some i => BinNo b i (old 0) /\ BinVals b (old 0) (x_vals b') /\ x_tag b' = x_tag b /\ nbins b' = 1%Z
  end.
Definition InRange (b : xbin) (sel : option Z) : Prop :=
  match sel with None => True | Some i => (- nbins b <= i < nbins b)%Z end.
(* the array has an entry exactly inside the shape *)
Definition Shaped (m : mdata) : Prop := forall t e k j i,
  (exists p, md_a m t e k j i = Some p) <-> (t < nt m /\ e < ne m /\ k < nx3 m /\ j < nx2 m /\ i < nx1 m).
Definition SameSpace (m m' : mdata) : Prop := md_cyl m' = md_cyl m /\ md_x1 m' = md_x1 m /\ md_x2 m' = md_x2 m /\ md_x3 m' = md_x3 m.

(** ** names of the arrays *)
Definition part (c : string) (n i : nat) : str := if 1 <? n then s2l c ++ (if S i =? n then s2l "Tot" else fmt03 (N.of_nat (S i))) else [].
Definition label (base : str) (nt ne t e : nat) : str := base ++ part "_t" nt t ++ part "_e" ne e.
Definition Unrelated (a b : str) : Prop := (forall s, b <> a ++ s) /\ (forall s, a <> b ++ s).
(* the values of one time and energy, x1 fastest: the order of the cells in the grid *)
Definition Listing (m : mdata) (t e : nat) (side : Q * Q -> Q) (l : list Q) : Prop :=
  length l = nx3 m * nx2 m * nx1 m /\ forall k j i p, k < nx3 m -> j < nx2 m -> i < nx1 m -> md_a m t e k j i = Some p ->
    nth_error l ((k * nx2 m + j) * nx1 m + i) = Some (side p).
(* the angle theta (in turns) lies in bin k *)
Definition InBin (x : list Q) (k : nat) (theta : Q) : Prop := exists a b, nth_error x k = Some a /\ nth_error x (S k) = Some b /\ (a <= theta < b)%Q.

(** ** affine maps *)
Definition Veq (v w : vec) : Prop := let '(x, y, z) := v in let '(a, b, c) := w in (x == a /\ y == b /\ z == c)%Q.
(* the rows of the matrix are orthonormal *)
Definition dot3 (v w : vec) : Q := let '(x, y, z) := v in let '(a, b, c) := w in (x * a + y * b + z * c)%Q.
Definition Orthonormal (m : mat) : Prop := let '(u, v, w) := m in
  (dot3 u u == 1 /\ dot3 v v == 1 /\ dot3 w w == 1 /\ dot3 u v == 0 /\ dot3 u w == 0 /\ dot3 v w == 0)%Q.
(** MCNP manual, TRn card: B1 B2 B3 are the direction cosines of the auxiliary x' axis, B4-6 of y', B7-9 of
    z'; the auxiliary point p is at O + p1 x' + p2 y' + p3 z' *)
Definition mcnp_map (o : vec) (B : mat) (p : vec) : vec :=
  let '(u, v, w) := B in let '(p1, p2, p3) := p in
  let s (a : Q) (x : vec) := let '(x1, x2, x3) := x in (a * x1, a * x2, a * x3)%Q in
  addv o (addv (s p1 u) (addv (s p2 v) (s p3 w))).

(** ** tables *)
(* row r of the table shows the values of entry [pos r] = (energy, k, j, i) of the first time *)
Definition Rows (m : mdata) (pos : nat -> nat * nat * nat * nat) (n : nat) (v e : list Q) : Prop :=
  length v = n /\ length e = n /\ forall r p, r < n -> (let '(en, k, j, i) := pos r in md_a m 0 en k j i) = Some p ->
    nth_error v r = Some (fst p) /\ nth_error e r = Some (snd p).

(** ** where a mesh is moved *)
Definition dist2 (v w : vec) : Q := let '(x, y, z) := v in let '(a, b, c) := w in ((x - a) * (x - a) + (y - b) * (y - b) + (z - c) * (z - c))%Q.
Definition blanks (s : str) : Prop := Forall (fun c => is_ws c = true) s.
(* "tr", "=" and a number, with blanks in between, after [pre] *)
Definition TagAt (pre line : str) (gap ds : str) : Prop := exists w post,
  line = pre ++ s2l "tr" ++ w ++ s2l "=" ++ gap ++ ds ++ post /\ blanks w /\ blanks gap /\ ds <> []
  /\ Forall (fun c => is_digit c = true) ds /\ (match post with c :: _ => is_digit c = false | [] => True end).
(* the first of them in the line *)
Definition Tag (line gap ds : str) : Prop := exists pre, TagAt pre line gap ds
  /\ forall pre' gap' ds', TagAt pre' line gap' ds' -> length pre <= length pre'.
Definition Untagged (line : str) : Prop := forall pre gap ds, ~ TagAt pre line gap ds.
(* the first tagged line of a card *)
Definition CardTag (ls : list str) (gap ds : str) : Prop := exists a l b, ls = a ++ l :: b /\ Forall Untagged a /\ Tag l gap ds.

(** ** exported numbers: read back within half of the last printed digit *)
Definition Field (s : str) (q : Q) : Prop := no_ws s /\ ~ In ","%char s /\ exists r, parse_float s = Ok r /\ (Qabs (r - q) <= 1 # 2000)%Q.
Fixpoint joined_by (sep : str) (l : list str) : str :=
  match l with [] => [] | [w] => w | w :: l' => w ++ sep ++ joined_by sep l' end.
(* the matrix of nine values, row by row *)
Definition rows_of (f : Q -> Q) (bs : list Q) : option mat :=
  match bs with [b1; b2; b3; b4; b5; b6; b7; b8; b9] => Some ((f b1, f b2, f b3), (f b4, f b5, f b6), (f b7, f b8, f b9)) | _ => None end.
(* the i-th value of array n *)
Definition fields (qs : list Q) (ws : list str) : Prop := Forall2 Field ws qs.
Definition value_of (g : grid) (i : nat) (n : str) (q : Q) : Prop := exists l, dget str_eqb n (g_arrays g) = Some l /\ nth_error l i = Some q.
(* every array is long enough *)
Definition covers (g : grid) (names : list str) (n : nat) : Prop := forall a, In a names -> exists l, dget str_eqb a (g_arrays g) = Some l /\ n <= length l.
Definition file_name (path n : str) : str := path ++ s2l "_" ++ clean_path n ++ s2l ".txt".

(** ** collapsing: one item per mesh of the request *)
Section Collapse.
  Context {R : Type}.
  (* a mesh with just its values and errors *)
  Definition plain (f : fmesh (R := R)) (v e : list Q) : Prop := g_arrays (f_grid f) = [(fst column_labels, v); (snd column_labels, e)].
  (* what the request asks for *)
  Record item := mkItem { it_key : Z; it_a : str; it_b : str; it_f : fmesh (R := R); it_v : list Q; it_e : list Q }.
  Definition Item (d : list (Z * fmesh (R := R))) (i : item) : Prop := dget Z.eqb (it_key i) d = Some (it_f i) /\ plain (it_f i) (it_v i) (it_e i).
  Definition request (is : list item) : list (Z * list str) := map (fun i => (it_key i, [it_a i; it_b i])) is.
End Collapse.
Arguments mkItem {R}. Arguments it_key {R}. Arguments it_a {R}. Arguments it_b {R}. Arguments it_f {R}. Arguments it_v {R}. Arguments it_e {R}.

(** ** where the point (a, b, c) of a mesh is: x, y, z or radius, height, angle, moved by the translation only *)
Definition place {R} (sn cs : Q -> Q) (cyl : bool) (tr : trsf (R := R)) (a b c : Q) : vec :=
  let '(o1, o2, o3) := origin tr in if cyl then (a * cs c + o1, a * sn c + o2, b + o3)%Q else (a + o1, b + o2, c + o3)%Q.
