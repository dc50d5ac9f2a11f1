(** What a meshinfo file shows, independently of how it is read. *)
From Coq Require Import Permutation Sorted.
From Verif Require Import PyBase PyStr PyText DataModel MeshModel MeshSpec MiModel.
Open Scope nat_scope.

Definition integer (w : str) (z : Z) : Prop := parse_int w = Ok z.
(* a cell inside a voxel, and a voxel *)
Record cellpart := mkCell { c_cell : Z; c_density : Q; c_mat : Z; c_fraction : Q }.
Record voxel := mkVoxel { v_id : Z; v_volume : Q; v_cells : list cellpart }.
Definition CellLine (c : cellpart) (l : str) : Prop := exists w1 w2 w3 w4, split l = [w1; w2; w3; w4]
  /\ integer w1 (c_cell c) /\ numeral w2 (c_density c) /\ integer w3 (c_mat c) /\ numeral w4 (c_fraction c).
Definition VoxelLine (i : Z) (vol : Q) (n : nat) (l : str) : Prop := exists w1 w2 w3, split l = [w1; w2; w3]
  /\ integer w1 i /\ numeral w2 vol /\ integer w3 (Z.of_nat n).
Definition VoxelText (v : voxel) : Txt := fun ls => exists l cs, ls = l :: cs
  /\ VoxelLine (v_id v) (v_volume v) (length (v_cells v)) l /\ Forall2 (fun x c => CellLine c x) cs (v_cells v).
Fixpoint Voxels (vs : list voxel) : Txt :=
  match vs with [] => fun ls => ls = [] | v :: r => VoxelText v >> Voxels r end.

(* the mass of a cell inside a voxel: what is in volume times fraction at that density *)
Definition mass_of (v : voxel) (c : cellpart) : Q := v_volume v * c_fraction c * c_density c.
(* the rows of the table: voxel, material, cell; [f] is applied to the mass *)
Definition rows_of (f : Q -> Q) (vs : list voxel) : list mrow :=
  concat (map (fun v => map (fun c => ((v_id v, c_mat c, c_cell c), f (mass_of v c))) (v_cells v)) vs).
Definition before (a b : mrow) : Prop :=
  (r_voxel a < r_voxel b)%Z \/ r_voxel a = r_voxel b
  /\ ((r_mat a < r_mat b)%Z \/ r_mat a = r_mat b /\ (r_cell a <= r_cell b)%Z).

(* a line with a label of two words and then numbers *)
Definition Labelled (qs : list Q) (l : str) : Prop := exists a b ws, split l = a :: b :: ws /\ Forall2 numeral ws qs.
(* an angle: one digit, a dot, eight digits; the angles of a line may touch each other *)
Definition angle_text (w : str) : Prop := exists c r, w = c :: dot :: r /\ is_digit c = true /\ length r = 8 /\ Forall (fun d => is_digit d = true) r.
Definition gap (s : str) : Prop := Forall (fun c => is_digit c = false) s.
Definition AngleLine (qs : list Q) (l : str) : Prop := exists pre parts,
  l = pre ++ concat (map (fun p => fst p ++ snd p) parts) /\ gap pre
  /\ Forall2 (fun p q => angle_text (fst p) /\ gap (snd p) /\ numeral (fst p) q) parts qs.

(* a mesh as the file shows it: the angles are in radians *)
Record mesh := mkMesh { h_extra : option (list Q * list Q * list Q); h_i : list Q; h_j : list Q; h_k : list Q; h_voxels : list voxel }.
Definition HeadText (m : mesh) : Txt := fun ls =>
  match h_extra m with
  | None => exists l1 l2 l3, ls = [l1; l2; l3] /\ Labelled (h_i m) l1 /\ Labelled (h_j m) l2 /\ Labelled (h_k m) l3
                             /\ nth_error (split l1) 0 <> Some (s2l "origin")
  | Some (o, x, v) => exists l0 l1 l2 l3, ls = [l0; l1; l2; l3] /\ Labelled (h_i m) l1 /\ Labelled (h_j m) l2 /\ AngleLine (h_k m) l3
      /\ exists at_ ws1 a b ws2 c d e ws3 more, split l0 = s2l "origin" :: at_ :: ws1 ++ [a; b] ++ ws2 ++ [c; d; e] ++ ws3 ++ more
         /\ length ws1 = 3 /\ length ws2 = 3 /\ length ws3 = 3 /\ Forall2 numeral ws1 o /\ Forall2 numeral ws2 x /\ Forall2 numeral ws3 v
  end.
(* the number of voxels of the grid *)
Definition grid_size (m : mesh) : nat := pred (length (h_i m)) * pred (length (h_j m)) * pred (length (h_k m)).
Definition proper (m : mesh) : Prop := h_i m <> [] /\ h_j m <> [] /\ h_k m <> [].
Definition MeshText (m : mesh) : Txt := fun ls =>
  proper m /\ length (h_voxels m) = grid_size m /\ (Any 3 >> HeadText m >> Voxels (h_voxels m)) ls.
Definition TitleLine (id : Z) : Txt := fun ls => exists l w, ls = [l] /\ mentions "Mesh tally number:" l
  /\ nth_error (rev (split l)) 0 = Some w /\ integer w id.
Definition Other : Txt := fun ls => Forall (fun l => ~ mentions "Mesh tally number:" l) ls.
Fixpoint FileText (ms : list (Z * mesh)) : Txt :=
  match ms with
  | [] => Other
  | (i, m) :: r => Other >> TitleLine i >> MeshText m >> FileText r
  end.
(* the file ends inside a mesh: voxels are missing, or cells of the last voxel *)
Definition CutMesh (m : mesh) : Txt := fun ls => proper m
  /\ (Any 3 >> HeadText m >> (fun ls => exists vs, length vs < grid_size m /\
       (Voxels vs >> (fun last => last = [] \/ exists l cs i vol n parts, last = l :: cs /\ VoxelLine i vol n l /\ length cs < n
                                                      /\ Forall2 (fun x c => CellLine c x) cs parts)) ls)) ls.
Fixpoint Series (ms : list (Z * mesh)) : Txt :=
  match ms with
  | [] => fun ls => ls = []
  | (i, m) :: r => Other >> TitleLine i >> MeshText m >> Series r
  end.

(* what is kept of a mesh: angles in revolutions and, for a cylinder, masses divided by 2 pi *)
Definition KeptAs (two_pi : Q) (m : mesh) (r : meshinfo) : Prop :=
  m_extra r = h_extra m /\ m_cyl r = (match h_extra m with None => false | Some _ => true end)
  /\ m_i r = h_i m /\ m_j r = h_j m
  /\ m_k r = (match h_extra m with None => h_k m | Some _ => map (fun q => q / two_pi)%Q (h_k m) end)
  /\ exists rows, m_mass r = Some rows
     /\ Permutation rows (rows_of (match h_extra m with None => fun q => q | Some _ => fun q => q / two_pi end)%Q (h_voxels m))
     /\ StronglySorted before rows.
