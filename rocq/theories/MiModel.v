(** Model of src/f4enix/output/meshinfo.py: the reader of D1S-UNED meshinfo files, the table of the
    masses and its queries, saving, loading and comparing.
    An open file is the list of the lines still to be read (MeshModel); floats are exact rationals.
    A data frame is the list of its rows (voxel, material, cell, mass).  Not modelled: NaN, the
    encoding of the file, the formats of the JSON and HDF5 files (they give back what was stored). *)
From Verif Require Import PyBase PyStr DataModel MeshModel.
Open Scope nat_scope.

(** a row of the data frame of the masses *)
Definition mrow : Type := (Z * Z * Z) * Q.
Definition r_voxel (r : mrow) : Z := fst (fst (fst r)).
Definition r_mat (r : mrow) : Z := snd (fst (fst r)).
Definition r_cell (r : mrow) : Z := snd (fst r).
Definition r_mass (r : mrow) : Q := snd r.

(** 78 sort_index: stable, by voxel, then material, then cell *)
Definition key_leb (a b : Z * Z * Z) : bool :=
  let '(v, m, c) := a in let '(w, n, d) := b in
  (v <? w)%Z || ((v =? w)%Z && ((m <? n)%Z || ((m =? n)%Z && (c <=? d)%Z))).
Fixpoint insert_row (x : mrow) (l : list mrow) : list mrow :=
  match l with [] => [x] | y :: l' => if key_leb (fst x) (fst y) then x :: l else y :: insert_row x l' end.
Definition sort_index (l : list mrow) : list mrow := fold_right insert_row [] l.

(** 189-233, 330-377 MeshInfo and MeshInfoCyl: [m_extra] is origin, axis and vec of a MeshInfoCyl,
    [m_cyl] says that coordinates is CYL *)
Record meshinfo := mkMi { m_cyl : bool; m_extra : option (list Q * list Q * list Q);
                          m_i : list Q; m_j : list Q; m_k : list Q; m_mass : option (list mrow) }.

(** unpacking a list of words *)
Definition unpack3 (ws : list str) : res (str * str * str) := match ws with [a; b; c] => Ok (a, b, c) | _ => Err ValueError end.
Definition unpack4 (ws : list str) : res (str * str * str * str) := match ws with [a; b; c; d] => Ok (a, b, c, d) | _ => Err ValueError end.

Section TwoPi.
(** 2 * np.pi: a parameter, nothing is assumed about it here *)
Variable two_pi : Q.

(** 566-575 _read_cell_part *)
Definition read_cell_part (volume : Q) (f : file) : res ((Z * Z * Q) * file) :=
  let (l, f1) := readline f in
  do '(a, b, c, d) <- unpack4 (split l);
  do cell <- parse_int a; do density <- parse_float b; do mat <- parse_int c; do prop <- parse_float d;
  Ok ((cell, mat, volume * prop * density)%Q, f1).
(** 533-542 one voxel *)
Definition read_one_voxel (f : file) : res (list mrow * file) :=
  let (l, f1) := readline f in
  do '(a, b, c) <- unpack3 (split l);
  do v <- parse_int a; do volume <- parse_float b; do n <- parse_int c;
  do '(cs, f2) <- loop (Z.to_nat n) (read_cell_part volume) f1;
  Ok (map (fun x => ((v, snd (fst x), fst (fst x)), snd x)) cs, f2).
(** 524-564 _read_voxels; 75-79 DataMass sorts the rows *)
Definition voxel_count (i j k : list Q) : nat :=
  Z.to_nat ((Z.of_nat (length i) - 1) * (Z.of_nat (length j) - 1) * (Z.of_nat (length k) - 1)).
Definition read_voxels (cyl : bool) (i j k : list Q) (f : file) : res (list mrow * file) :=
  do '(vs, f1) <- loop (voxel_count i j k) read_one_voxel f;
  let rows := concat vs in
  let rows := if cyl then map (fun r => (fst r, (r_mass r / two_pi)%Q)) rows else rows in
  Ok (sort_index rows, f1).

(** 487-490 re.findall(r"\d\.\d{8}", line): leftmost matches that do not overlap *)
Definition angle_at (s : str) : option (str * str) :=
  match s with
  | c :: d :: r => if is_digit c && Ascii.eqb d dot && (8 <=? length r) && forallb is_digit (firstn 8 r)
                   then Some (c :: d :: firstn 8 r, skipn 8 r) else None
  | _ => None
  end.
Fixpoint find_angles (fuel : nat) (s : str) : list str :=
  match fuel with
  | O => []
  | S n => match s with
           | [] => []
           | c :: r => match angle_at s with
                       | Some (w, rest) => w :: find_angles n rest
                       | None => find_angles n r
                       end
           end
  end.
(** l[a:b] *)
Definition slice {A} (a b : nat) (l : list A) : list A := firstn (b - a) (skipn a l).
(** 480-504 _read_header_cyl *)
Definition read_header_cyl (words : list str) (f : file) : res ((list Q * list Q * list Q) * (list Q * list Q * list Q) * file) :=
  do origin <- mapM parse_float (slice 2 5 words);
  do axis <- mapM parse_float (slice 7 10 words);
  do vec <- mapM parse_float (slice 13 16 words);
  let (l1, f1) := readline f in
  do i <- mapM parse_float (skipn 2 (split l1));
  let (l2, f2) := readline f1 in
  do j <- mapM parse_float (skipn 2 (split l2));
  let (l3, f3) := readline f2 in
  do k <- mapM (fun w => do x <- parse_float w; Ok (x / two_pi)%Q) (find_angles (length l3) l3);
  Ok ((origin, axis, vec), (i, j, k), f3).
(** 507-517 _read_header_cart *)
Definition read_header_cart (words : list str) (f : file) : res ((list Q * list Q * list Q) * file) :=
  do i <- mapM parse_float (skipn 2 words);
  let (l1, f1) := readline f in
  do j <- mapM parse_float (skipn 2 (split l1));
  let (l2, f2) := readline f1 in
  do k <- mapM parse_float (skipn 2 (split l2));
  Ok ((i, j, k), f2).
(** 466-477 _read_individual_mesh *)
Definition read_individual_mesh (f : file) : res (meshinfo * file) :=
  let f := skipn 3 f in
  let (l, f1) := readline f in
  do w0 <- of_opt IndexError (nth_error (split l) 0);
  if str_eqb w0 (s2l "origin")
  then do '(ex, (i, j, k), f2) <- read_header_cyl (split l) f1;
       do '(rows, f3) <- read_voxels true i j k f2;
       Ok (mkMi true (Some ex) i j k (Some rows), f3)
  else do '((i, j, k), f2) <- read_header_cart (split l) f1;
       do '(rows, f3) <- read_voxels false i j k f2;
       Ok (mkMi false None i j k (Some rows), f3).
(** 439-450 from_file.  Each turn reads a line, so the lines are enough [fuel] *)
Fixpoint from_file (fuel : nat) (info : list (Z * meshinfo)) (f : file) : res (list (Z * meshinfo)) :=
  match fuel, f with
  | _, [] => Ok info
  | O, _ => Ok info
  | S n, l :: f1 =>
      if has "Mesh tally number:" l
      then do w <- of_opt IndexError (nth_error (rev (split l)) 0);
           do i <- parse_int w;
           do '(m, f2) <- read_individual_mesh f1;
           from_file n (dset Z.eqb i m info) f2
      else from_file n info f1
  end.
Definition read_meshinfo (f : file) : res (list (Z * meshinfo)) := from_file (length f) [] f.
End TwoPi.

(** 105-136 get_filtered_dataframe *)
Definition memz (z : Z) (l : list Z) : bool := existsb (Z.eqb z) l.
Definition wanted (o : option (list Z)) (z : Z) : bool := match o with None => true | Some l => memz z l end.
Definition get_filtered (voxels materials cells : option (list Z)) (df : list mrow) : list mrow :=
  filter (fun r => wanted voxels (r_voxel r) && wanted materials (r_mat r) && wanted cells (r_cell r)) df.
(** index.unique: the first occurrences *)
Fixpoint unique (seen : list Z) (l : list Z) : list Z :=
  match l with [] => [] | x :: r => if memz x seen then unique seen r else x :: unique (x :: seen) r end.
(** 138-156 get_cells_from_materials *)
Definition get_cells_from_materials (materials : option (list Z)) (df : list mrow) : list Z :=
  unique [] (map r_cell (get_filtered None materials None df)).
(** 99-103 materials: the level of the index, that is, the different materials in increasing order (for
    a frame that was built by set_index, not filtered) *)
Fixpoint insert_z (x : Z) (l : list Z) : list Z :=
  match l with [] => [x] | y :: l' => if (x <? y)%Z then x :: l else if (x =? y)%Z then l else y :: insert_z x l' end.
Definition materials (df : list mrow) : list Z := fold_right insert_z [] (map r_mat df).

(** ** 234-307, 379-404 save and load: a folder with the two files *)
Record params := mkPar { p_cyl : bool; p_i : list Q; p_j : list Q; p_k : list Q; p_extra : option (list Q * list Q * list Q) }.
Record folder := mkFolder { f_params : option params; f_mass : option (list mrow) }.
Definition save (m : meshinfo) (d : folder) : folder :=
  mkFolder (Some (mkPar (m_cyl m) (m_i m) (m_j m) (m_k m) (m_extra m)))
           (match m_mass m with None => f_mass d | Some r => Some r end).
Definition load (d : folder) : res meshinfo :=
  do r <- of_opt FileNotFoundError (f_mass d);
  do p <- of_opt FileNotFoundError (f_params d);
  if p_cyl p
  then do ex <- of_opt KeyError (p_extra p); Ok (mkMi true (Some ex) (p_i p) (p_j p) (p_k p) (Some (sort_index r)))
  else Ok (mkMi false None (p_i p) (p_j p) (p_k p) (Some (sort_index r))).

(** 297-315 __eq__: (a == b).all() broadcasts an array of length 1; other lengths cannot be compared
    (ValueError in numpy 1.25 and later, AttributeError before) *)
Definition arr_eq (a b : list Q) : res bool :=
  match a, b with
  | [x], _ => Ok (forallb (Qeq_bool x) b)
  | _, [y] => Ok (forallb (fun x => Qeq_bool x y) a)
  | _, _ => if length a =? length b then Ok (forallb (fun p => Qeq_bool (fst p) (snd p)) (combine a b)) else Err ValueError
  end.
Definition row_eq (a b : mrow) : bool :=
  (r_voxel a =? r_voxel b)%Z && (r_mat a =? r_mat b)%Z && (r_cell a =? r_cell b)%Z && Qeq_bool (r_mass a) (r_mass b).
Fixpoint rows_eq (a b : list mrow) : bool :=
  match a, b with
  | [], [] => true
  | x :: a', y :: b' => row_eq x y && rows_eq a' b'
  | _, _ => false
  end.
Definition andthen (b : res bool) (k : res bool) : res bool := do x <- b; if x : bool then k else Ok false.
Definition mi_eq (a b : meshinfo) : res bool :=
  if negb (Bool.eqb (m_cyl a) (m_cyl b)) then Ok false
  else andthen (arr_eq (m_i a) (m_i b)) (andthen (arr_eq (m_j a) (m_j b)) (andthen (arr_eq (m_k a) (m_k b))
    (match m_mass a, m_mass b with
     | Some x, Some y => andthen (Ok (rows_eq x y))
         (match m_extra a with
          | None => Ok true
          | Some (o, x, v) => match m_extra b with
                              | None => Err AttributeError
                              | Some (o', x', v') => andthen (arr_eq o o') (andthen (arr_eq x x') (arr_eq v v'))
                              end
          end)
     | _, _ => Err AttributeError
     end))).
