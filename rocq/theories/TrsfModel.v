(** Model of the placement of meshes, src/f4enix/output/meshtal/aux_meshtal_functions.py 549-633, and of the reading of CDGS
    files, 678-701, 766-775, 867-900 and mesh_parser.py 166-230.  Numbers are exact; nan and inf are not modelled.
    Files are those of MeshModel.v. *)
From Coq Require Import Qabs.
From Verif Require Import PyBase PyStr PyText D1SModel DataModel MeshModel MeshCuvModel.
Open Scope nat_scope.

(** 577-590 str.index(p, n): the first place from n on; ValueError without one *)
Fixpoint index_of (p s : str) : option nat :=
  match strip_prefix p s with
  | Some _ => Some 0
  | None => match s with [] => None | _ :: s' => option_map S (index_of p s') end
  end.
Definition index_from (p : string) (n : nat) (s : str) : res nat :=
  match index_of (s2l p) (skipn n s) with Some i => Ok (n + i) | None => Err ValueError end.
Definition index (p : string) (s : str) : res nat := index_from p 0 s.
(** 592-595 s[a:b] for non-negative bounds *)
Definition slice (a b : nat) (s : str) : str := firstn (b - a) (skipn a s).

Definition vec := (Q * Q * Q)%type.
(** 592-595 np.array(text.split(), dtype=np.double).  Simplified: a number of coordinates other than three is refused here; numpy
    refuses it (ValueError) in the products below *)
Definition read_vec (s : str) : res vec :=
  do l <- mapM parse_float (split s);
  match l with [a; b; c] => Ok (a, b, c) | _ => Err ValueError end.
Definition v1 (v : vec) : Q := fst (fst v).
Definition v2 (v : vec) : Q := snd (fst v).
Definition v3 (v : vec) : Q := snd v.
(** 559 np.cross *)
Definition cross (a b : vec) : vec :=
  (v2 a * v3 b - v3 a * v2 b, v3 a * v1 b - v1 a * v3 b, v1 a * v2 b - v2 a * v1 b)%Q.
(** 599, 603, 618-619 abs(x - 1.0) < 1e-12 *)
Definition near1 (x : Q) : bool := negb (Qle_bool (1 # 10 ^ 12) (Qabs (x - 1))).
(** 625 np.linalg.norm(v) < 1e-12, on the squares *)
Definition near0 (v : vec) : bool := negb (Qle_bool (1 # 10 ^ 24) (v1 v * v1 v + v2 v * v2 v + v3 v * v3 v)).

(** 564-571 CustomTuple: (origin, rotation) with the attributes origin, vec and axis *)
Record placement := mkPl { pl_origin : vec; pl_rot : vec * vec * vec; pl_vec : option vec; pl_axis : vec }.
(** 549-561 _get_rotation_matrix: without a vector, axs.cross is asked of a numpy array: AttributeError *)
Definition rotation (axs : vec) (v : option vec) : res (vec * vec * vec) :=
  match v with None => Err AttributeError | Some v => Ok (v, cross axs v, axs) end.
(** 628 np.identity(3) *)
Definition identity : vec * vec * vec := ((1, 0, 0), (0, 1, 0), (0, 0, 1))%Q.
(** 574-608, 625-633 _get_transformation of a cylinder *)
Definition place_cyl (l : str) : res (option placement) :=
  do '(o, a, v) <-
    (if has "VEC direction" l
     then do o0 <- index "at" l; do o1 <- index "axis" l; do a0 <- index "axis in" l; do a1 <- index "direction" l;
          do w0 <- index_from "direction" (a1 + 1) l;
          do o <- read_vec (slice (o0 + 2) o1 l); do a <- read_vec (slice (a0 + 7) a1 l); do w <- read_vec (skipn (w0 + 9) l); Ok (o, a, Some w)
     else do o0 <- index "at" l; do o1 <- index "," l; do a0 <- index "axis in" l; do a1 <- index "direction" l;
          do o <- read_vec (slice (o0 + 2) o1 l); do a <- read_vec (slice (a0 + 7) a1 l); Ok (o, a, None));
  let is_z := near1 (v3 a) in
  let is_x := match v with None => true | Some _ => near1 (v1 a) end in
  if is_z && is_x
  then if near0 o then Ok None else Ok (Some (mkPl o identity v a))
  else do r <- rotation a v; Ok (Some (mkPl o r v a)).
(** 609-633 the same without a cylinder (CDGS): the attributes vec and axis are never assigned, so a placement that is not
    the standard one ends in UnboundLocalError *)
Definition place_rec (l : str) : res (option placement) :=
  do o <- read_vec (slice 0 44 l); do x <- read_vec (slice 45 87 l); do y <- read_vec (skipn 88 l);
  if near1 (v1 x) && near1 (v2 y) && near0 o then Ok None else Err UnboundLocalError.
(** 573-633 *)
Definition get_transformation (cyl : bool) (l : str) : res (option placement) := if cyl then place_cyl l else place_rec l.

(** ** CDGS files *)
(** line.split()[n] *)
Definition wordn (ws : list str) (n : nat) : res str := of_opt IndexError (nth_error ws n).
(** 681, 879 int(float(s)) *)
Definition intfloat (s : str) : res Z := do q <- parse_float s; Ok (qtrunc q).
(** 688, 693, 698 line[0:n] == p *)
Definition starts (p : string) (l : str) : bool := str_eqb (firstn (length (s2l p)) l) (s2l p).
(** 691-700 the two loops: the file at the first line starting with p, and after it; None: the end of the file is read for ever *)
Fixpoint seek (p : string) (f : file) : option file :=
  match f with [] => None | l :: f' => if starts p l then Some f else seek p f' end.
(** 678-701 _scan_cdgsfile: num -> positions of the mesh and of its data *)
Fixpoint scan_sources (n : nat) (f : file) (d : list (str * (file * file))) : mres (list (str * (file * file))) :=
  match n with
  | O => Some (Ok d)
  | S n' =>
      let (l, f1) := readline f in
      if starts "mesh_id" l
      then mbind (Some (wordn (split l) 1)) (fun num =>
           match seek "source_data" f1 with
           | None => None
           | Some f2 => match seek "end_source_data" (tl f2) with
                        | None => None
                        | Some f3 => scan_sources n' (tl f3) (dset str_eqb num (f, f2) d)
                        end
           end)
      else scan_sources n' f1 d
  end.
Definition scan_cdgs (f : file) : mres (list (str * (file * file))) :=
  let (l0, f1) := readline f in
  let (l1, f2) := readline f1 in
  mbind (Some (do w <- wordn (split l0) 1; do n <- intfloat w; do u <- wordn (split l1) 1; do _ <- parse_float u; Ok n)) (fun n =>
  scan_sources (Z.to_nat n) f2 []).
(** 867-900 _get_cdgsmesh_boundaries.  Simplified: any type of mesh other than cyl is a rec one *)
Definition cdgs_bounds (f : file) : mres (bounds placement) :=
  let f0 := skipline 4 f in
  let (l0, f1) := readline f0 in
  let (l1, f2) := readline f1 in
  mbind (Some (do w0 <- wordn (split l0) 1; do w1 <- wordn (split l1) 1; do n <- intfloat w1; Ok (str_eqb w0 (s2l "bins"), n))) (fun '(bins, n) =>
  mbind (multilines (Z.to_nat n) f2) (fun '(es, f3) =>
  let (l3, f4) := readline f3 in
  let (l4, f5) := readline f4 in
  let (l5, f6) := readline f5 in
  mbind (Some (do g <- wordn (split l3) 1;
               do w1 <- wordn (split l4) 1; do n1 <- parse_int w1; do w2 <- wordn (split l4) 2; do n2 <- parse_int w2; do w3 <- wordn (split l4) 3; do n3 <- parse_int w3;
               do tr <- get_transformation (str_eqb g (s2l "cyl")) l5; Ok (str_eqb g (s2l "cyl"), tr, n1, n2, n3))) (fun '(cyl, tr, n1, n2, n3) =>
  mbind (multilines (Z.to_nat n1) f6) (fun '(x1, f7) =>
  mbind (multilines (Z.to_nat n2) f7) (fun '(x2, f8) =>
  mbind (multilines (Z.to_nat n3) f8) (fun '(x3, _) =>
  Some (Ok (mkBounds cyl tr x1 x2 x3 (mkBin es (if bins then Erg else Line) true) implicit_time)))))))).
(** 766-775 _get_cdgsheader *)
Definition cdgs_header (f : file) : res (Q * Q * str) :=
  let (c, f1) := readline (skipline 1 f) in
  let (l1, f2) := readline f1 in
  let (l2, _) := readline f2 in
  do w1 <- wordn (split l1) 1; do cool <- parse_float w1; do w2 <- wordn (split l2) 1; do str <- parse_float w2; Ok (cool, str, c).
(** mesh_parser.py 184-230 CDGSMeshParser.get_FMesh *)
Record cdgs_mesh := mkCM { cm_id : str; cm_bounds : bounds placement; cm_data : arr; cm_cooling : Q; cm_strength : Q; cm_comments : str }.
Definition get_cdgs (d : list (str * (file * file))) (id : str) : mres cdgs_mesh :=
  match dget str_eqb id d with
  | None => Some (Err KeyError)
  | Some (p, dt) =>
      mbind (cdgs_bounds p) (fun bd =>
      mbind (Some (do nx <- dim (bd_x1 bd); do ny <- dim (bd_x2 bd); do nz <- dim (bd_x3 bd); do ne <- dimz (nbins (bd_e bd)); Ok (nx, ny, nz, ne))) (fun '(nx, ny, nz, ne) =>
      mbind (cdgs_data 1 ne nz ny nx dt) (fun data =>
      mbind (Some (cdgs_header p)) (fun '(cool, str, c) =>
      Some (Ok (mkCM id bd data cool str c))))))
  end.

(** mesh_parser.py 174-182 get_meshlist *)
Definition cdgs_list (d : list (str * (file * file))) : list str := sorted_strs (map fst d).
