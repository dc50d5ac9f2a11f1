(** Model of src/f4enix/output/meshtal/aux_meshtal_functions.py and mesh_parser.py (class
    MeshtalParser): scanning a meshtal file and reading one mesh tally from it.
    An open file is the list of the lines still to be read, each with its line end, so a file
    position (tell/seek) is such a list; reading past the end gives the empty string.
    Floats are exact rationals. *)
From Verif Require Import PyBase PyStr PyText D1SModel DataModel.
Open Scope nat_scope.

Definition file := list str.
(** 23-24 _readline and 32-36 _skipline *)
Definition readline (f : file) : str * file := (hd [] f, tl f).
Definition skipline (n : nat) (f : file) : file := skipn n f.

(** for i in range(n): body, the body reading from the file *)
Fixpoint loop {A} (n : nat) (body : file -> res (A * file)) (f : file) : res (list A * file) :=
  match n with
  | O => Ok ([], f)
  | S n' => do '(x, f1) <- body f; do '(xs, f2) <- loop n' body f1; Ok (x :: xs, f2)
  end.

(** a numpy array of values and errors indexed [t, e, k, j, i] (and a last axis of length 2);
    None outside the shape.  moveaxis and swapaxes permute the arguments *)
Definition arr := nat -> nat -> nat -> nat -> nat -> option (Q * Q).

(** numpy: array[i, :, j] = list broadcasts a list of length 1 and rejects other lengths *)
Definition assign (n : nat) (xs : list Q) : res (list Q) :=
  if length xs =? n then Ok xs else match xs with [x] => Ok (repeat x n) | _ => Err ValueError end.

(** 109-117 _read_block, the rows of one of the two tables (values, then errors) *)
Definition read_rows (nl nc : nat) (f : file) : res (list (list Q) * file) :=
  loop nl (fun f => let (l, f1) := readline f in
                    do xs <- mapM parse_float (tl (split l));
                    do row <- assign nc xs; Ok (row, f1)) f.
Definition read_table (nl nc : nat) (f : file) : res (list (list Q) * file) :=
  do '(rows, f1) <- read_rows nl nc (skipline 2 f); Ok (rows, skipline 1 f1).
Definition read_block (nl nc : nat) (f : file) : res ((list (list Q) * list (list Q)) * file) :=
  do '(v, f1) <- read_table nl nc (skipline 2 f);
  do '(e, f2) <- read_table nl nc f1;
  Ok ((v, e), f2).

Inductive layout := IJ | IK | JK | Bad.

(** 151-154, 162-165: the blocks of one energy and time bin *)
Definition read_blocks (nb nl nc : nat) (f : file) : res (list (list (list Q) * list (list Q)) * file) :=
  loop nb (fun f => do '(b, f1) <- read_block nl nc f; Ok (b, skipline 1 f1)) f.
(** 148-166: one list over the energies of lists over the times of blocks.  Without explicit times only
    time 0 is filled (the caller has nt = 1 then, as _get_mesh_boundaries 841-844 supplies one bin) *)
Definition read_energy (explicit : bool) (nt nb nl nc : nat) (f : file) : res (list (list (list (list Q) * list (list Q))) * file) :=
  if explicit
  then loop nt (fun f => do '(bs, f1) <- read_blocks nb nl nc (skipline 2 f); Ok (bs, skipline 1 f1)) (skipline 3 f)
  else do '(bs, f1) <- read_blocks nb nl nc (skipline 2 f); Ok ([bs], skipline 1 f1).

Definition pick2 (b : list (list Q) * list (list Q)) (l c : nat) : option (Q * Q) :=
  match nth_error (fst b) l, nth_error (snd b) l with
  | Some rv, Some re => match nth_error rv c, nth_error re c with
                        | Some v, Some e => Some (v, e)
                        | _, _ => None
                        end
  | _, _ => None
  end.
(** data[it, ie, ib, l, c, :] before the axes are moved *)
Definition wrk (d : list (list (list (list (list Q) * list (list Q))))) : arr := fun t e b l c =>
  match nth_error d e with
  | Some d1 => match nth_error d1 t with
               | Some d2 => match nth_error d2 b with Some blk => pick2 blk l c | None => None end
               | None => None
               end
  | None => None
  end.
(** 120-174 _get_block_data.  An unknown layout leaves nc, nl and nb unbound *)
Definition get_block_data (ty : layout) (explicit : bool) (nt ne nz ny nx : nat) (f : file) : res arr :=
  match ty with
  | IJ => do '(d, _) <- loop ne (read_energy explicit nt nz ny nx) f; Ok (wrk d)
  | IK => do '(d, _) <- loop ne (read_energy explicit nt ny nz nx) f; Ok (fun t e k j i => wrk d t e j k i)
  | JK => do '(d, _) <- loop ne (read_energy explicit nt nx nz ny) f; Ok (fun t e k j i => wrk d t e i k j)
  | Bad => Err UnboundLocalError
  end.

(** 197-200 one line of a column file: words [-2] and [-1] *)
Definition read_col_line (f : file) : res ((Q * Q) * file) :=
  let (l, f1) := readline f in
  match rev (split l) with
  | e :: v :: _ => do qv <- parse_float v; do qe <- parse_float e; Ok ((qv, qe), f1)
  | _ => Err IndexError
  end.
(** 177-203 _get_column_data with type "col": _get_mesh_type never answers "cf" *)
Definition nth5 {A} (d : list (list (list (list (list A))))) (a b c i j : nat) : option A :=
  match nth_error d a with
  | Some d1 => match nth_error d1 b with
    | Some d2 => match nth_error d2 c with
      | Some d3 => match nth_error d3 i with Some d4 => nth_error d4 j | None => None end
      | None => None end
    | None => None end
  | None => None
  end.
Definition get_column_data (nt ne nz ny nx : nat) (f : file) : res arr :=
  do '(d, _) <- loop ne (loop nt (loop nx (loop ny (loop nz read_col_line)))) (skipline 1 f);
  Ok (fun t e k j i => nth5 d e t i j k).

(** 778-811 _get_mesh_type *)
Inductive meshtype := Col | OldCUV | Blk (l : layout).
Definition has (p : string) (s : str) : bool := contains (s2l p) s.
Definition mesh_type (cyl explicit : bool) (f : file) : meshtype :=
  let (l0, f1) := readline f in
  if has "Result" l0 then Col
  else if has "GEOMETRY" l0 then OldCUV
  else let (l, _) := readline (skipline (if explicit then 4 else 1) f1) in
       Blk (if has (if cyl then "Theta bin" else "Z bin") l then IJ
            else if has (if cyl then "Z bin" else "Y bin") l then IK
            else if has (if cyl then "R bin" else "X bin") l then JK else Bad).

(** 903-918 _get_mesh_data.  [old_cuv]: the reader of the old CUV format (MeshCuvModel) *)
Definition get_mesh_data (old_cuv : nat -> nat -> nat -> nat -> nat -> file -> res arr)
    (cyl explicit : bool) (nt ne nz ny nx : nat) (f : file) : res arr :=
  match mesh_type cyl explicit f with
  | Col => get_column_data nt ne nz ny nx f
  | OldCUV => old_cuv nt ne nz ny nx f
  | Blk ty => get_block_data ty explicit nt ne nz ny nx f
  end.

(** 46-70 ExtraBin: the bin values, their kind and whether the file gives them *)
Inductive tag := Erg | Tme | Dtme | Nuc | Cel | Line.
Record xbin := mkBin { x_vals : list Q; x_tag : tag; x_explicit : bool }.
Definition binbound (b : xbin) : bool := match x_tag b with Erg | Tme => true | _ => false end.
Definition totalbin (b : xbin) : bool :=
  match x_tag b with
  | Erg | Tme => negb (length (x_vals b) =? 2)
  | Dtme => false
  | _ => negb (length (x_vals b) =? 1)
  end.
(** mesh_parser.py 74-80, fmesh.py 48-59: the length of the energy or time axis, on Python integers *)
Definition nbins (b : xbin) : Z :=
  ((if binbound b then Z.of_nat (length (x_vals b)) - 1 else Z.of_nat (length (x_vals b)))
   + (if totalbin b then 1 else 0))%Z.

(** 636-646 _get_etbin_tag *)
Definition etbin_tag (l : str) : option tag :=
  if has "Energy" l then Some Erg
  else if has "Decay time" l then Some Dtme
  else if has "Time" l then Some Tme
  else if has "Nuclide" l then Some Nuc
  else if has "Cell" l then Some Cel
  else None.
(* line.index(":") + 1 splits the line into line[:init] and line[init:] *)
Fixpoint cut_colon (l : str) : option (str * str) :=
  match l with
  | [] => None
  | c :: l' => if Ascii.eqb c ":"%char then Some ([c], l')
               else match cut_colon l' with Some (a, b) => Some (c :: a, b) | None => None end
  end.
(* init = line.index(":") + 1; np.array(line[init:].split(), dtype=np.double) *)
Definition read_bins (l : str) : res (str * list Q) :=
  match cut_colon l with
  | None => Err ValueError
  | Some (a, b) => do qs <- mapM parse_float (split b); Ok (a, qs)
  end.
(* ExtraBin(bindata, _get_etbin_tag(line[0:init])): ValueError for an unknown tag *)
Definition read_xbin (l : str) : res xbin :=
  do '(a, qs) <- read_bins l;
  match etbin_tag a with Some t => Ok (mkBin qs t true) | None => Err ValueError end.
(* line.strip(" ") == "\n" *)
Fixpoint lstrip_sp (s : str) : str := match s with c :: s' => if Ascii.eqb c sp then lstrip_sp s' else s | [] => [] end.
Definition blank (l : str) : bool := str_eqb (rev (lstrip_sp (rev (lstrip_sp l)))) [nl].

(** 814-864 _get_mesh_boundaries, after the seek and the first skipped line.  [trsf]: _get_transformation *)
Record bounds (T : Type) := mkBounds { bd_cyl : bool; bd_trsf : option T; bd_x1 : list Q; bd_x2 : list Q; bd_x3 : list Q; bd_e : xbin; bd_t : xbin }.
Arguments mkBounds {T}. Arguments bd_cyl {T}. Arguments bd_trsf {T}. Arguments bd_x1 {T}. Arguments bd_x2 {T}. Arguments bd_x3 {T}.
Arguments bd_e {T}. Arguments bd_t {T}.
Definition implicit_time : xbin := mkBin [0%Q; inject_Z (10 ^ 20)] Tme false.
Section Parse.
  Context {T : Type} (trsf : str -> res (option T)).
  Definition get_boundaries (f : file) : res (bounds T) :=
    let (l0, f1) := readline f in
    do '(cyl, tr, l1, f2) <- (if has "origin at" l0
                              then do tr <- trsf l0; let (l1, f2) := readline f1 in Ok (true, tr, l1, f2)
                              else Ok (false, None, l0, f1));
    do '(_, x1) <- read_bins l1;
    let (l2, f3) := readline f2 in
    do '(_, x2) <- read_bins l2;
    let (l3, f4) := readline f3 in
    do '(_, x3) <- read_bins l3;
    let (l4, f5) := readline f4 in
    let (l5, f6) := if has "number:" l4 then readline f5 else (l4, f5) in
    do tmp <- read_xbin l5;
    let (l6, _) := readline f6 in
    if blank l6 then Ok (mkBounds cyl tr x1 x2 x3 tmp implicit_time)
    else do eb <- read_xbin l6; Ok (mkBounds cyl tr x1 x2 x3 eb tmp).
End Parse.

(** 729-742 _get_mesh_block: the positions after the first and the second blank line; without two
    blank lines a position is unbound *)
Fixpoint after_blank (f : file) : res file :=
  match f with
  | [] => Err UnboundLocalError
  | l :: f' => if blank l then Ok f' else after_blank f'
  end.
Definition mesh_block (f : file) : res (file * file) :=
  do b <- after_blank f; do d <- after_blank b; Ok (b, d).

(** 649-661 _scan_meshfile: tally number -> (position, boundaries, data).  The scan goes on at the data
    position; [fuel] bounds the number of lines *)
Definition is_mesh_line (l : str) : bool := str_eqb (firstn 18 (firstn 30 l)) (s2l " Mesh Tally Number").
Definition pos := (file * file * file)%type.
Fixpoint scan (fuel : nat) (f : file) (d : list (str * pos)) : res (list (str * pos)) :=
  match fuel with
  | O => Ok d
  | S n => match f with
           | [] => Ok d
           | l :: f' => if is_mesh_line l
                        then do '(b, dt) <- mesh_block f';
                             scan n dt (dset str_eqb (strip (skipn 18 (firstn 30 l))) (f, b, dt) d)
                        else scan n f' d
           end
  end.
Definition scan_meshfile (f : file) : res (list (str * pos)) := scan (S (length f)) f [].

(** 745-763 _get_header; None: no line contains "mesh tally." and the loop reads empty lines for ever *)
Definition particles : list string := ["neutron"; "photon"; "electron"; "proton"; "deuteron"]%string.
Fixpoint header_lines (acc : str) (f : file) : option (str * str) :=
  match f with
  | [] => None
  | l :: f' => if has "mesh tally." l then Some (acc, l) else header_lines (acc ++ l) f'
  end.
Definition particle_of (l : str) : str :=
  match find (fun p => has p l) particles with Some p => s2l p | None => [] end.
Definition get_header (f : file) : option (str * option str) :=
  match header_lines [] (skipline 1 f) with
  | Some (c, l) => Some (particle_of l, match c with [] => None | _ => Some c end)
  | None => None
  end.

(** mesh_parser.py 51-96 get_FMesh, for the dictionary of positions.  An empty list of boundaries gives
    a negative dimension, which numpy rejects (ValueError); here before the data are read *)
Record fmesh (T : Type) := mkFM { fm_tally : str; fm_bounds : bounds T; fm_data : arr; fm_particle : str; fm_comments : option str }.
Arguments mkFM {T}. Arguments fm_tally {T}. Arguments fm_bounds {T}. Arguments fm_data {T}. Arguments fm_particle {T}. Arguments fm_comments {T}.
Definition dim (x : list Q) : res nat := match x with [] => Err ValueError | _ :: x' => Ok (length x') end.
Definition dimz (z : Z) : res nat := if (z <? 0)%Z then Err ValueError else Ok (Z.to_nat z).
Section FMesh.
  Context {T : Type} (trsf : str -> res (option T)) (old_cuv : nat -> nat -> nat -> nat -> nat -> file -> res arr).
  (** None: the call does not return *)
  Definition get_fmesh (tally : str) (d : list (str * pos)) : option (res (fmesh T)) :=
    match dget str_eqb tally d with
    | None => Some (Err KeyError)
    | Some (p, b, dt) =>
        match (do bd <- get_boundaries trsf (skipline 1 b);
               do nx <- dim (bd_x1 bd); do ny <- dim (bd_x2 bd); do nz <- dim (bd_x3 bd);
               do ne <- dimz (nbins (bd_e bd)); do nt <- dimz (nbins (bd_t bd));
               do data <- get_mesh_data old_cuv (bd_cyl bd) (x_explicit (bd_t bd)) nt ne nz ny nx dt;
               Ok (bd, data)) with
        | Err e => Some (Err e)
        | Ok (bd, data) => match get_header p with
                           | Some (part, c) => Some (Ok (mkFM tally bd data part c))
                           | None => None
                           end
        end
    end.

  (** meshtal.py 79-113 readMesh.  The argument: nothing, a number or a list of numbers; nothing, 0 and the
      empty list ask for every tally, in the string order of their numbers, stored under int(number) *)
  Fixpoint read_list (keys : list (str * res Z)) (d : list (str * pos)) (acc : list (Z * fmesh T)) : option (res (list (Z * fmesh T))) :=
    match keys with
    | [] => Some (Ok acc)
    | (k, rn) :: ks => match get_fmesh k d with
                       | None => None
                       | Some (Err e) => Some (Err e)
                       | Some (Ok m) => match rn with Err e => Some (Err e) | Ok n => read_list ks d (dset Z.eqb n m acc) end
                       end
    end.
  Inductive which := Every | One (z : Z) | Many (l : list Z).
  Definition read_mesh (w : which) (d : list (str * pos)) : option (res (list (Z * fmesh T))) :=
    let every := read_list (map (fun k => (k, parse_int k)) (sorted_strs (dkeys d))) d [] in
    match w with
    | Every => every
    | One z => if (z =? 0)%Z then every else read_list [(str_of_Z z, Ok z)] d []
    | Many l => match l with [] => every | _ => read_list (map (fun z => (str_of_Z z, Ok z)) l) d [] end
    end.
End FMesh.
