(** Model of src/f4enix/output/eeout.py: an MCNP .eeout file (unstructured mesh).
    A file is the list of its lines, text is ASCII, floats are exact rationals.
    RuntimeError and AssertionError are OtherError.  The vtk grid is the record [eeout]:
    its points, its cells, and its named arrays.  Simplified: pyvista refuses (ValueError) a number of
    cells other than the number of cell types, and an array with neither one value per point nor one
    per cell; whether pyvista attaches an array to the points or to the cells, and numbers of nodes out
    of range, are not modelled; numpy's text for an unknown material is [None]. *)
From Verif Require Import PyBase PyStr PyText D1SModel DataModel MeshModel LibModel OutModel FispModel.
Open Scope nat_scope.

(** ** 204-220 _read_info: the counts of the file *)
(** 42 PAT_INFO_NAME = [A-Za-z\s\d]+ at the start of the line *)
Definition info_char (c : ascii) : bool := is_letter c || is_ws c || is_digit c.
Definition info_name (l : str) : res str := do m <- of_opt AttributeError (some1 info_char l); Ok (strip (fst m)).
(** PAT_DIGIT.findall(line), and its last element *)
Definition digits_of (l : str) : list str := findall (some1 is_digit) l.
Definition last_int (l : str) : res Z := do w <- of_opt IndexError (last_of_list (digits_of l)); parse_int w.
Fixpoint read_info (read : bool) (d : list (str * Z)) (lines : list str) : res (list (str * Z)) :=
  match lines with
  | [] => Err OtherError
  | l :: r =>
      let read := read || has "NUMBER OF PARTICLES" l in
      do d <- (if read then do n <- info_name l; do v <- last_int l; Ok (dset str_eqb n v d) else Ok d);
      if has "NUMBER OF EDITS" l then Ok d else read_info read d r
  end.
Definition count (n : string) (d : list (str * Z)) : res Z := of_opt KeyError (dget str_eqb (s2l n) d).

(** ** 226-237 _get_materials_name *)
(** 229-231 \s+MATERIALS at the start; the position of the first such line, or of the last line *)
Definition mat_title (l : str) : bool :=
  match obind (some1 is_ws l) (fun '(_, a) => strip_prefix (s2l "MATERIALS") a) with Some _ => true | None => false end.
Fixpoint mat_index (lines : list str) : nat :=
  match lines with [] => 0 | [_] => 0 | l :: r => if mat_title l then 0 else S (mat_index r) end.
(** 233-236 .+ : the line up to its end, which must have a character *)
Definition one_line (l : str) : str := fst (span (fun c => negb (Ascii.eqb c nl)) l).
Definition mat_name (l : str) : res str := match one_line l with [] => Err AttributeError | t => Ok (strip t) end.
Definition materials (n : Z) (lines : list str) : res (list str) :=
  mapM (fun i => do l <- of_opt IndexError (nth_error lines (i + 1 + mat_index lines)); mat_name l) (seq 0 (Z.to_nat n)).

(** ** 238-249 _read_particle_list *)
Fixpoint particle_list (lines : list str) : res (list Z) :=
  match lines with
  | [] => Err OtherError
  | l :: r => if has "PARTICLE LIST" l
              then match r with l' :: _ => mapM parse_int (digits_of l') | [] => Err OtherError end
              else particle_list r
  end.

(** ** 273-326 _read_nodes_xyz *)
(** 288-292 the numbers of a line: in each word, the first one *)
Definition sci_numbers (l : str) : res (list Q) :=
  mapM (fun t => parse_float (fst t))
    (concat (map (fun w => match search sci_at w with Some x => [x] | None => [] end) (resplit l))).
Record nodes := mkNodes { n_rx : bool; n_ry : bool; n_rz : bool; n_x : list Q; n_y : list Q; n_z : list Q }.
Definition add_if (b : bool) (l : str) (xs : list Q) : res (list Q) := if b then do q <- sci_numbers l; Ok (xs ++ q) else Ok xs.
(** 284-316 one line *)
Definition node_line (s : nodes) (l : str) : res nodes :=
  do x <- add_if (n_rx s) l (n_x s); do y <- add_if (n_ry s) l (n_y s); do z <- add_if (n_rz s) l (n_z s);
  let rx := n_rx s || has "NODES X" l in
  let ry := n_ry s || has "NODES Y" l in
  let rx := if has "NODES Y" l then false else rx in
  let rz := n_rz s || has "NODES Z" l in
  let ry := if has "NODES Z" l then false else ry in
  Ok (mkNodes rx ry rz x y z).
(** 282 " ELEMENT TYPE" at the start *)
Definition elem_type (l : str) : bool := match strip_prefix (s2l " ELEMENT TYPE") l with Some _ => true | None => false end.
(** 318-324 np.concatenate of the three columns *)
Fixpoint columns3 (x y z : list Q) : res (list (Q * Q * Q)) :=
  match x, y, z with
  | a :: x, b :: y, c :: z => do r <- columns3 x y z; Ok ((a, b, c) :: r)
  | [], [], [] => Ok []
  | _, _, _ => Err ValueError
  end.
Fixpoint read_nodes (i : nat) (s : nodes) (lines : list str) : res (list (Q * Q * Q) * nat) :=
  match lines with
  | [] => Err OtherError
  | l :: r => do s <- node_line s l;
              if elem_type l then do p <- columns3 (n_x s) (n_y s) (n_z s); Ok (p, i) else read_nodes (S i) s r
  end.
Definition no_nodes : nodes := mkNodes false false false [] [] [].

(** ** 251-269 _read_material.  Without the end tag None is returned, which cannot be unpacked *)
Fixpoint read_material (i : nat) (flag : bool) (ms : list Z) (lines : list str) : res (list Z * nat) :=
  match lines with
  | [] => Err TypeError
  | l :: r =>
      if has "CONNECTIVITY DATA" l then Ok (firstn (length ms - 6) ms, i)
      else do ms <- (if flag then do zs <- mapM parse_int (resplit (strip l)); Ok (ms ++ zs) else Ok ms);
           read_material (S i) (flag || has "ELEMENT MATERIAL" l) ms r
  end.

(** ** 327-370 _read_connectivity *)
(** 333-344 the lines read, and how many lines the loop ran over before the last *)
Fixpoint conn_lines (flag : bool) (lines : list str) : res (list str * nat) :=
  match lines with
  | [] => Ok ([], 0)
  | l :: r =>
      let here := if flag then [l] else [] in
      let c := has "CONNECTIVITY DATA" l in
      if c && has "NODE ORDERED" l then Err NotImplementedError
      else if has "NEAREST NEIGHBOR DATA" l then Ok (here, 0)
      else do x <- conn_lines (flag || c) r; Ok (here ++ fst x, match r with [] => 0 | _ => S (snd x) end)
  end.
(** 346-347 del data[-1] twice *)
Definition drop_last {A} (l : list A) : res (list A) := match l with [] => Err IndexError | _ => Ok (removelast l) end.
(** 357-362 *)
Definition node_number (w : str) : res Z := do d <- of_opt AttributeError (first_digits w); do n <- parse_int d; Ok (n - 1)%Z.
Definition conn_line (l : str) : res (list Z) := mapM node_number (resplit (strip l)).
(** 364 np.reshape(conn, (-1, n)) *)
Definition reshape (n : nat) (l : list Z) : res (list (list Z)) := if length l mod n =? 0 then Ok (packs n l) else Err ValueError.
Definition read_connectivity (second : bool) (lines : list str) : res (list (list Z) * nat) :=
  do x <- conn_lines false lines;
  do d <- drop_last (fst x); do d <- drop_last d;
  do c <- mapM conn_line d;
  do e <- reshape (if second then 10 else 4) (concat c);
  Ok (e, snd x).

(** ** 372-423 _read_edits *)
(** 376-378 the three patterns *)
Definition after_tag (p : string) (w : ascii -> bool) (s : str) : option str :=
  obind (strip_prefix (s2l p) s) (fun a => obind (some1 is_ws a) (fun '(_, b) => obind (some1 w b) (fun '(x, _) => Some x))).
Definition is_word (c : ascii) : bool := is_letter c || is_digit c || Ascii.eqb c "_"%char.
Definition edit_key (l : str) : res str :=
  do p <- of_opt AttributeError (search (after_tag "DATA OUTPUT PARTICLE :" is_digit) l); do p <- parse_int p;
  do e <- of_opt AttributeError (search (after_tag "EDIT LIST :" is_digit) l); do e <- parse_int e;
  do t <- of_opt AttributeError (search (after_tag "TYPE :" is_word) l);
  Ok (s2l "Tally" ++ str_of_Z e ++ s2l "_par" ++ str_of_Z p ++ s2l "_" ++ t).
(** 43 PAT_VALUE = \s[\s-]\d at the start *)
Definition value_line (l : str) : bool :=
  match l with a :: b :: c :: _ => is_ws a && (is_ws b || Ascii.eqb b minus) && is_digit c | _ => false end.
Definition floats_of (l : str) : res (list Q) := mapM parse_float (resplit (strip l)).
(** the dictionary of an edit: its "values" and its "errors" *)
Record field := mkField { f_values : option (list Q); f_errors : option (list Q) }.
Record edits := mkEdits { e_all : list (str * field); e_current : option str; e_block : option (bool * list Q) }.
(** 401 edits[current_tally][value_type] = values_list[1:] *)
Definition store (s : edits) (errors : bool) (qs : list Q) : res (list (str * field)) :=
  do k <- of_opt UnboundLocalError (e_current s);
  do f <- of_opt KeyError (dget str_eqb k (e_all s));
  Ok (dset str_eqb k (if errors then mkField (f_values f) (Some (tl qs)) else mkField (Some (tl qs)) (f_errors f)) (e_all s)).
(** 385-418 one line *)
Definition edit_line (s : edits) (l : str) : res edits :=
  do s <- (if has "DATA OUTPUT PARTICLE" l
           then do k <- edit_key l; Ok (mkEdits (dset str_eqb k (mkField None None) (e_all s)) (Some k) (e_block s))
           else Ok s);
  do s <- match e_block s with
          | Some (er, qs) => if value_line l then do q <- floats_of l; Ok (mkEdits (e_all s) (e_current s) (Some (er, qs ++ q)))
                             else do d <- store s er qs; Ok (mkEdits d (e_current s) None)
          | None => Ok s
          end;
  Ok (if has "DATA SETS RESULT TIME BIN" l || has "DATA SETS REL ERROR TIME BIN" l
      then mkEdits (e_all s) (e_current s) (Some (negb (has "RESULT" l), []))
      else s).
Fixpoint read_edits (i : nat) (s : edits) (lines : list str) : res (list (str * field) * nat) :=
  match lines with
  | [] => Err OtherError
  | l :: r => do s <- edit_line s l; if has "CENTROIDS X" l then Ok (e_all s, i) else read_edits (S i) s r
  end.
Definition no_edits : edits := mkEdits [] None None.

(** ** 427-448 _read_rho_vol *)
Fixpoint read_rho_vol (dens vol : bool) (rho vs : list Q) (lines : list str) : res (list Q * list Q) :=
  match lines with
  | [] => Ok (rho, vs)
  | l :: r =>
      do x <- (if (dens || vol) && value_line l
               then do q <- floats_of l; Ok (if dens then (rho ++ q, vs) else (rho, vs ++ q))
               else Ok (rho, vs));
      let v := has "VOLUMES" l in
      read_rho_vol (if v then false else dens || has "DENSITY" l) (vol || v) (fst x) (snd x) r
  end.

(** ** 91-166 __init__ *)
(** 100-117 first order and second order elements; true for the second order *)
Definition tetra (t1 t2 : Z) : res (bool * Z) :=
  if ((0 <? t1) && (t2 =? 0))%Z then Ok (false, t1) else if ((0 <? t2) && (t1 =? 0))%Z then Ok (true, t2) else Err NotImplementedError.
Record eeout := mkEeout {
  g_info : list (str * Z); g_nodes : Z; g_elems : Z; g_second : bool; g_particles : list Z;
  g_points : list (Q * Q * Q); g_cells : list (list Z);
  g_material : list (option str); g_density : list Q; g_volume : list Q;
  g_fields : list (str * list Q) }.
(** pyvista: an array has a value per point or a value per cell *)
Definition fits {A} (points cells : nat) (l : list A) : res unit :=
  if (length l =? points) || (length l =? cells) then Ok tt else Err ValueError.
(** 159-161 *)
Definition edit_arrays (points cells : nat) (x : str * field) : res (list (str * list Q)) :=
  do v <- of_opt KeyError (f_values (snd x)); do _ <- fits points cells v;
  do e <- of_opt KeyError (f_errors (snd x)); do _ <- fits points cells e;
  Ok [(fst x ++ s2l " - value", v); (fst x ++ s2l " - error", e)].
Definition read_eeout (lines : list str) : res eeout :=
  do info <- read_info false [] lines;
  do nm <- count "NUMBER OF MATERIALS" info;
  do mats <- materials nm lines;
  do t1 <- count "NUMBER OF 1st TETS" info; do t2 <- count "NUMBER OF 2nd TETS" info;
  do nn <- count "NUMBER OF NODES" info;
  do t <- tetra t1 t2;
  do ps <- particle_list lines;
  do np <- count "NUMBER OF PARTICLES" info;
  if negb (Z.of_nat (length ps) =? np)%Z then Err OtherError else
  do n <- read_nodes 0 no_nodes lines;
  let i := snd n in
  do m <- read_material i false [] (skipn i lines);
  let j := snd m in
  do c <- read_connectivity (fst t) (skipn j lines);
  let k := j + snd c in
  do e <- read_edits k no_edits (skipn k lines);
  do rv <- read_rho_vol false false [] [] (skipn (snd e) lines);
  let points := length (fst n) in let cells := length (fst c) in
  if negb (Z.of_nat cells =? snd t)%Z then Err ValueError else
  if length (fst m) =? 0 then Err ValueError else
  do _ <- fits points cells (fst m); do _ <- fits points cells (fst rv); do _ <- fits points cells (snd rv);
  do fs <- mapM (edit_arrays points cells) (fst e);
  Ok (mkEeout info nn (snd t) (fst t) ps (fst n) (fst c)
        (map (fun z => if (1 <=? z)%Z then nth_error mats (Z.to_nat (z - 1)) else None) (fst m)) (fst rv) (snd rv) (concat fs)).

(** 145-151 the vtk type given to every cell: the 4-node tetrahedron (10) whatever the order of the elements *)
Definition vtk_tetra : Z := 10.
Definition cell_type (g : eeout) : Z := if g_second g then vtk_tetra else vtk_tetra.

(** ** 94, 168-204 the name of the file and export: the path that is written ([sep] is os.sep, folders are given without a trailing one) *)
Definition stem (basename : str) : str := before_dot basename.
Definition export (exists_ : str -> bool) (sep : ascii) (basename folder : str) (filename : option str) (format : str) : res str :=
  if negb (exists_ folder) then Err ValueError
  else if negb (memb str_eqb format [s2l "vtu"]) then Err NotImplementedError
  else Ok (folder ++ sep :: (match filename with Some f => f | None => stem basename end) ++ dot :: format).
