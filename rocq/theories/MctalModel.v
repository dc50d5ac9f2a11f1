(** Model of src/f4enix/output/mctal.py: the reader of MCNP mctal files (classes Tally and Mctal),
    the tables it builds from them and the summary of the errors.
    An open file is the list of the lines still to be read, each with its line end ([MeshModel.file]).
    Floats are exact rationals, with NaN as None where the code tests for it.  IOError and SystemExit
    are [OtherError].  Not modelled: infinities, the lists of particle and detector names (never used),
    the option collapse of _get_dfs (the class never sets it). *)
From Verif Require Import PyBase PyStr PyText D1SModel DataModel MeshModel.
Open Scope nat_scope.

(** ** text *)
(** float(s) of a word: None is NaN *)
Notation fl := (option Q).
Definition is_nan_word (s : str) : bool := str_eqb (map lower (snd (take_sign s))) (s2l "nan").
Definition pyfloat (s : str) : res fl :=
  if is_nan_word s then Ok None else do q <- parse_float s; Ok (Some q).
(** line[n] of a list of words, and int(line[n]) *)
Definition word (n : nat) (ws : list str) : res str := of_opt IndexError (nth_error ws n).
Definition int_at (n : nat) (ws : list str) : res Z := do w <- word n ws; parse_int w.
(** s.rstrip() *)
Definition rstrip (s : str) : str := rev (lstrip (rev s)).

(** ** 689-738 _getHeaders: the tally numbers, the title and the words of the line that stopped it.
    logging.error(..., file=...) raises TypeError (the keyword is not accepted) before sys.exit *)
Record header := mkHeader { h_id : option (str * str * str * str); h_run : option (Z * Z * Z);
                            h_title : str; h_ntal : Z; h_ntals : list Z }.
(** 694-710 *)
Definition head_line (ws : list str) : res (option (str * str * str * str) * option (Z * Z * Z)) :=
  match ws with
  | [k; v; d; h; a; b; c] => do x <- parse_int a; do y <- parse_int b; do z <- parse_int c; Ok (Some (k, v, d, h), Some (x, y, z))
  | [a; b; c] => do x <- parse_int a; do y <- parse_int b; do z <- parse_int c; Ok (None, Some (x, y, z))
  | _ => Ok (None, None)
  end.
(** 732-738 *)
Fixpoint head_tallies (f : file) : res (list Z * list str * file) :=
  match f with
  | [] => Err IndexError
  | l :: f' =>
      do w <- word 0 (split l);
      if str_eqb (map lower w) (s2l "tally") then Ok ([], split l, f')
      else do ns <- mapM parse_int (split l); do '(ms, ws, f2) <- head_tallies f'; Ok (ns ++ ms, ws, f2)
  end.
(** 689-738 *)
Definition get_headers (f : file) : res (header * list str * file) :=
  let (l1, f1) := readline f in
  do '(i, r) <- head_line (split l1);
  let (l2, f2) := readline f1 in
  let (l3, f3) := readline f2 in
  do n <- int_at 1 (split l3);
  if (n =? 0)%Z then Err TypeError
  else if length (split l3) =? 4 then do _ <- int_at 3 (split l3); Err TypeError
  else do '(ns, ws, f4) <- head_tallies f3; Ok (mkHeader i r (strip l2) n ns, ws, f4).

(** ** 80-246 Tally: the marker of a total or cumulative bin, and the tally *)
Inductive tcflag := Total | Cumulative.
Record axis := mkAxis { a_n : Z; a_tc : option tcflag; a_flag : Z; a_bins : list Q }.
Record tally := mkTally {
  t_number : Z; t_type : Z; t_detector : Z; t_radiograph : bool; t_mesh : bool;
  t_particles : list Z; t_comment : list str;
  t_nCells : Z; t_meshInfo : Z * Z * Z * Z; t_cells : list Q;
  t_cora : list Q; t_corb : list Q; t_corc : list Q;
  t_nDir : Z; t_usr : axis; t_seg : axis; t_mul : axis; t_cos : axis; t_erg : axis; t_tim : axis;
  t_vals : list (list nat * (fl * fl));
  t_jtf : list Z; t_dat : list (list fl) }.

(** while self.line[0].lower() != stop: for each line do [ins], then read the next one.  Past the end of the
    file the line is "", whose [0] raises *)
Fixpoint section {A} (stop : ascii) (ins : A -> str -> res A) (a : A) (line : str) (f : file) : res (A * str * file) :=
  match line with
  | [] => Err IndexError
  | c :: _ => if Ascii.eqb (lower c) stop then Ok (a, line, f)
              else do a' <- ins a line;
                   match f with [] => Err IndexError | l :: f' => section stop ins a' l f' end
  end.
(** 868-869, 926-927: while self.line[0].lower() != stop: self.line = readline(), entered with a list of words *)
Fixpoint skip_to (stop : ascii) (f : file) : res (str * file) :=
  match f with
  | [] => Err IndexError
  | l :: f' => match l with
               | [] => Err IndexError
               | c :: _ => if Ascii.eqb (lower c) stop then Ok (l, f') else skip_to stop f'
               end
  end.

(** 774-792 the particle list, absent in some files *)
Definition is_digits (w : str) : bool := forallb is_digit w.
Definition particles (line : str) (f : file) : res (list Z * str * file) :=
  do yes <- match line with
            | [] => Err IndexError
            | c :: r => if Ascii.eqb c sp
                        then match r with [] => Err IndexError | d :: _ => Ok (negb (Ascii.eqb d sp)) end
                        else Ok false
            end;
  if yes : bool
  then do ps <- mapM (fun w => if is_digits w then parse_int w else Err OtherError) (split line);
       match ps with [] => Ok ([], line, f) | _ => let (l, f') := readline f in Ok (ps, l, f') end
  else Ok ([], line, f).
(** 794-796 the comment lines (the second half of the condition never matters) *)
Definition five_blanks (line : str) : bool := str_eqb (firstn 5 line) (repeat sp 5).
Fixpoint comments (line : str) (f : file) : list str * str * file :=
  if five_blanks line
  then match f with
       | [] => ([rstrip (skipn 5 line)], [], [])
       | l :: f' => let '(cs, l2, f2) := comments l f' in (rstrip (skipn 5 line) :: cs, l2, f2)
       end
  else ([], line, f).

(** 338-433 _insertCell, _insertUsr, _insertSeg, _insertCos, _insertErg, _insertTim, _insertRadiograph: append while
    len(bins) <= cap; what is raised when it refuses *)
Definition insert (cap : Z) (full : exn) (xs : list Q) (x : Q) : res (list Q) :=
  if (Z.of_nat (length xs) <=? cap)%Z then Ok (xs ++ [x]) else Err full.
Definition insert_line (cap : Z) (full : exn) (xs : list Q) (line : str) : res (list Q) :=
  foldM (fun xs w => do x <- parse_float w; insert cap full xs x) xs (split line).

(** 841-856 a line of cell numbers: floats if it has a dot and no E *)
Definition has_char (c : ascii) (s : str) : bool := existsb (Ascii.eqb c) s.
Definition cell_line (cap : Z) (xs : list Q) (line : str) : res (list Q) :=
  if has_char dot line && negb (has_char "E"%char line) then insert_line cap OtherError xs line
  else foldM (fun xs w => do z <- parse_int w; insert cap OtherError xs (inject_Z z)) xs (split line).
(** 826-840, 347-369 _insertCorBin, a line of mesh coordinates: a bins, then b bins, then c bins *)
Record cors := mkCors { c_a : list Q; c_b : list Q; c_c : list Q; c_i : Z; c_axis : nat }.
Definition cor_word (na nb nc : Z) (s : cors) (w : str) : res cors :=
  match c_axis s with
  | 0 => do x <- parse_float w; do xs <- insert (na + 1) OtherError (c_a s) x;
         Ok (if (c_i s + 1 =? na + 1)%Z then mkCors xs (c_b s) (c_c s) 0 1 else mkCors xs (c_b s) (c_c s) (c_i s + 1) 0)
  | 1 => do x <- parse_float w; do xs <- insert (nb + 1) OtherError (c_b s) x;
         Ok (if (c_i s + 1 =? nb + 1)%Z then mkCors (c_a s) xs (c_c s) 0 2 else mkCors (c_a s) xs (c_c s) (c_i s + 1) 1)
  | 2 => do x <- parse_float w; do xs <- insert (nc + 1) OtherError (c_c s) x;
         Ok (if (c_i s + 1 =? nc + 1)%Z then mkCors (c_a s) (c_b s) xs 0 3 else mkCors (c_a s) (c_b s) xs (c_i s + 1) 2)
  | _ => Err IndexError
  end.
Definition cor_line (na nb nc : Z) (s : cors) (line : str) : res cors := foldM (cor_word na nb nc) s (split line).

(** 870-875 and its likes: the first word gives the marker *)
Definition marker (letter : ascii) (w : str) : option tcflag :=
  if str_eqb (map lower w) [letter; "t"%char] then Some Total
  else if str_eqb (map lower w) [letter; "c"%char] then Some Cumulative else None.
(** a head line of an axis: number of bins, marker, flag (a third word) *)
Definition axis_line (letter : ascii) (flagged : bool) (line : str) : res (Z * option tcflag * Z) :=
  let ws := split line in
  do w <- word 0 ws;
  do n <- int_at 1 ws;
  do g <- (if flagged && (length ws =? 3) then int_at 2 ws else Ok 0%Z);
  Ok (n, marker letter w, g).

(** 989-996 the time bins: while self.line.strip().lower() != "vals"; past the end of the file this never ends *)
Fixpoint time_bins (cap : Z) (xs : list Q) (line : str) (f : file) : res (list Q * str * file) :=
  if str_eqb (map lower (strip line)) (s2l "vals") then Ok (xs, line, f)
  else do xs' <- insert_line cap OtherError xs line;
       match f with [] => Err Diverges | l :: f' => time_bins cap xs' l f' end.

(** ** 998-1075 the values *)
(** 515-565 _getNbins, including the total bin *)
Definition one1 (z : Z) : Z := if (z =? 0)%Z then 1%Z else z.
(** the loops: c, d, u, s, m, a, e, t, k, j, i, the last innermost *)
Fixpoint cart (ds : list nat) : list (list nat) :=
  match ds with
  | [] => [[]]
  | d :: ds' => flat_map (fun i => map (cons i) (cart ds')) (seq 0 d)
  end.
(** 1038-1044: a number that cannot be read makes both 0 *)
Definition pair_of (ws : list str) : res ((fl * fl) * list str) :=
  match ws with
  | [] => Err IndexError
  | a :: r => match pyfloat a with
              | Err _ => Ok ((Some 0, Some 0)%Q, tl r)
              | Ok x => match r with
                        | [] => Err IndexError
                        | b :: r' => match pyfloat b with
                                     | Err _ => Ok ((Some 0, Some 0)%Q, r')
                                     | Ok y => Ok ((x, y), r')
                                     end
                        end
              end
  end.
Definition is_tfc (line : str) : bool := str_eqb (firstn 3 line) (s2l "tfc").
(** 1016-1073: n values are wanted; a new line is read when the words of the last one are used up.  On the
    tfc line nothing is stored (None: np.empty leaves whatever was in the memory) *)
Fixpoint read_vals (n : nat) (line : str) (ws : list str) (f : file) : res (list (option (fl * fl)) * str * file) :=
  match n with
  | O => Ok ([], line, f)
  | S n' =>
      let '(line1, ws1, f1) := match ws with
                               | [] => let (l, f') := readline f in (strip l, split (strip l), f')
                               | _ => (line, ws, f)
                               end in
      if is_tfc line1
      then do '(vs, l2, f2) <- read_vals n' line1 ws1 f1; Ok (None :: vs, l2, f2)
      else do '(v, ws2) <- pair_of ws1;
           do '(vs, l2, f2) <- read_vals n' line1 ws2 f1; Ok (Some v :: vs, l2, f2)
  end.

(** 1077-1129 the tally fluctuation chart *)
Definition has_tally (line : str) : bool := has "tally" line.
Definition stops (line : str) : bool := has_tally line || match line with [] => true | _ => false end.
Definition dat_line (ws : list str) : res (list fl) :=
  do n <- int_at 0 ws;
  do w1 <- word 1 ws;
  let v := match pyfloat w1 with Ok x => x | Err _ => Some 0%Q end in
  do w2 <- word 2 ws; do e <- pyfloat w2;
  if length ws =? 4 then do w3 <- word 3 ws; do g <- pyfloat w3; Ok [Some (inject_Z n); v; e; g]
  else Ok [Some (inject_Z n); v; e].
Fixpoint tfc_dat (line : str) (f : file) : res (list (list fl) * str * file) :=
  if stops line then Ok ([], line, f)
  else do d <- dat_line (split line);
       match f with
       | [] => Ok ([d], [], [])
       | l :: f' => do '(ds, l2, f2) <- tfc_dat (strip l) f'; Ok (d :: ds, l2, f2)
       end.
Definition read_tfc (f : file) : res (list Z * list (list fl) * str * file) :=
  let (l, f1) := readline f in
  do w <- word 0 (split (strip l));
  if str_eqb w (s2l "tfc")
  then do js <- mapM parse_int (tl (split (strip l)));
       if length js =? 9
       then let (l2, f2) := readline f1 in
            do '(ds, l3, f3) <- tfc_dat (strip l2) f2; Ok (js, ds, l3, f3)
       else Err OtherError
  else Err OtherError.
(** 1131-1133 a mesh tally: skip to the next tally or blank line *)
Fixpoint skip_mesh (line : str) (f : file) : str * file :=
  if stops line then (line, f)
  else match f with [] => ([], []) | l :: f' => skip_mesh (strip l) f' end.

Section Memory.
(** what np.empty leaves where nothing is stored *)
Variable junk : fl * fl.

(** 748-1142 _parseTally: the tally, the words of the line that opens the next one (None at the end) *)
Definition parse_tally (ws : list str) (f : file) : res (tally * option (list str) * file) :=
  do num <- int_at 1 ws; do ty <- int_at 2 ws; do det <- int_at 3 ws;
  let radiograph := (3 <=? det)%Z in
  let mesh := (det <=? -1)%Z in
  let (l1, f1) := readline f in
  do '(parts, l2, f2) <- particles l1 f1;
  let '(comm, l3, f3) := comments l2 f2 in
  let fw := split l3 in
  do '(nCells, (mi, na, nb, nc)) <-
    (if mesh then do a <- int_at 2 fw; do b <- int_at 3 fw; do c <- int_at 4 fw; do d <- int_at 5 fw; Ok (1%Z, (a, b, c, d))
     else do n <- int_at 1 fw; Ok (n, (0, 1, 1, 1)%Z));
  let cells0 := if (Z.abs num mod 10 =? 5)%Z then map (fun k => inject_Z (Z.of_nat k)) (seq 1 (Z.to_nat nCells)) else [] in
  let (l4, f4) := readline f3 in
  do '((cells, cs), l5, f5) <-
    (if mesh then do '(s, l, g) <- section "d" (cor_line na nb nc) (mkCors [] [] [] 0 0) l4 f4; Ok ((cells0, s), l, g)
     else do '(xs, l, g) <- section "d" (cell_line nCells) cells0 l4 f4; Ok ((xs, mkCors [] [] [] 0 0), l, g));
  do nDir <- int_at 1 (split l5);
  do '(l6, f6) <- skip_to "u" f5;
  do '(nUsr, uTC, _) <- axis_line "u" false l6;
  let (l7, f7) := readline f6 in
  do '(usr, l8, f8) <- section "s" (insert_line nUsr OtherError) [] l7 f7;
  do '(nSeg, sTC, _) <- axis_line "s" false l8;
  let (l9, f9) := readline f8 in
  do '(seg, l10, f10) <- section "m" (insert_line (if radiograph then nSeg + 1 else nSeg) OtherError) [] l9 f9;
  do '(nMul, mTC, _) <- axis_line "m" false l10;
  do '(l11, f11) <- skip_to "c" f10;
  do '(nCos, cTC, cFl) <- axis_line "c" true l11;
  let (l12, f12) := readline f11 in
  do '(cos, l13, f13) <- section "e" (insert_line (if radiograph then nCos + 1 else nCos) (if radiograph then ValueError else OtherError)) [] l12 f12;
  do '(nErg, eTC, eFl) <- axis_line "e" true l13;
  let (l14, f14) := readline f13 in
  do '(erg, l15, f15) <- section "t" (insert_line nErg OtherError) [] l14 f14;
  do '(nTim, tTC, tFl) <- axis_line "t" true l15;
  let (l16, f16) := readline f15 in
  do '(tim, l17, f17) <- time_bins nTim [] l16 f16;
  let dims := [one1 nCells; one1 nDir; one1 nUsr; one1 nSeg; one1 nMul; one1 nCos; one1 nErg; one1 nTim; nc; nb; na] in
  if existsb (fun z => z <? 0)%Z dims then Err ValueError
  else
  let idx := cart (map Z.to_nat dims) in
  do '(vs, l18, f18) <- read_vals (length idx) l17 [] f17;
  let vals := combine idx (map (fun o => match o with Some v => v | None => junk end) vs) in
  do '(jtf, dat, l19, f19) <- (if mesh then let (l, g) := skip_mesh l18 f18 in Ok ([], [], l, g) else read_tfc f18);
  let cut3 {A} (l : list A) := if radiograph then removelast (removelast (removelast l)) else l in
  Ok (mkTally num ty det radiograph mesh parts comm nCells (mi, na, nb, nc) cells
        (removelast (c_a cs)) (removelast (c_b cs)) (removelast (c_c cs)) nDir
        (mkAxis nUsr uTC 0 usr) (mkAxis nSeg sTC 0 (cut3 seg)) (mkAxis nMul mTC 0 [])
        (mkAxis nCos cTC cFl (cut3 cos)) (mkAxis nErg eTC eFl erg) (mkAxis nTim tTC tFl tim) vals jtf dat,
      match l19 with [] => None | _ => Some (split l19) end, f19).

(** 740-747 _getTallies.  Each tally uses at least one line, so [fuel] is never used up *)
Fixpoint get_tallies (fuel : nat) (ws : list str) (f : file) : res (list tally) :=
  match fuel with
  | O => Err Diverges
  | S n => do '(t, next, f') <- parse_tally ws f;
           match next with
           | None => Ok [t]
           | Some ws' => do ts <- get_tallies n ws' f'; Ok (t :: ts)
           end
  end.
(** 1047-1050, 1104-1110 thereAreNaNs *)
Definition isnan (x : fl) : bool := match x with None => true | Some _ => false end.
Definition has_nans (t : tally) : bool :=
  existsb (fun p => isnan (fst (snd p)) || isnan (snd (snd p))) (t_vals t)
  || existsb (fun d => isnan (nth 1 d (Some 0%Q)) || isnan (nth 2 d (Some 0%Q))) (t_dat t).
(** 670-687 _read.  [info]: whether the root logger handles INFO messages; logging.info(..., file=...)
    raises TypeError then *)
Definition read_mctal (info : bool) (f : file) : res (header * list tally) :=
  do '(h, ws, f1) <- get_headers f;
  do ts <- get_tallies (S (length f1)) ws f1;
  if info && existsb has_nans ts then Err TypeError else Ok (h, ts).

End Memory.

(** ** 1144-1380 _get_dfs *)
Inductive dval := VQ (q : Q) | VS (s : str) | VNaN.
Definition veq (a b : dval) : bool :=
  match a, b with
  | VQ x, VQ y => Qeq_bool x y
  | VS x, VS y => str_eqb x y
  | _, _ => false
  end.
Definition notnan (v : dval) : bool := match v with VNaN => false | _ => true end.
Definition of_fl (x : fl) : dval := match x with Some q => VQ q | None => VNaN end.
Definition vnat (n : nat) : dval := VQ (inject_Z (Z.of_nat n)).

(** a table: the names of the columns and the rows, each with its index label *)
Record df := mkDf { d_cols : list string; d_rows : list (nat * list dval) }.

(** 460-462 _getValue, with all indices in range(n) (see [last_index] for -1) *)
Definition idx_eqb (a b : list nat) : bool := if list_eq_dec Nat.eq_dec a b then true else false.
Definition get_value (t : tally) (idx : list nat) : res (fl * fl) := of_opt IndexError (dget idx_eqb idx (t_vals t)).
(** the shape of the array of values, in the order of the loops *)
Definition shape (t : tally) : list nat :=
  let '(_, na, nb, nc) := t_meshInfo t in
  map Z.to_nat [one1 (t_nCells t); one1 (t_nDir t); one1 (a_n (t_usr t)); one1 (a_n (t_seg t)); one1 (a_n (t_mul t));
                one1 (a_n (t_cos t)); one1 (a_n (t_erg t)); one1 (a_n (t_tim t)); nc; nb; na].
(** index -1 on every axis but the first *)
Definition last_index (t : tally) (f : nat) : list nat := f :: map (fun n => n - 1) (tl (shape t)).

(** 1191-1203 the cell labels: a zero becomes "Input n" *)
Fixpoint cell_labels (i : nat) (cells : list Q) : list dval :=
  match cells with
  | [] => []
  | c :: cs => (if (qtrunc c =? 0)%Z then VS (s2l "Input " ++ str_of_N (N.of_nat (i + 1))) else VQ (inject_Z (qtrunc c))) :: cell_labels (S i) cs
  end.
(** 1205-1207 an empty binning becomes [nan] *)
Definition or_nan (l : list dval) : list dval := match l with [] => [VNaN] | _ => l end.
(** 1170-1207 the labels of d, u, s, m, c, e, t, k, j, i, in the order of the loops; the segments are
    numbered from 1 without the total one *)
Definition seg_count (t : tally) : Z :=
  (one1 (a_n (t_seg t)) - match a_tc (t_seg t) with Some Total => 1 | _ => 0 end)%Z.
Definition labels (t : tally) : list (list dval) :=
  [or_nan (map vnat (seq 0 (Z.to_nat (t_nDir t))));
   or_nan (map VQ (a_bins (t_usr t)));
   map vnat (seq 1 (Z.to_nat (seg_count t)));
   or_nan (map vnat (seq 0 (Z.to_nat (a_n (t_mul t)))));
   or_nan (map VQ (a_bins (t_cos t)));
   or_nan (map VQ (a_bins (t_erg t)));
   or_nan (map VQ (a_bins (t_tim t)));
   or_nan (map VQ (t_corc t)); or_nan (map VQ (t_corb t)); or_nan (map VQ (t_cora t))].
Definition cells_of (t : tally) : list dval := or_nan (cell_labels 0 (t_cells t)).

(** 1309-1323 the names of the columns *)
Definition columns : list string :=
  ["Cells"; "Dir"; "User"; "Segments"; "Multiplier"; "Cosine"; "Energy"; "Time"; "Cor C"; "Cor B"; "Cor A"; "Value"; "Error"]%string.
(** 1224-1268 the row of a cell and a combination of labels d, u, s, m, c, e, t, k, j, i *)
Definition row_of (fn : dval) (ls : list dval) (v : fl * fl) : list dval :=
  match ls with
  | [d; u; s; m; c; e; t; k; j; i] => [fn; d; u; s; m; c; e; t; i; j; k; of_fl (fst v); of_fl (snd v)]
  | _ => []
  end.
(** 1210-1268 the loops inside a cell *)
Fixpoint pick (ls : list (list dval)) (idx : list nat) : list dval :=
  match ls, idx with
  | l :: ls', i :: idx' => nth i l VNaN :: pick ls' idx'
  | _, _ => []
  end.
Definition cell_rows (t : tally) (f : nat) (fn : dval) : res (list (list dval)) :=
  mapM (fun idx => do v <- get_value t (f :: idx); Ok (row_of fn (pick (labels t) idx) v)) (cart (map (@length dval) (labels t))).
(** 1270-1306 the total row of a cell: the labels are those of the last combination (m is the index, not the
    label), one of them replaced by "total".  The number is the position of the column *)
Definition total_col (t : tally) : option nat :=
  if a_tc (t_tim t) then Some 7 else if a_tc (t_erg t) then Some 6 else if a_tc (t_seg t) then Some 3
  else if a_tc (t_cos t) then Some 5 else if a_tc (t_usr t) then Some 2 else if a_tc (t_mul t) then Some 4 else None.
Fixpoint set_nth {A} (n : nat) (x : A) (l : list A) : list A :=
  match l, n with
  | [], _ => []
  | _ :: r, O => x :: r
  | y :: r, S n' => y :: set_nth n' x r
  end.
Definition total_row (t : tally) (f : nat) (fn : dval) (p : nat) : res (list dval) :=
  do v <- get_value t (last_index t f);
  let ls := map (fun l => last l VNaN) (labels t) in
  let m := vnat (length (nth 3 (labels t) []) - 1) in
  Ok (set_nth p (VS (s2l "total")) (row_of fn (set_nth 3 m ls) v)).
(** 1209-1306 all rows.  Without a segment the names of the loops are unbound in the total row (for a
    later tally Python would use those of the tally before; this is not modelled).  Line 1273 reads the
    last value even when there is no total *)
Fixpoint all_rows (t : tally) (f : nat) (fns : list dval) : res (list (list dval)) :=
  match fns with
  | [] => Ok []
  | fn :: r =>
      do rows <- cell_rows t f fn;
      do _ <- get_value t (last_index t f);
      do tot <- match total_col t with
                | None => Ok []
                | Some p => if (seg_count t <=? 0)%Z then Err UnboundLocalError else do x <- total_row t f fn p; Ok [x]
                end;
      do rest <- all_rows t (S f) r;
      Ok (rows ++ tot ++ rest)
  end.

(** 1326-1337 the columns that stay: without NaN, and (with more than one row) not constant *)
Definition column (p : nat) (rows : list (list dval)) : list dval := map (fun r => nth p r VNaN) rows.
Definition name_of (p : nat) : string := nth p columns ""%string.
Definition kept (rows : list (list dval)) : list nat :=
  filter (fun p => (11 <=? p) || (length rows <=? 1) || negb (forallb (fun v => veq v (hd VNaN (column p rows))) (column p rows)))
    (filter (fun p => forallb notnan (column p rows)) (seq 0 13)).
Definition select (ks : list nat) (r : list dval) : list dval := map (fun p => nth p r VNaN) ks.
(** 1339-1341 drop_duplicates keeps the first of equal rows, with its index label *)
Fixpoint row_eqb (a b : list dval) : bool :=
  match a, b with
  | [], [] => true
  | x :: a', y :: b' => veq x y && row_eqb a' b'
  | _, _ => false
  end.
Fixpoint drop_dup (seen : list (list dval)) (rows : list (nat * list dval)) : list (nat * list dval) :=
  match rows with
  | [] => []
  | (i, r) :: rest => if memb row_eqb r seen then drop_dup seen rest else (i, r) :: drop_dup (r :: seen) rest
  end.
Definition table (t : tally) : res df :=
  do rows <- all_rows t 0 (cells_of t);
  let ks := kept rows in
  Ok (mkDf (map name_of ks) (drop_dup [] (combine (seq 0 (length rows)) (map (select ks) rows)))).

(** 1369-1375 df[df[total] == "total"]; None without such a column *)
Definition col_pos (n : string) (d : df) : option nat := index_of String.eqb n (d_cols d).
Definition total_rows (total : option string) (d : df) : option df :=
  match total with
  | None => None
  | Some n => match col_pos n d with
              | None => None
              | Some p => Some (mkDf (d_cols d) (filter (fun ir => veq (nth p (snd ir) VNaN) (VS (s2l "total"))) (d_rows d)))
              end
  end.
(** 1167-1380 the loop over the tallies: the name [total] keeps its value from one tally to the next *)
Fixpoint dfs (total : option string) (ts : list tally) : res (list (Z * (df * option df))) :=
  match ts with
  | [] => Ok []
  | t :: r =>
      do d <- table t;
      let total' := match total_col t with Some p => Some (name_of p) | None => total end in
      do rest <- dfs total' r;
      Ok ((t_number t, (d, total_rows total' d)) :: rest)
  end.
(** tallydata and totalbin: a repeated number keeps the last table, in the first place *)
Definition get_dfs (ts : list tally) : res (list (Z * (df * option df))) :=
  do l <- dfs None ts; Ok (fold_left (fun d kv => dset Z.eqb (fst kv) (snd kv) d) l []).

(** ** 616-668 get_error_summary *)
Definition floats (n : string) (d : df) : res (list Q) :=
  do p <- of_opt KeyError (col_pos n d);
  mapM (fun ir => match nth p (snd ir) VNaN with VQ q => Ok q | _ => Err TypeError end) (d_rows d).
(** Series.min and Series.idxmin: the first of the smallest ([lt]: strictly better) *)
Fixpoint best (lt : Q -> Q -> bool) (l : list (nat * Q)) : option (nat * Q) :=
  match l with
  | [] => None
  | x :: r => match best lt r with
              | None => Some x
              | Some y => if lt (snd y) (snd x) then Some y else Some x
              end
  end.
Definition qlt (a b : Q) : bool := negb (Qle_bool b a).
(** one line: the tally, the smallest error and the value beside it, the largest error and the value beside it *)
Definition summary_row (k : Z) (d : df) : res (Z * (fl * Q) * (fl * Q)) :=
  do es <- floats "Error" d;
  do '(imin, emin) <- of_opt ValueError (best qlt (combine (map fst (d_rows d)) es));
  do '(imax, emax) <- of_opt ValueError (best (fun a b => qlt b a) (combine (map fst (d_rows d)) es));
  do vs <- floats "Value" d;
  do vmin <- of_opt IndexError (nth_error vs imin);
  do vmax <- of_opt IndexError (nth_error vs imax);
  let masked (e v : Q) := if Qeq_bool e 0 && Qeq_bool v 0 then None else Some e in
  Ok (k, (masked emin vmin, vmin), (masked emax vmax, vmax)).
Definition error_summary (data : list (Z * (df * option df))) : res (list (Z * (fl * Q) * (fl * Q))) :=
  mapM (fun kd => summary_row (fst kd) (fst (snd kd))) data.
