(** Model of the text layer of weight window files,
    src/f4enix/input/ww_gvr/ww_parser.py 21-184 (reader) and 284-376 (writer).
    A file is the list of its lines, without the newline characters (every line is
    only ever used through [readline().split()], which drops them); [readline] at end
    of file returns the empty string, again and again.  Floats are exact rationals.
    A [while] loop is given fuel; [Running] means that the fuel ran out. *)
From Verif Require Import PyBase PyStr.

Inductive outcome (A : Type) := Done (r : res A) | Running.
Arguments Done {A}. Arguments Running {A}.
Definition obind {A B} (m : outcome A) (f : A -> outcome B) : outcome B :=
  match m with Done (Ok a) => f a | Done (Err e) => Done (Err e) | Running => Running end.
Notation "'run' x <- m ; f" := (obind m (fun x => f)) (at level 200, x name, m at level 100, f at level 200).
Notation "'run' ' p <- m ; f" := (obind m (fun p => f)) (at level 200, p strict pattern, m at level 100, f at level 200).

(** ww_parser.py 21-41 WWHeader / WWHeaderCyl ([h_dirs] is Some for the latter) *)
Record header := mkheader {
  h_if : Z; h_iv : Z; h_ni : Z; h_nr : Z; h_probid : str; h_ne : list Z;
  h_nfx : Z; h_nfy : Z; h_nfz : Z; h_origin : list Q;
  h_ncx : Z; h_ncy : Z; h_ncz : Z; h_dirs : option (list Q * list Q) }.

(** ww_parser.py 44-49 ParseResult *)
Record parsed := mkparsed {
  p_header : header; p_b2i : list Q; p_b2j : list Q; p_b2k : list Q;
  p_energies : list (list Q); p_values : list (list Q) }.

(** infile.readline().split(), and the rest of the file *)
Definition readwords (f : list str) : list str * list str :=
  match f with [] => ([], []) | l :: f' => (split l, f') end.

Definition word (ws : list str) (i : nat) : res str := of_opt IndexError (nth_error ws i).
(** int(float(word)) *)
Definition intfloat (s : str) : res Z := do q <- parse_float s; Ok (qtrunc q).

(** ww_parser.py 84: " ".join(words) *)
Fixpoint join_sp (ws : list str) : str :=
  match ws with [] => [] | [w] => w | w :: ws' => w ++ sp :: join_sp ws' end.

(** ww_parser.py 83-135 _parse_header *)
Definition parse_header (f0 : list str) : res (header * list str) :=
  let (w1, f1) := readwords f0 in
  do s0 <- word w1 0; do if_ <- parse_int s0;
  do s1 <- word w1 1; do iv <- parse_int s1;
  do s2 <- word w1 2; do ni <- parse_int s2;
  do s3 <- word w1 3; do nr <- parse_int s3;
  let probid := join_sp (skipn 4 w1) in
  let (w2, f2) := readwords f1 in
  do ne <- mapM parse_int w2;
  let (w3, f3) := readwords f2 in
  do t0 <- word w3 0; do nfx <- intfloat t0;
  do t1 <- word w3 1; do nfy <- intfloat t1;
  do t2 <- word w3 2; do nfz <- intfloat t2;
  do origin <- mapM parse_float (skipn 3 w3);
  let (w4, f4) := readwords f3 in
  do u0 <- word w4 0; do ncx <- intfloat u0;
  do u1 <- word w4 1; do ncy <- intfloat u1;
  do u2 <- word w4 2; do ncz <- intfloat u2;
  if (nr =? 10)%Z
  then Ok (mkheader if_ iv ni nr probid ne nfx nfy nfz origin ncx ncy ncz None, f4)
  else do d1 <- mapM parse_float (skipn 3 w4);
       let (w5, f5) := readwords f4 in
       do d2 <- mapM parse_float (firstn 3 w5);
       Ok (mkheader if_ iv ni nr probid ne nfx nfy nfz origin ncx ncy ncz (Some (d1, d2)), f5).

(** ww_parser.py 147-151 / 165-167 / 175-177: the loop
    [while len(vector) < expected: vector.extend(float(w) for w in readline().split())] *)
Fixpoint read_floats (fuel : nat) (expected : Z) (vec : list Q) (f : list str) : outcome (list Q * list str) :=
  if (Z.of_nat (length vec) <? expected)%Z
  then match fuel with
       | O => Running
       | S fuel' =>
           let (ws, f') := readwords f in
           match mapM parse_float ws with
           | Ok qs => read_floats fuel' expected (vec ++ qs) f'
           | Err e => Done (Err e)
           end
       end
  else Done (Ok (vec, f)).

(** ww_parser.py 138-155 _read_block_2_vector *)
Definition read_b2 (fuel : nat) (nc : Z) (f : list str) := read_floats fuel (3 * nc + 1) [] f.

(** ww_parser.py 160-182, one particle after the other ([pi] counts up, [n] particles left) *)
Fixpoint read_b3 (fuel : nat) (h : header) (pi n : nat) (f : list str) : outcome (list (list Q) * list (list Q) * list str) :=
  match n with
  | O => Done (Ok ([], [], f))
  | S n' =>
      run ne <- Done (of_opt IndexError (nth_error (h_ne h) pi));
      run '(es, f1) <- read_floats fuel ne [] f;
      run '(vs, f2) <- read_floats fuel (h_nfx h * h_nfy h * h_nfz h * ne) [] f1;
      run '(r, f3) <- read_b3 fuel h (S pi) n' f2;
      Done (Ok (es :: fst r, vs :: snd r, f3))
  end.

(** ww_parser.py 52-75 parse.  [range(ni)] is empty for ni <= 0. *)
Definition parse (fuel : nat) (f : list str) : outcome parsed :=
  run '(h, f1) <- Done (parse_header f);
  run '(i, f2) <- read_b2 fuel (h_ncx h) f1;
  run '(j, f3) <- read_b2 fuel (h_ncy h) f2;
  run '(k, f4) <- read_b2 fuel (h_ncz h) f3;
  run '(ev, _) <- read_b3 fuel h 0 (Z.to_nat (h_ni h)) f4;
  Done (Ok (mkparsed h i j k (fst ev) (snd ev))).

(** {x:>#9.5g} / {x:>#13.5g} / {x:>#13.4E} *)
Definition g9 (q : Q) : str := rjust 9 (fmt_g q).
Definition g13 (q : Q) : str := rjust 13 (fmt_g q).
Definition e13 (q : Q) : str := rjust 13 (fmt_E q).
Definition d10 (z : Z) : str := rjust 10 (str_of_Z z).

Definition three (l : list Q) : res (Q * Q * Q) :=
  match l with a :: b :: c :: _ => Ok (a, b, c) | _ => Err IndexError end.

(** ww_parser.py 320-344 _write_header.  (Python formats an int with 'g' by converting
    it to a float.)  On an IndexError the lines already written stay in the file; only
    the exception is modelled. *)
Definition write_header (h : header) : res (list str) :=
  do '(o0, o1, o2) <- three (h_origin h);
  let l1 := d10 (h_if h) ++ d10 (h_iv h) ++ d10 (h_ni h) ++ d10 (h_nr h) ++ rjust 38 (h_probid h) in
  let l2 := concat (map d10 (h_ne h)) in
  let l3 := g9 (inject_Z (h_nfx h)) ++ g13 (inject_Z (h_nfy h)) ++ g13 (inject_Z (h_nfz h)) ++ g13 o0 ++ g13 o1 ++ g13 o2 in
  let l4 := g9 (inject_Z (h_ncx h)) ++ g13 (inject_Z (h_ncy h)) ++ g13 (inject_Z (h_ncz h)) in
  match h_dirs h with
  | Some (d1, d2) =>
      do '(a0, a1, a2) <- three d1;
      do '(b0, b1, b2) <- three d2;
      Ok [l1; l2; l3; l4 ++ g13 a0 ++ g13 a1 ++ g13 a2; g9 b0 ++ g13 b1 ++ g13 b2 ++ g13 2]
  | None => Ok [l1; l2; l3; l4 ++ g13 1]
  end.

(** ww_parser.py 350-356 / 361-367: one line of at most six numbers, first one 9 wide *)
Definition line_g (pack : list Q) : str :=
  match pack with [] => [] | q :: qs => g9 q ++ concat (map g13 qs) end.
Definition write_vec (v : list Q) : list str := map line_g (packs 6 v).
(** ww_parser.py 370-376 *)
Definition write_vals (v : list Q) : list str := map (fun pack => concat (map e13 pack)) (packs 6 v).

(** ww_parser.py 359-376 _write_block_3; values[particle_index] may be missing *)
Fixpoint write_b3 (energies values : list (list Q)) : res (list str) :=
  match energies with
  | [] => Ok []
  | es :: energies' =>
      match values with
      | [] => Err IndexError
      | vs :: values' => do r <- write_b3 energies' values'; Ok (write_vec es ++ write_vals vs ++ r)
      end
  end.

(** ww_parser.py 287-317 write *)
Definition write (p : parsed) : res (list str) :=
  do l <- write_header (p_header p);
  do r <- write_b3 (p_energies p) (p_values p);
  Ok (l ++ write_vec (p_b2i p) ++ write_vec (p_b2j p) ++ write_vec (p_b2k p) ++ r).

(** weight_window.py 429-454 _build_header: what a WW object passes to the writer.
    [dirs] is the Geometry's directors, present for a cylindrical window. *)
Definition build_header (ni : nat) (ne : list nat) (nfx nfy nfz : nat) (origin : list Q)
    (ncx ncy ncz : nat) (dirs : option (list Q * list Q)) : header :=
  mkheader 1 1 (Z.of_nat ni) (match dirs with None => 10 | Some _ => 16 end)
    (s2l "Created by f4enix_ww") (map Z.of_nat ne)
    (Z.of_nat nfx) (Z.of_nat nfy) (Z.of_nat nfz) origin
    (Z.of_nat ncx) (Z.of_nat ncy) (Z.of_nat ncz) dirs.
