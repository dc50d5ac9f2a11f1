(** Model of src/f4enix/output/MCNPoutput.py: what is read from an MCNP output file.
    An output file is the list of its lines (each with its newline).  Floats are exact rationals.
    Not modelled: pandas.read_fwf (get_table stops at the rows and widths it is asked to read), the
    excel, csv and vtk formats, logging; the particle of get_NPS is a plain text (in the code it is a
    regular expression). *)
From Verif Require Import PyBase PyStr PyText DataModel D1SModel MeshModel MctalModel.
Open Scope nat_scope.

(** l[i] for a Python index, which may be negative *)
Definition py_nth {A} (i : Z) (l : list A) : option A :=
  if (i <? 0)%Z then (if (- i <=? Z.of_nat (length l))%Z then nth_error l (Z.to_nat (Z.of_nat (length l) + i)) else None)
  else nth_error l (Z.to_nat i).
(** re.search: the leftmost place where [f] succeeds *)
Fixpoint search {A} (f : str -> option A) (s : str) : option A :=
  match f s with Some x => Some x | None => match s with [] => None | _ :: r => search f r end end.
(** one or more characters of a class, as many as possible *)
Fixpoint span (p : ascii -> bool) (s : str) : str * str :=
  match s with c :: r => if p c then let (a, b) := span p r in (c :: a, b) else ([], s) | [] => ([], []) end.
Definition some1 (p : ascii -> bool) (s : str) : option (str * str) :=
  match span p s with ([], _) => None | r => Some r end.
Definition obind {A B} (o : option A) (f : A -> option B) : option B := match o with Some x => f x | None => None end.

(** ** 137-197 lost particles and histories *)
(** 32-34 identifiers, constants.py 39 PAT_DIGIT: first_digits *)
Definition surface_id : string := "currently being tracked has reached surface".
Definition total_lp : string := "particles got lost".
Definition the_int (o : option str) : res Z := do d <- of_opt AttributeError o; parse_int d.
(** 137-162 get_tot_lp *)
Fixpoint tot_lp (rlines : list str) : option Z :=
  match rlines with
  | [] => None
  | l :: r => if has total_lp l
              then match first_digits l with Some d => match parse_int d with Ok z => Some z | Err _ => None end | None => None end
              else tot_lp r
  end.
Definition get_tot_lp (lines : list str) : option Z := tot_lp (rev lines).
(** 164-185 get_NPS *)
Fixpoint get_NPS (particle : str) (lines : list str) : res Z :=
  match lines with
  | [] => Err ValueError
  | l :: r => if contains (particle ++ s2l " creation") l
              then do l3 <- of_opt IndexError (nth_error r 2); the_int (first_digits l3)
              else get_NPS particle r
  end.
(** 189-199 get_LPR *)
Definition get_LPR (lines : list str) : res Q :=
  do nps <- get_NPS (s2l "neutron") lines;
  match get_tot_lp lines with
  | None => Err TypeError
  | Some lp => if (nps =? 0)%Z then Err ZeroDivisionError else Ok (inject_Z lp / inject_Z nps)%Q
  end.

(** constants.py 47 SCIENTIFIC_PAT = [-+]*\d.\d+E[+-]\d+ at a position: the match and the rest *)
Definition is_sign (c : ascii) : bool := Ascii.eqb c minus || Ascii.eqb c plus.
Definition sci_at (s : str) : option (str * str) :=
  let (sg, s1) := span is_sign s in
  match s1 with
  | d :: a :: s2 =>
      if is_digit d && negb (Ascii.eqb a nl)
      then obind (some1 is_digit s2) (fun '(ds, s3) =>
           match s3 with
           | e :: g :: s4 => if Ascii.eqb e "E"%char && is_sign g
                             then obind (some1 is_digit s4) (fun '(xs, s5) => Some (sg ++ d :: a :: ds ++ e :: g :: xs, s5))
                             else None
           | _ => None
           end)
      else None
  | _ => None
  end.
(** findall; each turn drops a character at least, so the length is enough [fuel] *)
Fixpoint find_sci (fuel : nat) (s : str) : list str :=
  match fuel with
  | O => []
  | S n => match sci_at s with
           | Some (w, r) => w :: find_sci n r
           | None => match s with [] => [] | _ :: r => find_sci n r end
           end
  end.
Definition findall_sci (s : str) : list str := find_sci (S (length s)) s.
(** float(x[0]), float(x[1]), float(x[2]) *)
Definition three (ws : list str) : res (Q * Q * Q) :=
  do a <- of_opt IndexError (nth_error ws 0); do x <- parse_float a;
  do b <- of_opt IndexError (nth_error ws 1); do y <- parse_float b;
  do c <- of_opt IndexError (nth_error ws 2); do z <- parse_float c;
  Ok (x, y, z).
(** 201-253 get_lp_debug_df: a row per lost particle.  [univ] is the universe of a cell of the given
    input (KeyError when it has no such cell) *)
Record lp := mkLp { l_surface : str; l_cell : str; l_xyz : Q * Q * Q; l_uvw : option (Q * Q * Q); l_univ : option (option Z) }.
Definition read_lp (cosines : bool) (univ : option (str -> res (option Z))) (l : str) (r : list str) : res lp :=
  do sf <- of_opt AttributeError (first_digits l);
  do l1 <- of_opt IndexError (nth_error r 0);
  do ce <- of_opt AttributeError (first_digits l1);
  do un <- match univ with None => Ok None | Some u => do x <- u ce; Ok (Some x) end;
  do l6 <- of_opt IndexError (nth_error r 5);
  do l7 <- of_opt IndexError (nth_error r 6);
  do xyz <- three (findall_sci l6);
  do uvw <- (if cosines then do t <- three (findall_sci l7); Ok (Some t) else Ok None);
  Ok (mkLp sf ce xyz uvw un).
Fixpoint get_lp_debug_df (cosines : bool) (univ : option (str -> res (option Z))) (lines : list str) : res (list lp) :=
  match lines with
  | [] => Ok []
  | l :: r => if has surface_id l
              then do x <- read_lp cosines univ l r; do xs <- get_lp_debug_df cosines univ r; Ok (x :: xs)
              else get_lp_debug_df cosines univ r
  end.
(** 291-296 how often each (cell, surface): groupby, then by decreasing count (the order of equal
    counts is not specified by pandas; here the first seen comes first) *)
Definition pair_eqb (a b : str * str) : bool := str_eqb (fst a) (fst b) && str_eqb (snd a) (snd b).
Fixpoint uniq {A} (eqb : A -> A -> bool) (l : list A) : list A :=
  match l with [] => [] | x :: r => x :: filter (fun y => negb (eqb x y)) (uniq eqb r) end.
Definition count_of {A} (eqb : A -> A -> bool) (x : A) (l : list A) : nat := length (filter (eqb x) l).
Fixpoint insert_count {A} (x : A * nat) (l : list (A * nat)) : list (A * nat) :=
  match l with [] => [x] | y :: l' => if snd y <=? snd x then x :: l else y :: insert_count x l' end.
Definition by_count {A} (l : list (A * nat)) : list (A * nat) := fold_right insert_count [] l.
Definition groups {A} (eqb : A -> A -> bool) (l : list A) : list (A * nat) :=
  by_count (map (fun x => (x, count_of eqb x l)) (uniq eqb l)).
Definition lp_global (rows : list lp) : list ((str * str) * nat) := groups pair_eqb (map (fun r => (l_cell r, l_surface r)) rows).
(** 310-315 the sheet by universe: there is no such column when no particle was lost (251); groupby
    drops the rows without universe *)
Definition trip_eqb (a b : Z * (str * str)) : bool := (fst a =? fst b)%Z && pair_eqb (snd a) (snd b).
Definition lp_universes (rows : list lp) : res (list ((Z * (str * str)) * nat)) :=
  match rows with
  | [] => Err KeyError
  | _ => Ok (groups trip_eqb (concat (map (fun r => match l_univ r with Some (Some u) => [(u, (l_cell r, l_surface r))] | _ => [] end) rows)))
  end.
(** 255-330 print_lp_debug: the sheets and the rows of the csv file *)
Record lp_report := mkRep { rp_global : list ((str * str) * nat); rp_univ : option (list ((Z * (str * str)) * nat)); rp_csv : list (list Q) }.
Definition csv_row (r : lp) : list Q :=
  let '(x, y, z) := l_xyz r in match l_uvw r with Some (u, v, w) => [x; y; z; u; v; w] | None => [x; y; z] end.
Definition print_lp_debug (cosines : bool) (univ : option (str -> res (option Z))) (lines : list str) : res lp_report :=
  do rows <- get_lp_debug_df cosines univ lines;
  do u <- match univ with None => Ok None | Some _ => do x <- lp_universes rows; Ok (Some x) end;
  Ok (mkRep (lp_global rows) u (map csv_row rows)).

(** ** 339-470 statistical checks *)
Inductive verdict := Missed | Passed | AllZeros.
Definition verdict_of (l : str) : option verdict :=
  if has "missed" l then Some Missed else if has "passed" l then Some Passed else if has "no nonzero" l then Some AllZeros else None.
(** 359 \s*\t*\s*\d+ at the start of the line: int() of the match *)
Definition tally_of (l : str) : option Z :=
  match some1 is_digit (snd (span is_ws l)) with Some (d, _) => Some (Z.of_N (num_of d)) | None => None end.
(** 365-389 the lines after the title.  [result] is the variable of the loop: it keeps the result of
    the previous tally *)
Fixpoint checks (result : option verdict) (d : list (Z * verdict)) (lines : list str) : res (list (Z * verdict)) :=
  match lines with
  | [] => Ok d
  | l :: r =>
      if has "result of statistical checks" l then checks result d r
      else match tally_of l with
           | Some t => let result := match verdict_of l with Some v => Some v | None => result end in
                       do v <- of_opt UnboundLocalError result; checks result (dset Z.eqb t v d) r
           | None => if has "the 10 statistical checks are only" l then Ok d else checks result d r
           end
  end.
(** 332-382 get_statistical_checks_tfc_bins *)
Fixpoint get_checks (lines : list str) : res (list (Z * verdict)) :=
  match lines with
  | [] => Ok []
  | l :: r => if has "result of statistical checks" l then checks None [] r else get_checks r
  end.

(** 412-420 the title of the table of a tally: ...results of 10 statistical .+\s{tally}\n *)
Definition title_of (tally : Z) (l : str) : bool :=
  match strip_prefix (s2l "           results of 10 statistical ") l with
  | Some r => match strip_prefix (rev (str_of_Z tally ++ [nl])) (rev r) with
              | Some (c :: _ :: _) => is_ws c
              | _ => false
              end
  | None => false
  end.
(** a row of the table: its label and ten cells *)
Definition srow : Type := option str * list (option str).
(** 427-434 rows of words, padded; there must be eleven columns *)
Definition pad (n : nat) (ws : list str) : list (option str) := map Some ws ++ repeat None (n - length ws).
Definition frame_of (rows : list (list str)) : res (list srow) :=
  let n := list_max (map (@length str) rows) in
  if n =? 11 then Ok (map (fun r => match pad n r with x :: c => (x, c) | [] => (None, []) end) rows) else Err ValueError.
(** df.loc[row]: the label must be there, once (otherwise 440 tests a whole column) *)
Definition opt_is (w : str) (o : option str) : bool := match o with Some x => str_eqb x w | None => false end.
Definition loc (w : str) (df : list srow) : res (list (option str)) :=
  match filter (fun r => opt_is w (fst r)) df with
  | [] => Err KeyError
  | [r] => Ok (snd r)
  | _ => Err ValueError
  end.
Fixpoint put_at {A} (n : nat) (x : A) (l : list A) : list A :=
  match l, n with [], _ => [] | _ :: r, O => x :: r | y :: r, S m => y :: put_at m x r end.
Definition set_row (w : str) (c : list (option str)) (df : list srow) : list srow :=
  map (fun r => if opt_is w (fst r) then (fst r, c) else r) df.
(** 437-448: columns 7, 8 and 9 are FoM value, FoM behaviour and PDF slope *)
Definition realign (w : str) (df : list srow) : res (list srow) :=
  do c <- loc w df;
  match nth 9 c None with
  | Some _ => Ok df
  | None => let v := nth 7 c None in
            let c := put_at 9 v (put_at 7 None c) in
            let c := if str_eqb w (s2l "passed?") then put_at 8 (Some (s2l "yes")) (put_at 7 (Some (s2l "yes")) c) else c in
            Ok (set_row w c df)
  end.
(** 384-442 get_tally_stat_checks *)
Fixpoint get_tally_stat_checks (tally : Z) (lines : list str) : res (list srow) :=
  match lines with
  | [] => Err ValueError
  | l :: r =>
      if title_of tally l
      then do a <- of_opt IndexError (nth_error r 4); do b <- of_opt IndexError (nth_error r 5); do c <- of_opt IndexError (nth_error r 6);
           do df <- frame_of [split a; split b; split c];
           do df <- realign (s2l "observed") df;
           realign (s2l "passed?") df
      else get_tally_stat_checks tally r
  end.
(** 444-481 get_stat_checks_table: tally, the ten results, the result of the summary; sorted by tally *)
Record trow := mkTr { tr_tally : Z; tr_cells : list (option str); tr_verdict : verdict }.
Definition table_row (lines : list str) (p : Z * verdict) : res trow :=
  let '(t, v) := p in
  match (do df <- get_tally_stat_checks t lines; loc (s2l "passed?") df) with
  | Ok c => Ok (mkTr t c v)
  | Err ValueError => match v with AllZeros => Ok (mkTr t (repeat None 10) v) | _ => Err ValueError end
  | Err e => Err e
  end.
Fixpoint insert_tr (x : trow) (l : list trow) : list trow :=
  match l with [] => [x] | y :: l' => if (tr_tally x <=? tr_tally y)%Z then x :: l else y :: insert_tr x l' end.
Definition get_stat_checks_table (lines : list str) : res (list trow) :=
  do s <- get_checks lines;
  do rows <- mapM (table_row lines) s;
  match rows with [] => Err ValueError | _ => Ok (fold_right insert_tr [] rows) end.

(** 483-519 assign_tally_description.  A tally is its number and its comment lines; [tdescr] is the
    variable of the loop *)
Definition describe (t : Z) (tdescr : option str) (tallies : list (Z * list str)) : option str :=
  fold_left (fun d x => if (fst x =? t)%Z then Some (hd [] (snd x)) else d) tallies tdescr.
Fixpoint assign (tdescr : option str) (tallies : list (Z * list str)) (s : list (Z * verdict)) (d : list (str * verdict)) : res (list (str * verdict)) :=
  match s with
  | [] => Ok d
  | (t, v) :: r => let tdescr := describe t tdescr tallies in
                   do x <- of_opt UnboundLocalError tdescr;
                   assign tdescr tallies r (dset str_eqb (x ++ s2l " [" ++ str_of_Z t ++ s2l "]") v d)
  end.
Definition assign_tally_description (tallies : list (Z * list str)) (s : list (Z * verdict)) : res (list (str * verdict)) := assign None tallies s [].

(** ** 537-641 tables *)
(** 619-639 _get_fwf_format_from_string *)
Fixpoint fwf (new_datum : bool) (counter : nat) (s : str) : list nat :=
  match s with
  | [] => [counter]
  | c :: r => if Ascii.eqb c sp && negb new_datum then counter :: fwf true 1 r
              else fwf (if Ascii.eqb c sp then new_datum else false) (S counter) r
  end.
Definition fwf_widths (s : str) : list nat := tl (fwf false 0 s).
(** 564-592 the instances of a table: first line, number of rows; the widths are those of the last *)
Record tscan := mkTs { ts_skip : option nat; ts_found : list (nat * Z); ts_widths : list nat }.
Fixpoint scan_tables (title : str) (all : list str) (i : nat) (st : tscan) (lines : list str) : res tscan :=
  match lines with
  | [] => Ok st
  | l :: r =>
      do st <- match ts_skip st with
               | Some k => if has "total" l
                           then do w <- of_opt IndexError (py_nth (Z.of_nat i - 2) all);
                                Ok (mkTs None (ts_found st ++ [(k, (Z.of_nat i - Z.of_nat k - 2)%Z)]) (fwf_widths w))
                           else Ok st
               | None => Ok st
               end;
      scan_tables title all (S i) (if contains title l then mkTs (Some (S i)) (ts_found st) (ts_widths st) else st) r
  end.
(** 537-600 get_table up to the call of read_fwf: lines to skip, rows to read, widths *)
Definition get_table_plan (num : Z) (instance : Z) (lines : list str) : res (nat * Z * list nat) :=
  do st <- scan_tables (s2l "table " ++ str_of_Z num) lines 0 (mkTs None [] []) lines;
  match ts_found st with
  | [] => Err ValueError
  | found => do '(k, n) <- of_opt IndexError (py_nth instance found); Ok (k, n, ts_widths st)
  end.

(** ** 641-679 get_code_version.  [others]: the .out and .dump files of the folder, in the order of
    listdir *)
Definition d1s_version (s : str) : option str :=
  obind (strip_prefix (s2l "d1suned") s) (fun a => obind (some1 is_ws a) (fun '(_, b) => obind (strip_prefix (s2l "version") b) (fun c =>
  obind (some1 is_ws c) (fun '(_, d) => obind (some1 is_digit d) (fun '(e, _) => Some e))))).
Definition any_version (s : str) : option str :=
  obind (strip_prefix (s2l "version") s) (fun c => obind (some1 is_ws c) (fun '(_, d) => obind (some1 is_digit d) (fun '(e, _) => Some e))).
Definition ver_version (s : str) : option str := obind (strip_prefix (s2l "d1suned  ver=") s) (fun c => obind (some1 is_digit c) (fun '(e, _) => Some e)).
Definition mcnp_version (s : str) : option str := obind (strip_prefix (s2l "MCNP_") s) (fun c => obind (some1 (fun x => is_digit x || Ascii.eqb x dot) c) (fun '(e, _) => Some e)).
(** .strip("0") *)
Definition strip0 (s : str) : str := let z := fun c => Ascii.eqb c "0"%char in rev (snd (span z (rev (snd (span z s))))).
Fixpoint d1s_head (lines : list str) : option (res str) :=
  match lines with
  | [] => None
  | l :: r => match search d1s_version l with
              | Some _ => Some (do v <- of_opt AttributeError (search any_version l); Ok (s2l "d1suned" ++ v))
              | None => d1s_head r
              end
  end.
Fixpoint file_version (lines : list str) : option str :=
  match lines with
  | [] => None
  | l :: r => match search ver_version l with
              | Some v => Some (s2l "d1suned" ++ v)
              | None => match search mcnp_version l with Some v => Some (strip0 v) | None => file_version r end
              end
  end.
Fixpoint others_version (others : list (list str)) : res str :=
  match others with [] => Err ValueError | f :: r => match file_version (firstn 4 f) with Some v => Ok v | None => others_version r end end.
Definition get_code_version (lines : list str) (others : list (list str)) : res str :=
  match d1s_head (firstn 34 lines) with
  | Some r => r
  | None => match lines with
            | l :: _ => match search mcnp_version l with Some v => Ok (strip0 v) | None => others_version others end
            | [] => others_version others
            end
  end.

(** ** 685-731 warnings and fatal errors *)
(** s.replace(p, ""): the occurrences from left to right *)
Fixpoint remove_all (fuel : nat) (p s : str) : str :=
  match fuel with
  | O => s
  | S n => match strip_prefix p s with
           | Some r => remove_all n p r
           | None => match s with [] => [] | c :: r => c :: remove_all n p r end
           end
  end.
Definition warning_of (collapse : bool) (l : str) : str :=
  let l := if collapse then (if has "not used for anything" l then s2l "unused surfaces" else l) else l in
  let l := if collapse then (if has "this surface has been replaced" l then s2l "replaced surfaces" else l) else l in
  strip (remove_all (S (length l)) (s2l "warning.") l).
(** 702-716 get_warnings.  The inner [continue] of 706-708 continues the inner loop: it skips nothing.
    groupby().size(): the different texts in order, with their counts *)
Definition get_warnings (collapse : bool) (lines : list str) : list (str * nat) :=
  let ws := map (warning_of collapse) (filter (has "warning.") lines) in
  map (fun w => (w, count_of str_eqb w ws)) (sorted_strs (uniq str_eqb ws)).
(** line.split(p)[-1]: what follows the last occurrence *)
Fixpoint after_last (fuel : nat) (p : str) (s : str) : str :=
  match fuel with
  | O => s
  | S n => match search (strip_prefix p) s with Some r => after_last n p r | None => s end
  end.
(** 718-731 get_fatal_errors: PAT_FATAL is [\s\t]+fatal error, at the start *)
Definition is_fatal (l : str) : bool :=
  match some1 is_ws l with Some (_, r) => match strip_prefix (s2l "fatal error") r with Some _ => true | None => false end | None => false end.
Definition get_fatal_errors (lines : list str) : list str :=
  map (fun l => strip (after_last (length l) (s2l "fatal error.") l)) (filter is_fatal lines).
