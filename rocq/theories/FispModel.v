(** Model of src/f4enix/output/fispact_legacy_out.py: the pathways of a FISPACT legacy output.
    A file is the list of its lines.  Percentages are exact rationals.  Not modelled: the order
    pandas gives to rows with equal keys (sort_values is not stable).  AssertionError is OtherError. *)
From Verif Require Import PyBase PyStr PyText D1SModel DataModel MeshModel LibModel OutModel.
Open Scope nat_scope.

(** ** 15-21 the patterns *)
Definition in_range (a b : N) (c : ascii) : bool := let n := N_of_ascii c in ((a <=? n) && (n <=? b))%N.
Definition is_upper (c : ascii) : bool := in_range 65 90 c.
Definition is_lower (c : ascii) : bool := in_range 97 122 c.
Definition char_is (x : ascii) : ascii -> bool := fun c => Ascii.eqb c x.
(** 20 path_id_pat \s+path\s+\d+, at the start of the line *)
Definition is_path (l : str) : bool :=
  match obind (some1 is_ws l) (fun '(_, a) => obind (strip_prefix (s2l "path") a) (fun b => obind (some1 is_ws b) (fun '(_, c) => some1 is_digit c))) with
  | Some _ => true | None => false
  end.
(** 15 perc_pattern \d+\.*\d*% : the match without its last character *)
Definition perc_at (s : str) : option str :=
  obind (some1 is_digit s) (fun '(d, a) => let (ds, b) := span (char_is dot) a in let (e, c) := span is_digit b in
  match c with x :: _ => if Ascii.eqb x "%"%char then Some (d ++ ds ++ e) else None | [] => None end).
(** 16 target_pathway_zaids [A-Z][a-z]*\s*\d+m* at a position: the match and the rest *)
Definition zaid_at (s : str) : option (str * str) :=
  match s with
  | u :: a => if is_upper u
              then let (lo, b) := span is_lower a in let (w, c) := span is_ws b in
                   obind (some1 is_digit c) (fun '(d, e) => let (m, f) := span (char_is "m"%char) e in Some (u :: lo ++ w ++ d ++ m, f))
              else None
  | [] => None
  end.
(** 21 reaction_pat \([a-zA-Z\d,+-]+\) *)
Definition is_reac (c : ascii) : bool := is_letter c || is_digit c || Ascii.eqb c ","%char || Ascii.eqb c plus || Ascii.eqb c minus.
Definition reac_at (s : str) : option (str * str) :=
  match s with
  | u :: a => if Ascii.eqb u "("%char
              then obind (some1 is_reac a) (fun '(r, b) => match b with x :: c => if Ascii.eqb x ")"%char then Some (u :: r ++ [x], c) else None | [] => None end)
              else None
  | [] => None
  end.
(** findall of a pattern that takes a character at least *)
Fixpoint find_all (f : str -> option (str * str)) (fuel : nat) (s : str) : list str :=
  match fuel with
  | O => []
  | S n => match f s with
           | Some (w, r) => w :: find_all f n r
           | None => match s with [] => [] | _ :: r => find_all f n r end
           end
  end.
Definition findall (f : str -> option (str * str)) (s : str) : list str := find_all f (S (length s)) s.
(** 17 metastable_pat \d+m *)
Definition meta_at (s : str) : option str := obind (some1 is_digit s) (fun '(_, a) => match a with x :: _ => if Ascii.eqb x "m"%char then Some a else None | [] => None end).

(** ** 24-52 FispactZaid (the isotope is kept as the text it was read as) and 55-99 Pathway *)
Record nuclide := mkNuc { n_el : str; n_iso : str; n_meta : bool }.
Definition get_str (z : nuclide) : str := n_el z ++ n_iso z ++ (if n_meta z then s2l "m" else []).
Record pathway := mkPw { p_parent : nuclide; p_daughter : nuclide; p_perc : Q; p_reactions : list str; p_inter : option (list nuclide) }.
(** 81-90 __post_init__ *)
Definition pathway_ok (rs : list str) (im : option (list nuclide)) : bool :=
  match im with Some l => length rs =? length l + 1 | None => true end.
(** 92-99 __str__ *)
Definition show_path (p : pathway) : res str :=
  match p_inter p with
  | Some im =>
      match rev (p_reactions p) with
      | [] => Err IndexError
      | r :: _ => Ok (get_str (p_parent p) ++ s2l " " ++ concat (map (fun x => s2l "-" ++ snd x ++ s2l "-> " ++ get_str (fst x) ++ s2l " ") (combine im (p_reactions p)))
                      ++ s2l "-" ++ r ++ s2l "->  " ++ get_str (p_daughter p))
      end
  | None =>
      match p_reactions p with
      | [] => Err IndexError
      | r :: _ => Ok (get_str (p_parent p) ++ s2l " -" ++ r ++ s2l "-> " ++ get_str (p_daughter p))
      end
  end.

(** 132-140 _get_zaid_from_str *)
Definition zaid_of (s : str) : res nuclide :=
  do e <- of_opt AttributeError (first_letters s);
  do i <- of_opt AttributeError (first_digits s);
  Ok (mkNuc e i match search meta_at s with Some _ => true | None => false end).
(** zaids[-1] and zaids[1:-1] *)
Definition last_of_list {A} (l : list A) : option A := match rev l with x :: _ => Some x | [] => None end.
Definition inner {A} (l : list A) : list A := tl (removelast l).
(** 170-228 one line of the section and what follows it *)
Definition read_path (l : str) (r : list str) : res pathway :=
  do p <- of_opt AttributeError (search perc_at l); do perc <- parse_float p;
  let zs := findall zaid_at l in
  do z0 <- of_opt IndexError (nth_error zs 0); do parent <- zaid_of z0;
  do z1 <- of_opt IndexError (last_of_list zs); do daughter <- zaid_of z1;
  do inter <- (if 2 <? length zs then do x <- mapM zaid_of (inner zs); Ok (Some x) else Ok None);
  do l1 <- of_opt IndexError (nth_error r 0);
  let rs := findall reac_at l1 in
  if pathway_ok rs inter then Ok (mkPw parent daughter perc rs inter)
  else
    do l4 <- of_opt IndexError (nth_error r 3);
    if has "path continued" l4
    then
      let others := findall zaid_at l4 in
      do more <- mapM zaid_of (removelast others);
      let im := match inter with Some x => x ++ [daughter] ++ more | None => [] end in
      do z2 <- of_opt IndexError (last_of_list others); do daughter <- zaid_of z2;
      do l5 <- of_opt IndexError (nth_error r 4);
      let rs := rs ++ findall reac_at l5 in
      if pathway_ok rs (Some im) then Ok (mkPw parent daughter perc rs (Some im)) else Err OtherError
    else Err OtherError.
Fixpoint read_paths (lines : list str) : res (list pathway) :=
  match lines with
  | [] => Ok []
  | l :: r => if is_path l then do p <- read_path l r; do ps <- read_paths r; Ok (p :: ps) else read_paths r
  end.
(** 158-167 the section: after the last line on loops, up to the last title of the generic pathways
    (a line with both counts as the former) *)
Fixpoint markers (i : nat) (st : option nat * option nat) (lines : list str) : option nat * option nat :=
  match lines with
  | [] => st
  | l :: r => markers (S i) (if has "Significant loops" l then (Some i, snd st) else if has "G E N E R I C   P A T H W" l then (fst st, Some i) else st) r
  end.
(** 143-228 from_file *)
Definition from_file (lines : list str) : res (list pathway) :=
  match markers 0 (None, None) lines with
  | (Some s, Some e) => read_paths (firstn (e - S s) (skipn (S s) lines))
  | _ => Err UnboundLocalError
  end.

(** 232-273 to_dataframe: the index (daughter, contribution) and the other columns; rows by increasing
    number of the daughter, which is a text *)
Record prow := mkPr { pr_daughter : str; pr_perc : Q; pr_parent : str; pr_inter : list str; pr_reactions : list str }.
Definition row_of (p : pathway) : prow :=
  mkPr (get_str (p_daughter p)) (p_perc p) (get_str (p_parent p)) (map get_str (match p_inter p with Some l => l | None => [] end)) (p_reactions p).
Fixpoint insert_row (x : str * prow) (l : list (str * prow)) : list (str * prow) :=
  match l with [] => [x] | y :: l' => if str_leb (fst x) (fst y) then x :: l else y :: insert_row x l' end.
Definition to_dataframe (t : list isorow) (ps : list pathway) : res (list prow) :=
  do rows <- mapM (fun p => do k <- get_zaidnum t (get_str (p_daughter p)); Ok (k, row_of p)) ps;
  match rows with [] => Err ValueError | _ => Ok (map snd (fold_right insert_row [] rows)) end.
