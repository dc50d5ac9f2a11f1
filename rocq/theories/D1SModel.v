(** Model of src/f4enix/input/d1suned.py.  Decay constants, times and comments are text
    there and here.  Simplifications: lists of times are values (two Irradiation objects
    never share one Python list); floats are only ever text, except in
    [modify_time_val], whose new text is a parameter. *)
From Verif Require Import PyBase PyStr PyText.
Open Scope nat_scope.

(** d1suned.py 369-408 Irradiation *)
Record irr := mkirr { i_daughter : str; i_lambda : str; i_times : list str; i_comment : option str }.
(** d1suned.py 35-110 IrradiationFile; [_irrformat] is always rebuilt together with
    [_nsc] (108, 338, 366), so it is a function of [f_nsc] and [f_fmt].  *)
Record ifile := mkifile { f_nsc : Z; f_scheds : list irr; f_header : option str; f_fmt : nat * nat * nat * nat }.
Definition default_fmt := (11, 14, 13, 9).

(** d1suned.py 117-132: widths of the columns *)
Definition col_widths (f : ifile) : list nat :=
  match f_fmt f with (w1, w2, w3, w4) => [w1; w2] ++ repeat w3 (Z.to_nat (f_nsc f)) ++ [w4] end.

(** str.format with one ":>Ws" field per width: missing arguments raise IndexError,
    surplus arguments are ignored, None does not support the "s" format. *)
Fixpoint format_row (ws : list nat) (args : list (option str)) : res str :=
  match ws with
  | [] => Ok []
  | w :: ws' =>
      match args with
      | [] => Err IndexError
      | None :: _ => Err TypeError
      | Some a :: args' => do r <- format_row ws' args'; Ok (rjust w a ++ r)
      end
  end.

(** d1suned.py 508-513 _get_format_args *)
Definition row_args (i : irr) : list (option str) :=
  [Some (i_daughter i); Some (i_lambda i)] ++ map Some (i_times i) ++ [i_comment i].
(** d1suned.py 245-249 *)
Definition title_args (nsc : nat) : list (option str) :=
  [Some (s2l "Daught."); Some (s2l "lambda(1/s)")]
  ++ map (fun k => Some (s2l "time_fact_" ++ str_of_N (N.of_nat (k + 1)))) (seq 0 nsc)
  ++ [Some (s2l "comments")].

(** d1suned.py 252-254: rows written one after the other; the rows before an exception
    stay in the file.  Result: text and the exception that ended the call, if any. *)
Fixpoint write_rows (ws : list nat) (l : list irr) : str * option exn :=
  match l with
  | [] => ([], None)
  | i :: l' => match format_row ws (row_args i) with
               | Err e => ([], Some e)
               | Ok r => let (t, e) := write_rows ws l' in (r ++ nl :: t, e)
               end
  end.
(** d1suned.py 221-255 write: content of the file, and the exception raised, if any *)
Definition iwrite (f : ifile) : str * option exn :=
  let h := match f_header f with Some h => h | None => [] end in
  let l1 := s2l "nsc " ++ str_of_Z (f_nsc f) ++ [nl] in
  match format_row (col_widths f) (title_args (Z.to_nat (f_nsc f))) with
  | Err e => (h ++ l1, Some e)
  | Ok r => let (t, e) := write_rows (col_widths f) (f_scheds f) in
            (h ++ l1 ++ s2l "C " ++ r ++ nl :: t, e)
  end.

(** pieces[j], ..., pieces[j+n-1], IndexError when missing *)
Fixpoint take_n {A} (n : nat) (l : list A) : res (list A * list A) :=
  match n with
  | O => Ok ([], l)
  | S n' => match l with [] => Err IndexError | x :: l' => do '(a, b) <- take_n n' l'; Ok (x :: a, b) end
  end.
(** d1suned.py 461-506 Irradiation.from_text *)
Definition irr_from_text (text : str) (nsc : Z) : res irr :=
  let pieces := resplit text in
  let pieces := match pieces with [] :: p => p | _ => pieces end in
  do '(d, p1) <- take_n 1 pieces;
  do '(la, p2) <- take_n 1 p1;
  do '(ts, p3) <- take_n (Z.to_nat nsc) p2;
  let comment := concat (map (fun p => sp :: p) p3) in
  Ok (mkirr (concat d) (concat la) ts (match comment with [] => None | _ => Some (strip comment) end)).

(** d1suned.py 193-215: state of the reading loop *)
Record rstate := mkr { r_nsc : option Z; r_header : str; r_scheds : list irr }.
Definition read_line (st : rstate) (line : str) : res rstate :=
  if pat_nsc line then
    match first_digits line with
    | None => Err AttributeError
    | Some ds => Ok (mkr (Some (Z.of_N (num_of ds))) (r_header st) (r_scheds st))
    end
  else match r_nsc st with
       | None => Ok (mkr None (r_header st ++ line) (r_scheds st))
       | Some n => if pat_blank line || pat_comment line then Ok st
                   else do i <- irr_from_text line n; Ok (mkr (Some n) (r_header st) (r_scheds st ++ [i]))
       end.
(** d1suned.py 173-219 from_text *)
Definition iread (text : str) : res ifile :=
  do st <- foldM read_line (mkr None [] []) (lines_of text);
  match r_nsc st with
  | None => Err UnboundLocalError
  | Some n => Ok (mkifile n (r_scheds st) (Some (r_header st)) default_fmt)
  end.

(** d1suned.py 134-149 get_daughters, 151-171 get_irrad *)
Definition get_daughters (f : ifile) : list str := map i_daughter (f_scheds f).
Definition get_irrad (f : ifile) (d : str) : option irr := find (fun i => str_eqb d (i_daughter i)) (f_scheds f).

(** d1suned.py 258-281 select_daughters_irradiation_file *)
Definition select_daughters (f : ifile) (ds : list str) : ifile * bool :=
  let n := filter (fun i => memb str_eqb (i_daughter i) ds) (f_scheds f) in
  (mkifile (f_nsc f) n (f_header f) (f_fmt f), Nat.eqb (length n) (length ds)).

(** d1suned.py 283-338 add_irradiation_times; state after the call and the exception *)
Definition all_same (l : list nat) : bool := match l with [] => true | n :: l' => forallb (Nat.eqb n) l' end.
Definition add_times (f : ifile) (td : list (str * list str)) : ifile * option exn :=
  if negb (all_same (map (fun kv => length (snd kv)) td)) then (f, Some ValueError)
  else if negb (forallb (fun kv => memb str_eqb (fst kv) (get_daughters f)) td) then (f, Some KeyError)
  else if negb (forallb (fun d => dmem str_eqb d td) (get_daughters f)) then (f, Some KeyError)
  else let n := map (fun i => match dget str_eqb (i_daughter i) td with
                              | Some ts => mkirr (i_daughter i) (i_lambda i) (i_times i ++ ts) (i_comment i)
                              | None => i end) (f_scheds f) in
       let f' := mkifile (f_nsc f) n (f_header f) (f_fmt f) in
       match map (fun i => length (i_times i)) n with
       | [] => (f', Some ValueError)         (* max() of an empty sequence *)
       | x :: l => (mkifile (Z.of_nat (fold_left Nat.max l x)) n (f_header f) (f_fmt f), None)
       end.

(** d1suned.py 340-366 remove_irradiation_time: irradiations before a failing one have
    already lost the entry *)
Fixpoint remove_at {A} (n : nat) (l : list A) : list A :=
  match l, n with [], _ => [] | _ :: l', O => l' | x :: l', S n' => x :: remove_at n' l' end.
Fixpoint pop_all (ix : Z) (l : list irr) : list irr * option exn :=
  match l with
  | [] => ([], None)
  | i :: l' =>
      if (ix <? 0)%Z || (Z.of_nat (length (i_times i)) <=? ix)%Z then (i :: l', Some IndexError)
      else let (r, e) := pop_all ix l' in
           (mkirr (i_daughter i) (i_lambda i) (remove_at (Z.to_nat ix) (i_times i)) (i_comment i) :: r, e)
  end.
Definition remove_time (f : ifile) (ix : Z) : ifile * option exn :=
  let (l, e) := pop_all ix (f_scheds f) in
  match e with
  | Some e => (mkifile (f_nsc f) l (f_header f) (f_fmt f), Some e)
  | None => (mkifile (f_nsc f - 1) l (f_header f) (f_fmt f), None)
  end.

(** d1suned.py 438-458 Irradiation.modify_time_val, on the k-th irradiation of the file;
    [txt] is the new value printed with ".3e" *)
Fixpoint set_at {A} (n : nat) (x : A) (l : list A) : list A :=
  match l, n with [], _ => [] | _ :: l', O => x :: l' | y :: l', S n' => y :: set_at n' x l' end.
Definition modify_time (i : irr) (ix : Z) (txt : str) : irr * option exn :=
  if (ix <? 0)%Z || (Z.of_nat (length (i_times i)) <=? ix)%Z then (i, Some IndexError)
  else (mkirr (i_daughter i) (i_lambda i) (set_at (Z.to_nat ix) txt (i_times i)) (i_comment i), None).

(** A user session on one file. *)
Inductive iop := OpAdd (td : list (str * list str)) | OpRemove (ix : Z) | OpSelect (ds : list str)
              | OpModify (k : nat) (ix : Z) (txt : str).
Definition istep (f : ifile) (o : iop) : ifile :=
  match o with
  | OpAdd td => fst (add_times f td)
  | OpRemove ix => fst (remove_time f ix)
  | OpSelect ds => fst (select_daughters f ds)
  | OpModify k ix txt =>
      match nth_error (f_scheds f) k with
      | Some i => mkifile (f_nsc f) (set_at k (fst (modify_time i ix txt)) (f_scheds f)) (f_header f) (f_fmt f)
      | None => f
      end
  end.

(** *** reaction files *)
(** d1suned.py 691-738 Reaction: MT is normalised by str(int(MT)) *)
Record reac := mkreac { x_parent : str; x_mt : str; x_daughter : str; x_comment : option str }.
Definition mk_reaction (parent : str) (mt : str) (daughter : str) (comment : option str) : res reac :=
  do z <- parse_int mt; Ok (mkreac parent (str_of_Z z) daughter comment).

(** d1suned.py 758-776 _get_text, 658-676 write, 32 REACFORMAT: "{:>13s}{:>7s}{:>12s}{:>40s}" *)
Definition reac_row (r : reac) : str :=
  rjust 13 (x_parent r) ++ rjust 7 (x_mt r) ++ rjust 12 (x_daughter r)
  ++ rjust 40 (match x_comment r with Some c => c | None => [] end).
Definition rwrite (l : list reac) : str := concat (map (fun r => reac_row r ++ [nl]) l).

(** d1suned.py 789-820 Reaction.from_text *)
Definition reac_from_text (text : str) : res reac :=
  let pieces := resplit (strip text) in
  do '(p, l1) <- take_n 1 pieces;
  do '(mt, l2) <- take_n 1 l1;
  do '(d, l3) <- take_n 1 l2;
  mk_reaction (strip (concat p)) (concat mt) (concat d) (Some (strip (concat (map (fun p => sp :: p) l3)))).

(** d1suned.py 567-597 ReactionFile.from_text *)
Definition rread (text : str) : res (list reac) :=
  foldM (fun acc line => if pat_blank line || pat_comment line then Ok acc
                         else do r <- reac_from_text line; Ok (acc ++ [r])) [] (lines_of text).

(** code-point order of Python strings *)
Fixpoint str_leb (a b : str) : bool :=
  match a, b with
  | [], _ => true
  | _, [] => false
  | x :: a', y :: b' => (N_of_ascii x <? N_of_ascii y)%N || (Ascii.eqb x y && str_leb a' b')
  end.
Fixpoint insert_sorted (x : str) (l : list str) : list str :=
  match l with [] => [x] | y :: l' => if str_leb x y then x :: l else y :: insert_sorted x l' end.
Definition sorted_strs (l : list str) : list str := fold_right insert_sorted [] l.
Fixpoint dedup (l : list str) : list str :=
  match l with [] => [] | x :: l' => if memb str_eqb x l' then dedup l' else x :: dedup l' end.
(** d1suned.py 599-614 get_parents: sorted(set(...)) of the zaids *)
Definition get_parents (l : list reac) : list str := sorted_strs (dedup (map (fun r => before_dot (x_parent r)) l)).

(** d1suned.py 740-756 Reaction.change_lib *)
Definition reac_change_lib (lib : str) (r : reac) : reac :=
  mkreac (before_dot (x_parent r) ++ dot :: lib) (x_mt r) (x_daughter r) (x_comment r).

(** d1suned.py 636: findall of "\d\d[a-zA-Z]" between double quotes; the quotes are part
    of the match *)
Definition quote : ascii := """"%char.
Definition is_letter (c : ascii) : bool :=
  let n := N_of_ascii c in ((65 <=? n) && (n <=? 90) || (97 <=? n) && (n <=? 122))%N.
Fixpoint find_libs (fuel : nat) (s : str) : list str :=
  match fuel with
  | O => []
  | S fuel' =>
      match s with
      | q1 :: a :: b :: c :: q2 :: s' =>
          if Ascii.eqb q1 quote && is_digit a && is_digit b && is_letter c && Ascii.eqb q2 quote
          then [a; b; c] :: find_libs fuel' s'
          else find_libs fuel' (tl s)
      | _ => []
      end
  end.
(** d1suned.py 616-656 ReactionFile.change_lib; [avail] is libmanager.check4zaid, None
    when no libmanager is given.  Line 652 tests the raw argument. *)
Definition parse_lib (newlib : str) : res str :=
  match newlib with
  | [] => Err IndexError
  | c :: _ => if Ascii.eqb c "{" then of_opt IndexError (nth_error (find_libs (length newlib) newlib) 1) else Ok newlib
  end.
Definition change_lib (newlib : str) (avail : option (str -> list str)) (l : list reac) : res (list reac) :=
  do lib <- parse_lib newlib;
  Ok (map (fun r => match avail with
                    | None => reac_change_lib lib r
                    | Some av => if memb str_eqb newlib (av (before_dot (x_parent r))) then reac_change_lib lib r else r
                    end) l).
