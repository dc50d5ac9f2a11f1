(** More Python text operations: iteration over the lines of a file, str.strip,
    re.split on white space, and the anchored patterns of constants.py 36-49 used by the
    D1S-UNED readers.  Text is ASCII; files are read without '\r' translation. *)
From Verif Require Import PyBase PyStr.
Open Scope nat_scope.

(** [for line in infile]: pieces ending in '\n'; the last one may lack it *)
Fixpoint lines_aux (cur : str) (s : str) : list str :=
  match s with
  | [] => match cur with [] => [] | _ => [rev cur] end
  | c :: s' => if Ascii.eqb c nl then rev (c :: cur) :: lines_aux [] s' else lines_aux (c :: cur) s'
  end.
Definition lines_of (s : str) : list str := lines_aux [] s.

(** re.compile(r"[\s\t]+").split(s): like s.split(), but a leading (trailing) run of
    white space yields an empty first (last) piece *)
Definition starts_ws (s : str) : bool := match s with c :: _ => is_ws c | [] => true end.
Definition ends_ws (s : str) : bool := starts_ws (rev s).
Definition resplit (s : str) : list str :=
  match s with
  | [] => [[]]
  | _ => (if starts_ws s then [[]] else []) ++ split s ++ (if ends_ws s then [[]] else [])
  end.

(** s.strip() *)
Fixpoint lstrip (s : str) : str := match s with c :: s' => if is_ws c then lstrip s' else s | [] => [] end.
Definition strip (s : str) : str := rev (lstrip (rev (lstrip s))).

(** s.split(".")[0] *)
Fixpoint before_dot (s : str) : str :=
  match s with c :: s' => if Ascii.eqb c dot then [] else c :: before_dot s' | [] => [] end.

Definition is_c (c : ascii) : bool := Ascii.eqb c "C"%char || Ascii.eqb c "c"%char.

(** constants.py 37 PAT_BLANK = [\s\tCc]*\n, match at the start *)
Fixpoint pat_blank (s : str) : bool :=
  match s with
  | [] => false
  | c :: s' => Ascii.eqb c nl || ((is_ws c || is_c c) && pat_blank s')
  end.
(** constants.py 40 PAT_COMMENT = [Cc][\s\t\n]+, match at the start *)
Definition pat_comment (s : str) : bool :=
  match s with c :: d :: _ => is_c c && is_ws d | _ => false end.

Definition lower (c : ascii) : ascii :=
  let n := N_of_ascii c in if ((65 <=? n) && (n <=? 90))%N then ascii_of_N (n + 32) else c.
(** d1suned.py 192 (?i)(nsc), match at the start *)
Definition pat_nsc (s : str) : bool :=
  match s with
  | a :: b :: c :: _ => Ascii.eqb (lower a) "n" && Ascii.eqb (lower b) "s" && Ascii.eqb (lower c) "c"
  | _ => false
  end.
(** d1suned.py 193 \d+, first occurrence *)
Fixpoint first_digits (s : str) : option str :=
  match s with
  | [] => None
  | c :: s' => if is_digit c then Some (fst (span_digits s)) else first_digits s'
  end.
