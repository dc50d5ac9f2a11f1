(** Model of src/f4enix/input/auxiliary.py 31-54 (get_comments) and constants.py 41, 44: the comments of a card. *)
From Verif Require Import PyBase PyStr PyText.
Open Scope nat_scope.

(** the pattern .*\n at the start of a text: what it matches (the dot stops at the first newline) *)
Fixpoint to_newline (s : str) : option str :=
  match s with
  | [] => None
  | c :: r => if Ascii.eqb c nl then Some [c] else match to_newline r with Some t => Some (c :: t) | None => None end
  end.
(** constants.py 41 PAT_COMMENT_TEXT = [Cc]\s.*\n, match *)
Definition c_comment (line : str) : option str :=
  match line with
  | c :: w :: r => if (Ascii.eqb c "C"%char || Ascii.eqb c "c"%char) && is_ws w then match to_newline r with Some t => Some (c :: w :: t) | None => None end else None
  | _ => None
  end.
(** constants.py 44 PAT_DOLLAR_COMMENT = \$.*\n, search: the first dollar with a newline after it *)
Fixpoint d_comment (line : str) : option str :=
  match line with
  | [] => None
  | c :: r => if Ascii.eqb c "$"%char then match to_newline r with Some t => Some (c :: t) | None => d_comment r end else d_comment r
  end.
(** auxiliary.py 50-52: both matches are added *)
Definition add_match (comments : str) (m : option str) : str := match m with Some t => comments ++ t | None => comments end.
(** auxiliary.py 31-54 get_comments *)
Definition get_comments (lines : list str) : str :=
  fold_left (fun comments line => fold_left add_match [c_comment line; d_comment line] comments) lines [].
