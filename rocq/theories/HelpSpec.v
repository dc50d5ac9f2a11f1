(** Words for the theorems of HelpProps.v: kinds of characters and of lines. *)
From Coq Require Import ZArith.
From Verif Require Import PyBase PyStr PyText DataModel InpModel.

(* the code of a character *)
Definition between (a b : N) (c : ascii) : Prop := (a <= N_of_ascii c <= b)%N.
Definition Letter (c : ascii) : Prop := between 65 90 c \/ between 97 122 c.
Definition Digit (c : ascii) : Prop := between 48 57 c.
Definition Blank (c : ascii) : Prop := between 9 13 c \/ between 28 32 c.
(* a line of a card that is empty or a comment *)
Definition Skipped (l : str) : Prop := l = [] \/ pat_comment (l ++ [nl]) = true.
(* the width of a sector, in degrees *)
Definition width (p : Z * Z) : Z := ((snd p - fst p) mod 360)%Z.
