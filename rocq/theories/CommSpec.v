(** The comments of the lines of a card. *)
From Verif Require Import PyBase PyStr PyText.
Open Scope nat_scope.

(* a line of a card: a text without newline, then a newline *)
Definition Line (text line : str) : Prop := ~ In nl text /\ line = text ++ [nl].
(* a line that is a comment: C or c in the first column and a blank after it *)
Definition CommentLine (text : str) : Prop := exists c w r, text = c :: w :: r /\ (c = "C"%char \/ c = "c"%char) /\ is_ws w = true.
(* the comment at the end of a line, from the first dollar *)
Definition DollarComment (text t : str) : Prop := exists a b, text = a ++ "$"%char :: b /\ ~ In "$"%char a /\ t = "$"%char :: b.
(* what is reported of a line *)
Inductive Shown (text : str) : str -> Prop :=
| ShownLine : CommentLine text -> ~ In "$"%char text -> Shown text (text ++ [nl])
| ShownDollar t : ~ CommentLine text -> DollarComment text t -> Shown text (t ++ [nl])
| ShownTwice t : CommentLine text -> DollarComment text t -> Shown text (text ++ [nl] ++ t ++ [nl])
| ShownNothing : ~ CommentLine text -> ~ In "$"%char text -> Shown text [].
