(** Vocabulary for the statements about the reading of all the materials of an input. *)
From Verif Require Import PyBase PyStr PyText LibModel MatModel MatTextModel MatTextSpec MatInModel.
Open Scope nat_scope.

(** how the first line of a card tells its kind: m and a number; mx and a number (in capitals or not, after blanks) *)
Definition first_line_of (c : card) : str := hd [] c.
Definition MatStart (l : str) : Prop := exists w r, l = w ++ r /\ Forall (fun c => is_ws c = true) w /\ MatWord r.
Definition MxStart (l : str) : Prop := exists w c x d r, l = w ++ c :: x :: d :: r /\ Forall (fun c => is_ws c = true) w /\
  (c = "m"%char \/ c = "M"%char) /\ (x = "x"%char \/ x = "X"%char) /\ is_digit d = true.

(** a material card, an mx card, any other data card (a comment included) *)
Definition MatCard (c : card) : Prop := is_mat c = true /\ is_mx c = false.
Definition MxCard (c : card) : Prop := is_mx c = true /\ is_mat c = false /\ is_comment c = false.
Definition OtherCard (c : card) : Prop := is_mat c = false /\ is_mx c = false.
(** The cards that belong to a material: a comment in front, the card itself, other cards, mx cards, other cards *)
Record block := mkB { b_comment : option card; b_card : card; b_between : list card; b_mx : list card; b_after : list card }.
Definition b_cards (b : block) : list card :=
  match b_comment b with Some c => [c] | None => [] end ++ b_card b :: b_between b ++ b_mx b ++ b_after b.
Definition Block (b : block) : Prop :=
  match b_comment b with Some c => OtherCard c /\ is_comment c = true | None => True end /\ MatCard (b_card b) /\ is_comment (b_card b) = false /\
  Forall (fun c => OtherCard c /\ is_comment c = false) (b_between b) /\ Forall MxCard (b_mx b) /\ Forall (fun c => OtherCard c /\ is_comment c = false) (b_after b) /\
  (b_mx b = [] -> b_after b = []).
(** the text of the material of a block *)
Definition b_text (b : block) : list str := match b_comment b with Some c => c | None => [] end ++ b_card b.
(** after the mx cards of a block comes a card that is not a material (or the end) *)
Fixpoint apart (bs : list block) : Prop :=
  match bs with
  | b :: r => match r with b' :: _ => b_mx b <> [] -> b_after b <> [] \/ b_comment b' <> None | [] => True end /\ apart r
  | [] => True
  end.
Definition b_runs (b : block) : list (list card) := match b_mx b with [] => [] | x => [x] end.
(** the texts of the material cards, in order, each after the comment card just before it *)
Fixpoint sources (pv : card) (cs : list card) : list (list str) :=
  match cs with [] => [] | c :: r => (if is_mat c then [if is_comment pv then pv ++ c else c] else []) ++ sources c r end.
