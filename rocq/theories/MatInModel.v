(** Model of MatCardsList.from_input: src/f4enix/input/materials.py 1469-1536.  The data cards are those of the parser
    (numjuggler): lists of lines, at least one line each; comments are cards of their own. *)
From Verif Require Import PyBase PyStr PyText LibModel MatModel MatTextModel.
Open Scope nat_scope.

Definition card := list str.
(** constants.py 46 PAT_MX = [\s\t]*mx\d+, any case *)
Definition pat_mx (s : str) : bool :=
  match snd (span_ws s) with
  | c :: d :: r => Ascii.eqb (lower c) "m"%char && Ascii.eqb (lower d) "x"%char && negb (match fst (span_digits r) with [] => true | _ => false end)
  | _ => false
  end.
Definition is_mat (c : card) : bool := match pat_mat (hd [] c) with Some _ => true | None => false end.
Definition is_mx (c : card) : bool := pat_mx (hd [] c).
Definition is_comment (c : card) : bool := pat_comment (hd [] c).
(** materials.py 1498-1501: the materials with their lists of mx cards, the previous card, the mx cards found *)
Definition mat_mx : Type := (rmat * list (list card))%type.
Record fstate := mkF { f_mats : list mat_mx; f_prev : card; f_mx : list card; f_found : bool }.
(** 1092-1096 add_mx of the last material (materials[-1]: IndexError when there is none) *)
Definition add_last (ms : list mat_mx) (mx : list card) : res (list mat_mx) :=
  match rev ms with [] => Err IndexError | (m, x) :: r => Ok (rev ((m, x ++ [mx]) :: r)) end.
(** 1503-1530 *)
Definition fstep (st : fstate) (c : card) : res fstate :=
  do ms <- (if is_mat c then do m <- mat_from_text (if is_comment (f_prev st) then f_prev st ++ c else c); Ok (f_mats st ++ [(m, [])]) else Ok (f_mats st));
  if is_mx c then Ok (mkF ms c (f_mx st ++ [c]) true)
  else if f_found st then do ms' <- add_last ms (f_mx st); Ok (mkF ms' c [] false)
  else Ok (mkF ms c (f_mx st) false).
Definition from_input (cards : list card) : res (list mat_mx) :=
  do st <- foldM fstep (mkF [] [[]] [] false) cards;
  if f_found st then add_last (f_mats st) (f_mx st) else Ok (f_mats st).
(** 978-1016 to_text of a material so read: an element of mx_cards is a list, which has no lines *)
Definition read_to_text (m : mat_mx) : res str :=
  match snd m with [] => Ok (mat_to_text (rewritten (fst m))) | _ => Err AttributeError end.
(** 1538-1552 *)
Definition read_list_to_text (ms : list mat_mx) : res str :=
  do ts <- mapM read_to_text ms; Ok (strip_nl (concat (map (fun t => nl :: t) ts))).
