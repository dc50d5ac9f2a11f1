(** What the plots should show, independently of how they are made. *)
From Coq Require Import Sorted.
From Verif Require Import PyBase PyStr AceModel PlotModel.
Open Scope nat_scope.

(* the class of a value: how many thresholds it reaches *)
Definition rank (v : Q) (vals : list Q) : nat := length (filter (fun x => Qle_bool x v) vals).
(* thresholds in increasing order, one more category than thresholds: category k is for the values of class k *)
Definition Scheme (vals : list Q) (ctgs : list str) : Prop := vals <> [] /\ StronglySorted Qlt vals /\ length ctgs = S (length vals).
(* the category a value belongs to *)
Definition right_category (vals : list Q) (ctgs : list str) (v : Q) : str := nth (rank v vals) ctgs [].
(* the label the first slice gives it: the next category (the last one for the last two classes), cut to ten characters *)
Definition label_first (vals : list Q) (ctgs : list str) (v : Q) : str := firstn 10 (nth (min (S (rank v vals)) (length vals)) ctgs []).
(* the label the second slice gives it: the second category unless it reaches all the thresholds *)
Definition label_second (vals : list Q) (ctgs : list str) (v : Q) : str := firstn 10 (if rank v vals =? length vals then last ctgs [] else nth 1 ctgs []).
(* the labels of slice number k, counting from 0 and from the start of the program *)
Definition label_on (k : nat) (vals : list Q) (ctgs : list str) (v : Q) : str := if Nat.even k then label_first vals ctgs v else label_second vals ctgs v.
(* a category is on at least two cells *)
Definition TwoCells (label : str) (labels : list str) : Prop := exists i j, i < j /\ nth_error labels i = Some label /\ nth_error labels j = Some label.
(* a selection of a list, in the same order *)
Inductive Sub {A} : list A -> list A -> Prop := SubNil : Sub [] [] | SubKeep x a b : Sub a b -> Sub (x :: a) (x :: b) | SubDrop x a b : Sub a b -> Sub a (x :: b).
(* the last element with a property *)
Definition LastWith {A} (P : A -> Prop) (x : A) (l : list A) : Prop := exists a b, l = a ++ x :: b /\ P x /\ Forall (fun y => ~ P y) b.
(* an ordinary name of a file: it does not start with a slash *)
Definition plain (s : str) : Prop := match s with [] => False | c :: _ => c <> "/"%char end.

(* what a section adds for an image: a heading one level below and the picture *)
Definition title_of (sec : str) (with_name : bool) (disclaimer : option str) (name : str) : str :=
  name ++ (if with_name then s2l " - " ++ sec else []) ++ match disclaimer with Some x => s2l " " ++ x | None => [] end.
Definition image_part {Img} (sec : str) (level : Z) (with_name : bool) (disclaimer : option str) (im : str * Img) : list (piece Img) :=
  [Head (level + 1) (title_of sec with_name disclaimer (fst im)); Pic (snd im)].
(* a name of a picture *)
Definition Picture (name : str) : Prop := exists stem ext, name = stem ++ ext /\ In ext [s2l "jpg"; s2l "png"; s2l "tif"].
(* the pictures of a folder, from the oldest; those of the same time in the order of the folder *)
Definition OldestFirst (inside pics : list (str * Q)) : Prop :=
  (forall t, filter (fun f => Qeq_bool (snd f) t) pics = filter (fun f => Qeq_bool (snd f) t) (filter (fun f => is_picture (fst f)) inside))
  /\ StronglySorted (fun a b => (snd a <= snd b)%Q) pics.
(* what a folder adds *)
Definition folder_part {Img} (root folder : str) (pics : list (str * Q)) : list (piece Img) :=
  Head 1 folder :: flat_map (fun f => [Head 2 (firstn (length (fst f) - 4) (fst f)); FilePic (join_path (join_path root folder) (fst f))]) pics.
