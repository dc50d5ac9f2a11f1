(** Model of cells_union, src/f4enix/input/MCNPinput.py 1489-1533.  After each addition the card is
    printed (wrapped at 80 columns) and parsed again by numjuggler: the parsed card is any card of
    ordinary layout that prints the same words. *)
From Verif Require Import PyBase PyStr PyText LibModel MatModel InpModel InpGeomSpec.
Open Scope nat_scope.

(* 1519: cell.get_geom().replace("\n", " ") *)
Definition flat (geom : str) : str := map (fun c => if Ascii.eqb c nl then sp else c) geom.
Definition union_addition (geom : str) : tline := text (s2l " : (" ++ flat geom ++ s2l ")").
(** 1516-1523 the card that is printed *)
Definition union_step (num : Z) (geom : str) (c : card) : res card :=
  do rows <- add_symbol (union_addition geom) true c;
  Ok (renumbered (Some num) (mkCard (c_name c) (c_values c) rows (c_hidden c))).
(** 1516-1526 the loop; [union_loop num c geoms c'] *)
Inductive union_loop (num : Z) : card -> list str -> card -> Prop :=
| ul_nil c : union_loop num c [] c
| ul_cons c geom c1 ls c2 ls2 geoms c' n m geo key :
    union_step num geom c = Ok c1 -> card_text c1 = Ok ls ->
    card_text c2 = Ok ls2 -> words ls2 = words ls -> ordinary c2 n m geo key ->
    union_loop num c2 geoms c' -> union_loop num c (geom :: geoms) c'.
(** dict.pop *)
Fixpoint dpop (key : str) (d : cdict) : res cdict :=
  match d with
  | [] => Err KeyError
  | (k, l) :: d' => if str_eqb k key then Ok d' else do r <- dpop key d'; Ok ((k, l) :: r)
  end.
(** 1528-1532 the dictionary: the listed cells are removed, the union is stored at address [l] *)
Definition union_dict (h : heap) (d : cdict) (nums : list str) (num : Z) (l : loc) : res (heap * cdict) :=
  do d1 <- foldM (fun d key => dpop key d) d nums; setitem Kcel h d1 (str_of_Z num) l.
