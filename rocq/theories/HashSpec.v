(** C102: the cells after hash_multiple_cells. *)
From Verif Require Import PyBase PyStr PyText LibModel MatModel InpModel InpSpec InpGeomSpec.
Open Scope nat_scope.

(** the cells to be taken out of cell n, with repetitions *)
Definition hashes (d : list (Z * list Z)) (n : Z) : list Z :=
  concat (map (fun p => repeat (fst p) (count_occ Z.eq_dec (snd p) n)) d).
(** a readable cell: a card of ordinary layout, its text, its region, and the words of its text: head (number,
    material, density), geometry, keywords *)
Record Readable (c : card) (n : Z) (ls : list str) (g : geom) (head kw : list str) : Prop := {
  rd_ordinary : exists m geo key, ordinary c n m geo key /\ head = str_of_Z n :: str_of_Z m :: (if (m =? 0)%Z then [] else [hd [] (c_hidden c)]);
  rd_text : card_text c = Ok ls;
  rd_region : region_of ls g;
  rd_words : words ls = head ++ geometry_words (words ls) ++ kw }.
