(** input/MCNPinput.py 1762-1773: Input.delete_fill_cards.  Cards, heap and dictionaries are those of InpModel.v. *)
From Coq Require Import ZArith.
From Verif Require Import PyBase PyStr InpModel.
Open Scope nat_scope.

Section Fill.
  (* numjuggler: Card.remove_fill (changes the card), and the card made from the wrapped text of a card, with its values *)
  Context (remove_fill again : card -> res card).
  (** MCNPinput.py 1764-1773: the items of the dictionary one after the other; the new card is a new object (the next place of
      the heap), put under the same key (CardsDict.__setitem__).  The state when an exception is raised is kept. *)
  Fixpoint delete_fill (h : heap) (d : cdict) (items : cdict) : (heap * cdict) * option exn :=
    match items with
    | [] => ((h, d), None)
    | (key, l) :: rest =>
        match hget h l with
        | Err e => ((h, d), Some e)
        | Ok c =>
            match get_f c with
            | None => delete_fill h d rest
            | Some _ =>
                match remove_fill c with
                | Err e => ((h, d), Some e)
                | Ok c1 =>
                    let h1 := hset h l c1 in
                    match again c1 with
                    | Err e => ((h1, d), Some e)
                    | Ok n => match setitem Kcel (h1 ++ [n]) d key (length h1) with
                              | Err e => ((h1, d), Some e)
                              | Ok (h2, d2) => delete_fill h2 d2 rest
                              end
                    end
                end
            end
        end
    end.
  Definition delete_fill_cards (h : heap) (cells : cdict) : (heap * cdict) * option exn := delete_fill h cells cells.
End Fill.
