(** C124: cells and their fills. *)
From Coq Require Import ZArith.
From Verif Require Import PyBase PyStr InpModel.
(* what numjuggler does to a card with a fill: [c1] is the card changed in place, [n] the card read again from its text *)
Definition unfilled (remove_fill again : card -> res card) (c c1 n : card) : Prop :=
  remove_fill c = Ok c1 /\ again c1 = Ok n /\ get_f n = None /\ c_name n = c_name c.
(* the cells of an input: one object per key, the key is the number of the cell *)
Definition good_cells (h : heap) (cells : cdict) : Prop :=
  NoDup (map fst cells) /\ NoDup (map snd cells)
  /\ Forall (fun kl => exists c n, nth_error h (snd kl) = Some c /\ c_name c = Some n /\ key_num (fst kl) = str_of_Z n) cells.
Definition has_fill (c : card) : Prop := get_f c <> None.
