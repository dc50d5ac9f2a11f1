(** C134: values that are all numbers. *)
From Verif Require Import PyBase MctalModel.
Definition AllNumbers (vs : list (fl * fl)) : Prop := Forall (fun x => fst x <> None /\ snd x <> None) vs.
