(** C35, C49, C50: how a reader of the data cards reads them. *)
From Verif Require Import PyBase PyStr PyText LibModel InpGeomSpec DataModel.
Open Scope nat_scope.

(** a name made of several particles: "N", "N,P", "N,P,E" *)
Fixpoint comma_list (ps : list str) : str :=
  match ps with [] => [] | [p] => p | p :: ps' => p ++ ","%char :: comma_list ps' end.
(** MCNP's repeat feature: "nR" repeats the value before it n times *)
Definition repeat_count (w : str) : option nat :=
  let (ds, r) := span_digits w in
  match ds, r with
  | _ :: _, [c] => if Ascii.eqb c "R" then Some (N.to_nat (num_of ds)) else None
  | _, _ => None
  end.
Fixpoint expand (last : option str) (ws : list str) : option (list str) :=
  match ws with
  | [] => Some []
  | w :: ws' =>
      match repeat_count w with
      | Some n => match last with
                  | Some v => option_map (app (repeat v n)) (expand last ws')
                  | None => None
                  end
      | None => option_map (cons w) (expand (Some w) ws')
      end
  end.
(** the values of a data card: what follows its name *)
Definition card_values (ls : list str) : option (list str) := expand None (tl (words ls)).
(** a card occurs where reading put it *)
Definition held {M} (from_text : list str -> res M) (s : sections M) (c : dcard) : Prop :=
  (exists key, dget str_eqb key (sec_other s) = Some c) \/ (exists key, dget str_eqb key (sec_tr s) = Some c) \/
  (exists m mx, In (m, mx) (sec_mats s) /\ (from_text (dc_lines c) = Ok m \/ In c mx)).
Definition cards_held {M} (s : sections M) : nat :=
  length (sec_other s) + length (sec_tr s) + fold_right (fun m n => S (length (snd m)) + n) 0 (sec_mats s).
(** the names that are rewritten: FMESH, TR or F followed by a digit somewhere in the name *)
Definition rewritten (key : str) : Prop :=
  exists a p d b, In p [s2l "FMESH"; s2l "TR"; s2l "F"] /\ is_digit d = true /\ key = a ++ p ++ d :: b.
