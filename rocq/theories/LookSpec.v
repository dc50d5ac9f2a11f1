(** C99-C101: densities, the table of the cells and the look-ups. *)
From Coq Require Import ZArith QArith Qabs.
From Verif Require Import PyBase PyStr PyText LibModel MatModel MatSpec InpModel InpSpec LookModel.
Open Scope nat_scope.

(** the density written in a card *)
Definition written_density (c : card) (q : Q) : Prop := exists d hs, c_hidden c = d :: hs /\ parse_float d = Ok q.
(** two cards that differ at most in the text of the density *)
Definition same_but_density (c c' : card) : Prop :=
  c_name c' = c_name c /\ c_values c' = c_values c /\ c_input c' = c_input c /\ length (c_hidden c') = length (c_hidden c) /\ tl (c_hidden c') = tl (c_hidden c).
(** the cell stored under a key has material m (not void) and density q in grams per cubic centimetre: the absolute
    value of a negative density, the conversion of another *)
Definition has_density (convert : Z -> Q -> res Q) (h : heap) (cells : cdict) (m : Z) (q : Q) : Prop :=
  exists key l c d, In (key, l) cells /\ nth_error h l = Some c /\ get_m c = Some m /\ m <> 0%Z /\ written_density c d /\
    ((d < 0)%Q /\ q = Qabs d \/ (0 <= d)%Q /\ convert m d = Ok q).
(** the key under which a card is found: its name, or else its name after an asterisk *)
Definition key_of (d : cdict) (id key : str) : Prop :=
  In key (dkeys d) /\ (key = id \/ key = star id /\ ~ In id (dkeys d)).
(** the entries of a list without repetitions, in the order of their first occurrence *)
Definition firsts (l r : list str) : Prop :=
  NoDup r /\ (forall x, In x r <-> In x l) /\
  (forall i j x y, nth_error r i = Some x -> nth_error r j = Some y -> i < j ->
     exists k, nth_error l k = Some x /\ forall k', k' <= k -> nth_error l k' <> Some y).
(** the template of a card has a place for hidden texts *)
Definition has_mark (t : tline) : bool := existsb (fun i => match i with Ch c => Ascii.eqb c tilde | Hole _ => false end) t.
Definition has_place (c : card) : bool := existsb has_mark (c_input c).
