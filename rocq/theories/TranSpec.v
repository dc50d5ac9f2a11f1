(** Vocabulary for the translation of an input. *)
From Verif Require Import PyBase PyStr PyText LibModel LibSpec MatModel MatSpec TranModel.
Open Scope nat_scope.

(** the three forms of the argument as the manual describes them: the name of a library, a dictionary from the old to the
    new library, a dictionary from the new library to the zaids that it is for *)
Inductive stands_for : libarg -> newlib -> Prop :=
| SF_name l : stands_for (AText l) (ToLib l)
| SF_old d : d <> [] -> stands_for (ADict (map (fun kv => (fst kv, VText (snd kv))) d)) (ByOldLib d)
| SF_zaids d : d <> [] -> stands_for (ADict (map (fun kv => (fst kv, VMembers (snd kv))) d)) (ByZaid d).
(** a text that spells a dictionary *)
Definition braced (t : str) : Prop := exists r, t = "{"%char :: r.
(** the same nuclide of the same library with the same fraction *)
Definition same_zaid (z z' : zaid) : Prop := nuclide z = nuclide z' /\ (z_frac z == z_frac z')%Q.
(** materials with the same names whose submaterials list, and show, the same zaids *)
Definition same_sub (s s' : submat) : Prop := Forall2 same_zaid (s_zaids s) (s_zaids s') /\ Forall2 (Forall2 same_zaid) (s_elems s) (s_elems s').
Definition same_mat (m m' : material) : Prop := mt_name m = mt_name m' /\ Forall2 same_sub (mt_subs m) (mt_subs m').
(** a zaid written without leading zeros, as in 1001 and 26056 *)
Definition plain (z : zaid) : Prop := exists n a, zaid_text n a (z_num z).
(** the table has isotopes only, no natural elements *)
Definition isotopes_only (t : list isorow) : Prop := forall r, In r t -> r_A r <> 0%N.
(** what an argument means: a text that spells a dictionary is that dictionary, everything else is itself; the empty text
    and a text that json.loads refuses mean nothing *)
Inductive meaning (loads : str -> res (list (str * dval))) : libarg -> libarg -> Prop :=
| M_name t : t <> [] -> ~ braced t -> meaning loads (AText t) (AText t)
| M_json t d : braced t -> loads t = Ok d -> meaning loads (AText t) (ADict d)
| M_dict d : meaning loads (ADict d) (ADict d).
(** the value holds the number of a zaid: as a member of a collection, or anywhere inside a text *)
Definition holds (num : str) (v : dval) : Prop :=
  match v with VText s => exists p q, s = p ++ num ++ q | VMembers l => In num l | VOther => False end.
