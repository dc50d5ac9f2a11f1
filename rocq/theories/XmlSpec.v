(** The XML files of materials: what is in them and how it is written, line by line, and what an attribute means *)
From Coq Require Import Qabs.
From Verif Require Import PyBase PyStr PyText LibModel LibSpec MatModel MatInfoSpec.
Open Scope nat_scope.

(** a nuclide: its name, whether the amount is by weight, and the amount as text *)
Record xnuc := mkXN { xn_name : str; xn_weight : bool; xn_amount : str }.
Record xmaterial := mkXM { xm_id : str; xm_name : str; xm_density : str; xm_units : str; xm_nuclides : list xnuc }.

(** the quoted text [t] of an attribute means [v]: entities stand for characters, and no other quotation mark, less-than sign or line end is in it *)
Inductive Means : str -> str -> Prop :=
| M_end : Means [] []
| M_char c t v : ~ In c (s2l "&<""" ++ [nl]) -> Means t v -> Means (c :: t) (c :: v)
| M_entity name c t v : In (name, c) [(s2l "&amp;", "&"%char); (s2l "&lt;", "<"%char); (s2l "&gt;", ">"%char); (s2l "&quot;", """"%char);
                                     (s2l "&#13;", "013"%char); (s2l "&#10;", "010"%char); (s2l "&#09;", "009"%char)] ->
    Means t v -> Means (name ++ t) (c :: v).
Definition attribute (name : string) (v t : str) : Prop := exists q, Means q v /\ t = s2l " " ++ s2l name ++ s2l "=""" ++ q ++ s2l """".
(** a line with its indentation *)
Definition line (depth : nat) (s l : str) : Prop := l = repeat sp (2 * depth) ++ s ++ [nl].
Definition NuclideLine (n : xnuc) (l : str) : Prop := exists a1 a2,
  attribute "name" (xn_name n) a1 /\ attribute (if xn_weight n then "wo" else "ao") (xn_amount n) a2 /\ line 2 (s2l "<nuclide" ++ a1 ++ a2 ++ s2l " />") l.
Definition MaterialLines (m : xmaterial) (ls : list str) : Prop := exists a1 a2 a3 a4 l1 l2 ns l3,
  attribute "id" (xm_id m) a1 /\ attribute "name" (xm_name m) a2 /\ attribute "value" (xm_density m) a3 /\ attribute "units" (xm_units m) a4
  /\ line 1 (s2l "<material" ++ a1 ++ a2 ++ s2l ">") l1 /\ line 2 (s2l "<density" ++ a3 ++ a4 ++ s2l " />") l2
  /\ Forall2 NuclideLine (xm_nuclides m) ns /\ line 1 (s2l "</material>") l3 /\ ls = l1 :: l2 :: ns ++ [l3].
Definition Document (ms : list xmaterial) (text : str) : Prop :=
  match ms with
  | [] => text = s2l "<materials />"
  | _ => exists l1 lss l2, line 0 (s2l "<materials>") l1 /\ Forall2 MaterialLines ms lss /\ line 0 (s2l "</materials>") l2 /\ text = concat (l1 :: concat lss ++ [l2])
  end.

Section Content.
  Variable fs : Q -> str.                       (** the text of a number *)
  Variable E : matenv.                          (** the library manager, with its table of isotopes *)
  (** the nuclide of an entry of a material: symbol and mass number (none for the natural element), by weight when the fraction is negative *)
  Definition NuclideOf (z : zaid) (n : xnuc) : Prop := exists e a,
    symbol_of E z e /\ parse_int (z_iso z) = Ok a /\ xn_name n = e ++ (if (0 <? a)%Z then str_of_Z a else [])
    /\ (xn_weight n = true <-> (z_frac z < 0)%Q) /\ xn_amount n = fs (Qabs (z_frac z)).
  Definition MaterialOf (md : material * option Q) (x : xmaterial) : Prop := exists d, snd md = Some d
    /\ xm_id x = filter is_digit (mt_name (fst md)) /\ xm_name x = mt_name (fst md) /\ xm_density x = fs (Qabs d)
    /\ ((d < 0)%Q -> xm_units x = s2l "g/cc") /\ (~ (d < 0)%Q -> xm_units x = s2l "atom/b-cm")
    /\ Forall2 NuclideOf (concat (map (fun s => concat (s_elems s)) (mt_subs (fst md)))) (xm_nuclides x).
End Content.
