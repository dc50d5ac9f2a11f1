(** C128: the dictionary of cards.  Independent of how CardsDict checks. *)
From Coq Require Import ZArith.
From Verif Require Import PyBase PyStr PyText InpModel InpExamples CardsModel.
Open Scope nat_scope.

(** every key is a string that denotes the number of its card, every value a card; no key twice, no card twice *)
Definition tidy (h : heap) (d : store) : Prop :=
  NoDup (map fst d) /\ NoDup (map snd d) /\
  (forall key v, In (key, v) d -> exists s l c n, key = KS s /\ v = VC l /\ nth_error h l = Some c /\ c_name c = Some n /\ parse_int (key_num s) = Ok n).
(** all cards have a number *)
Definition named (h : heap) : Prop := forall l c, nth_error h l = Some c -> c_name c <> None.
(** the items bring no card that is there under another key, nor one card under two keys *)
Definition apart (d : store) (items : list (pkey * pval)) : Prop :=
  forall key l, In (key, VC l) items -> forall key', In (key', VC l) d \/ In (key', VC l) items -> key' = key.
Definition op_items (o : op) : list (pkey * pval) := match o with OSet key v => [(key, v)] | OUpdate items => items | _ => [] end.
Definition checked (o : op) : Prop := match o with OSetdefault _ _ | OOr _ => False | _ => True end.
(** every operation of the history is a checked one that keeps cards apart at the moment it is done *)
Fixpoint careful (k : kind) (h : heap) (d : store) (os : list op) : Prop :=
  match os with
  | [] => True
  | o :: os' => checked o /\ apart d (op_items o) /\ let s := fst (do_op k h d o) in careful k (fst s) (snd s) os'
  end.
(** the key and the value are fit for storing: a string and a card; the string reads as a number, or is the word None and the
    card has no number *)
Definition fit (h : heap) (key : pkey) (v : pval) : Prop :=
  exists s l c, key = KS s /\ v = VC l /\ nth_error h l = Some c /\ ((exists z, parse_int (key_num s) = Ok z) \/ (c_name c = None /\ key_num s = s2l "None")).

(** examples: two surfaces, one of them stored; a script *)
Definition k_heap : heap := [x_s10; x_s11].
Definition k_store : store := [(KS (s2l "10"), VC 0)].
Definition k_ops : list op := [OSet (KS (s2l "*21")) (VC 1); OUpdate [(KS (s2l "30"), VC 2); (KX 5, VX 9)]; ODel (KS (s2l "10")); OSet (KS (s2l "abc")) (VC 0)].
