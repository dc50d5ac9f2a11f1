(** Where the bytes of a file that are not UTF-8 are, and how they are reported. *)
From Coq Require Import Sorted.
From Verif Require Import PyBase PyStr RssaModel RssaSpec UniModel.
Open Scope nat_scope.

(* a file is a sequence of characters and of bytes that belong to none *)
Inductive item := Good (c : Z) | Bad (b : Z).
Definition item_bytes (i : item) : bytes := match i with Good c => encode c | Bad b => [b] end.
Definition item_ok (i : item) : Prop := match i with Good c => scalar c | Bad b => (128 <= b < 256)%Z end.
(* a byte is bad only where no character starts *)
Definition Decoding (file : bytes) (items : list item) : Prop :=
  file = concat (map item_bytes items) /\ Forall item_ok items
  /\ forall l1 b l2, items = l1 ++ Bad b :: l2 -> forall c r, scalar c -> concat (map item_bytes (Bad b :: l2)) <> encode c ++ r.
Definition is_bytes (file : bytes) : Prop := Forall (fun b => (0 <= b < 256)%Z) file.
(* line and column (from 0) after an item; the lines end with \n, \r or \r\n, and [cr] tells that the last item was \r *)
Definition after_item (p : nat * nat * bool) (i : item) : nat * nat * bool :=
  let '(line, col, cr) := p in
  match i with
  | Good 13%Z => (S line, 0, true)
  | Good 10%Z => if cr then (line, 0, false) else (S line, 0, false)
  | _ => (line, S col, false)
  end.
(* the bad bytes with their line and column *)
Fixpoint bad_bytes (p : nat * nat * bool) (items : list item) : list (nat * (nat * Z)) :=
  match items with
  | [] => []
  | i :: r => match i with Bad b => [(fst (fst p), (snd (fst p), b))] | Good _ => [] end ++ bad_bytes (after_item p i) r
  end.
(* a report: one line of text for each line with bad bytes, in order; columns are shown from 1, bytes with two hexadecimal digits *)
Definition ShowByte (e : nat * Z) (t : str) : Prop :=
  exists x y, nth_error (s2l "0123456789abcdef") (Z.to_nat (snd e / 16)) = Some x /\ nth_error (s2l "0123456789abcdef") (Z.to_nat (snd e mod 16)) = Some y
    /\ t = s2l " " ++ rjust 2 (str_of_N (N.of_nat (fst e + 1))) ++ s2l ": " ++ [x; y].
Definition ShowLine (g : nat * list (nat * Z)) (t : str) : Prop :=
  exists ts, Forall2 ShowByte (snd g) ts /\ t = s2l "Found errors on line " ++ str_of_N (N.of_nat (fst g)) ++ s2l ":" ++ concat ts ++ [nl].
Definition Report (bad : list (nat * (nat * Z))) (t : str) : Prop :=
  exists groups ts, bad = concat (map (fun g => map (fun e => (fst g, e)) (snd g)) groups)
    /\ Forall (fun g => snd g <> []) groups /\ StronglySorted lt (map fst groups) /\ Forall2 ShowLine groups ts /\ t = concat ts.
