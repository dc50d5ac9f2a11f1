(** What the pathway section of a FISPACT legacy output shows, independently of how it is read. *)
From Coq Require Import Sorted.
From Verif Require Import PyBase PyStr PyText LibModel LibSpec MeshModel MeshSpec OutSpec FispModel.
Open Scope nat_scope.

Definition ws (s : str) : Prop := Forall (fun c => is_ws c = true) s.
(* "Co 58m": element, blanks, mass number, m if metastable *)
Definition Symbol (e : str) : Prop := exists u lo, e = u :: lo /\ is_upper u = true /\ Forall (fun c => is_lower c = true) lo.
Definition NuclideText (z : nuclide) (t : str) : Prop := exists w, t = n_el z ++ w ++ n_iso z ++ (if n_meta z then s2l "m" else [])
  /\ Symbol (n_el z) /\ ws w /\ all_digits (n_iso z).
(* " ---(R)--- ": the edge after a nuclide *)
Definition EdgeText (t : str) : Prop := exists w1 x w2, t = w1 ++ s2l "---(" ++ x :: s2l ")---" ++ w2 /\ ws w1 /\ ws w2.
Definition chain_text (parts : list (str * str)) : str := concat (map (fun p => fst p ++ snd p) parts).
Definition ChainText (zs : list nuclide) (t : str) : Prop := exists parts, t = chain_text parts
  /\ Forall2 (fun z p => NuclideText z (fst p) /\ EdgeText (snd p)) zs parts.
(* " path  1  43.807% Mn 55 ---(R)--- Mn 56 ---(S)--- " *)
Definition DecimalText (q : Q) (t : str) : Prop := exists a b, (t = a \/ t = a ++ dot :: b) /\ all_digits a /\ Forall (fun c => is_digit c = true) b /\ numeral t q.
Definition PathLine (q : Q) (zs : list nuclide) (l : str) : Prop := exists w1 w2 d w3 p w4 c, l = w1 ++ s2l "path" ++ w2 ++ d ++ w3 ++ p ++ "%"%char :: w4 ++ c
  /\ blanks w1 /\ blanks w2 /\ all_digits d /\ blanks w3 /\ DecimalText q p /\ blanks w4 /\ ChainText zs c.
(* a line that starts as a path *)
Definition path_line (l : str) : Prop := exists w1 w2 d r, l = w1 ++ s2l "path" ++ w2 ++ d ++ r /\ blanks w1 /\ blanks w2 /\ all_digits d.
(* a row of reactions, each in parentheses, after other text *)
Definition no_paren (s : str) : Prop := Forall (fun c => c <> "("%char) s.
(* what stands in the parentheses: letters, digits, commas, signs *)
Definition reac_char (c : ascii) : Prop := is_letter c = true \/ is_digit c = true \/ c = ","%char \/ c = "+"%char \/ c = "-"%char.
Definition ReactionText (r : str) : Prop := exists b, r = "("%char :: b ++ [")"%char] /\ b <> [] /\ Forall reac_char b.
Definition ReactionRow (rs : list str) (l : str) : Prop := exists gaps e, length gaps = length rs /\ l = concat (map (fun p => fst p ++ snd p) (combine gaps rs)) ++ e
  /\ Forall no_paren gaps /\ no_paren e /\ Forall ReactionText rs.
Definition ContinuedLine (zs : list nuclide) (l : str) : Prop := exists w c, l = w ++ s2l "path continued" ++ s2l " " ++ c /\ ws w /\ exists w' c', c = w' ++ c' /\ ws w' /\ ChainText zs c'.

(* the section of a file: after the last line on loops, before the last title of generic pathways *)
Definition starts (l : str) : Prop := mentions "Significant loops" l.
Definition ends (l : str) : Prop := ~ mentions "Significant loops" l /\ mentions "G E N E R I C   P A T H W" l.
Definition Section_of (sec lines : list str) : Prop := exists a s e b, lines = a ++ s :: sec ++ e :: b /\ starts s /\ ends e
  /\ Forall (fun l => ~ starts l) sec /\ Forall (fun l => ~ starts l /\ ~ ends l) b.
(* a path of the section: chain of nuclides, the row of reactions in the next line, one reaction per edge between nuclides *)
Definition path_at (sec : list str) (i : nat) : Prop := exists l, nth_error sec i = Some l /\ path_line l.
Definition PathAt (sec : list str) (i : nat) (p : pathway) : Prop := exists l l1 mids, nth_error sec i = Some l /\ nth_error sec (i + 1) = Some l1
  /\ PathLine (p_perc p) (p_parent p :: mids ++ [p_daughter p]) l /\ ReactionRow (p_reactions p) l1
  /\ (mids <> [] -> length (p_reactions p) = length mids + 1) /\ p_inter p = match mids with [] => None | _ => Some mids end.
(* a path over two lines: the last nuclide of the first line, and the reaction after it, are repeated in the second *)
Definition LongPathAt (sec : list str) (i : nat) (q : Q) (zs : list nuclide) (z : nuclide) (more : list nuclide) (rs rs2 : list str) : Prop :=
  exists l l1 l4 l5, nth_error sec i = Some l /\ nth_error sec (i + 1) = Some l1 /\ nth_error sec (i + 4) = Some l4 /\ nth_error sec (i + 5) = Some l5
  /\ PathLine q (zs ++ [z]) l /\ ReactionRow rs l1 /\ length rs = length zs + 1 /\ ContinuedLine (z :: more) l4 /\ ReactionRow rs2 l5 /\ length rs2 = length more.

(* the text of the number of a nuclide: "26056" for Fe56 and Fe56m *)
Definition NumberText (t : list isorow) (n : nuclide) (k : str) : Prop :=
  exists z, symbol t z (n_el n) /\ LibSpec.word (n_el n) /\ all_digits (n_iso n) /\ (num_of (n_iso n) < 1000)%N /\ zaid_text z (num_of (n_iso n)) k.
(* the row of a pathway in the table *)
Definition RowFor (p : pathway) (r : prow) : Prop := pr_daughter r = get_str (p_daughter p) /\ pr_perc r = p_perc p /\ pr_parent r = get_str (p_parent p)
  /\ pr_reactions r = p_reactions p /\ pr_inter r = match p_inter p with Some l => map get_str l | None => [] end.
