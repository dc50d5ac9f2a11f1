(** What an MCNP output file shows, independently of how it is read. *)
From Coq Require Import Sorted.
From Verif Require Import PyBase PyStr PyText DataModel MeshModel MeshSpec OutModel.
Open Scope nat_scope.

Definition all_digits (d : str) : Prop := d <> [] /\ Forall (fun c => is_digit c = true) d.
Definition digit_free (s : str) : Prop := Forall (fun c => is_digit c = false) s.
Definition not_starting (p : ascii -> bool) (s : str) : Prop := forall c r, s = c :: r -> p c = false.
Definition not_starting_digit (s : str) : Prop := not_starting is_digit s.
(* [d] is the first whole number of the line *)
Definition FirstNumber (d l : str) : Prop := exists a b, l = a ++ d ++ b /\ digit_free a /\ all_digits d /\ not_starting_digit b.
Definition FirstInt (z : Z) (l : str) : Prop := exists d, FirstNumber d l /\ z = Z.of_N (num_of d).
(* a number such as -1.43121E-01 and a line with such numbers between other text *)
Definition SciText (w : str) : Prop := exists sg d ds g xs, w = sg ++ d :: dot :: ds ++ "E"%char :: g :: xs
  /\ (sg = [] \/ sg = [minus] \/ sg = [plus]) /\ is_digit d = true /\ all_digits ds /\ (g = minus \/ g = plus) /\ all_digits xs.
Definition filler (s : str) : Prop := Forall (fun c => is_digit c = false /\ c <> minus /\ c <> plus) s.
Definition SciLine (qs : list Q) (l : str) : Prop := exists pre parts,
  l = pre ++ concat (map (fun p => fst p ++ snd p) parts) /\ filler pre
  /\ Forall2 (fun p q => SciText (fst p) /\ filler (snd p) /\ snd p <> [] /\ numeral (fst p) q) parts qs.

(* the report of a lost particle starts at line [i] *)
Definition lost_at (lines : list str) (i : nat) : Prop := exists l, nth_error lines i = Some l /\ mentions surface_id l.
Definition ReportAt (cosines : bool) (univ : option (str -> res (option Z))) (lines : list str) (i : nat) (r : lp) : Prop :=
  exists l0 l1 l6 l7 x y z u v w m1 m2, nth_error lines i = Some l0 /\ nth_error lines (i + 1) = Some l1 /\ nth_error lines (i + 6) = Some l6 /\ nth_error lines (i + 7) = Some l7
  /\ FirstNumber (l_surface r) l0 /\ FirstNumber (l_cell r) l1
  /\ SciLine (x :: y :: z :: m1) l6 /\ l_xyz r = (x, y, z)
  /\ SciLine (u :: v :: w :: m2) l7 /\ l_uvw r = (if cosines then Some (u, v, w) else None)
  /\ match univ with None => l_univ r = None | Some g => exists n, g (l_cell r) = Ok n /\ l_univ r = Some n end.
(* [is] are the places with the property, in order *)
Definition Places (P : nat -> Prop) (is : list nat) : Prop := StronglySorted lt is /\ forall i, In i is <-> P i.
Definition more_first {A} (a b : A * nat) : Prop := snd b <= snd a.

(* the summary of the statistical checks *)
Definition no_title (l : str) : Prop := ~ mentions "result of statistical checks" l.
Definition Says (v : verdict) (l : str) : Prop :=
  match v with
  | Missed => mentions "missed" l
  | Passed => ~ mentions "missed" l /\ mentions "passed" l
  | AllZeros => ~ mentions "missed" l /\ ~ mentions "passed" l /\ mentions "no nonzero" l
  end.
Definition Unclear (l : str) : Prop := ~ mentions "missed" l /\ ~ mentions "passed" l /\ ~ mentions "no nonzero" l.
Definition Numbered (t : Z) (l : str) : Prop := exists a d b, l = a ++ d ++ b /\ Forall (fun c => is_ws c = true) a /\ all_digits d /\ not_starting_digit b /\ t = Z.of_N (num_of d).
Definition NotNumbered (l : str) : Prop := forall t, ~ Numbered t l.
Definition OtherLine (l : str) : Prop := mentions "result of statistical checks" l \/ NotNumbered l /\ ~ mentions "the 10 statistical checks are only" l.
(* the lines of the summary: tallies with their results, between other lines *)
Inductive Body : list (Z * verdict) -> list str -> Prop :=
| body_nil : Body [] []
| body_other l es ls : OtherLine l -> Body es ls -> Body es (l :: ls)
| body_tally t v l es ls : no_title l -> Numbered t l -> Says v l -> Body es ls -> Body ((t, v) :: es) (l :: ls).
Definition Ending (ls : list str) : Prop := ls = [] \/ exists l r, ls = l :: r /\ no_title l /\ NotNumbered l /\ mentions "the 10 statistical checks are only" l.
Definition SummaryText (es : list (Z * verdict)) (ls : list str) : Prop := exists a t b c,
  ls = a ++ t :: b ++ c /\ Forall no_title a /\ mentions "result of statistical checks" t /\ Body es b /\ Ending c.
Definition last_of {K V} (P : K -> Prop) (es : list (K * V)) (v : V) : Prop := exists a k b, es = a ++ (k, v) :: b /\ P k /\ forall k' v', In (k', v') b -> ~ P k'.

(* the table of the checks of a tally *)
Definition TitleOf (t : Z) (l : str) : Prop := exists x c, l = s2l "           results of 10 statistical " ++ x ++ c :: str_of_Z t ++ [nl] /\ x <> [] /\ is_ws c = true.
(* a row of words; the two columns of the figure of merit may be blank *)
Definition RowText (label : string) (fom : option (str * str)) (seven : list str) (slope : str) (l : str) : Prop :=
  length seven = 7 /\ split l = s2l label :: seven ++ (match fom with Some (a, b) => [a; b] | None => [] end) ++ [slope].
Definition desired_row (ws : list str) (l : str) : Prop := length ws = 10 /\ split l = s2l "desired" :: ws.
Definition TableAt (t : Z) (lines : list str) (dw : list str) (of_ : option (str * str)) (o7 : list str) (os : str) (pf : option (str * str)) (p7 : list str) (ps : str) : Prop :=
  exists i a b c, (exists l, nth_error lines i = Some l /\ TitleOf t l) /\ (forall j l, j < i -> nth_error lines j = Some l -> ~ TitleOf t l)
  /\ nth_error lines (i + 5) = Some a /\ desired_row dw a
  /\ nth_error lines (i + 6) = Some b /\ RowText "observed" of_ o7 os b
  /\ nth_error lines (i + 7) = Some c /\ RowText "passed?" pf p7 ps c.
Definition fom_cells (none : option str) (f : option (str * str)) : list (option str) :=
  match f with Some (a, b) => [Some a; Some b] | None => [none; none] end.

(* the ten cells of such a row *)
Definition ten (fom0 : option str) (f : option (str * str)) (seven : list str) (slope : str) : list (option str) := map Some seven ++ fom_cells fom0 f ++ [Some slope].
(* the row of a tally in the table of all tallies *)
Definition RowFor (lines : list str) (p : Z * verdict) (r : trow) : Prop := tr_tally r = fst p /\ tr_verdict r = snd p
  /\ ((exists dw of_ o7 os pf p7 ps, TableAt (fst p) lines dw of_ o7 os pf p7 ps /\ tr_cells r = ten (Some (s2l "yes")) pf p7 ps)
      \/ (snd p = AllZeros /\ (forall l, In l lines -> ~ TitleOf (fst p) l) /\ tr_cells r = repeat None 10)).
(* the name of a tally with a description *)
Definition named (descr : str) (t : Z) : str := descr ++ s2l " [" ++ str_of_Z t ++ s2l "]".
Definition first_comment (c : list str) : str := match c with x :: _ => x | [] => [] end.

(* columns of a printed table: words, each with the blanks before it *)
Definition word (w : str) : Prop := w <> [] /\ Forall (fun c => c <> sp) w.
Definition columns (ws : list (nat * str)) (l : str) : Prop :=
  l = concat (map (fun p => repeat sp (S (fst p)) ++ snd p) ws) /\ Forall (fun p => word (snd p)) ws.
(* an output file with instances of a table between lines that have nothing to do with it *)
Definition Mentions (p l : str) : Prop := exists a b, l = a ++ p ++ b.
Definition quiet (title : str) (l : str) : Prop := ~ Mentions title l.
Record instance := mkInst { i_before : list str; i_title : str; i_body : list str; i_total : str }.
Definition Instance (title : str) (x : instance) : Prop :=
  Forall (quiet title) (i_before x) /\ Mentions title (i_title x) /\ 2 <= length (i_body x)
  /\ Forall (fun l => quiet title l /\ ~ mentions "total" l) (i_body x) /\ mentions "total" (i_total x) /\ quiet title (i_total x).
Definition lines_of_instance (x : instance) : list str := i_before x ++ i_title x :: i_body x ++ [i_total x].
Definition first_row (xs : list instance) (n : nat) : nat :=
  length (concat (map lines_of_instance (firstn n xs))) + match nth_error xs n with Some x => S (length (i_before x)) | None => 0 end.
(* the width of the columns that the line before the last line of a body shows *)
Definition model_line (x : instance) : str := nth (length (i_body x) - 2) (i_body x) [].

(* versions *)
Definition blanks (w : str) : Prop := w <> [] /\ Forall (fun c => is_ws c = true) w.
Definition D1SLine (v l : str) : Prop := exists a w1 w2 b, l = a ++ s2l "d1suned" ++ w1 ++ s2l "version" ++ w2 ++ v ++ b
  /\ ~ Mentions (s2l "version") a /\ blanks w1 /\ blanks w2 /\ all_digits v /\ not_starting_digit b.
Definition no_d1s (l : str) : Prop := forall a w1 w2 v b, blanks w1 -> blanks w2 -> all_digits v -> l <> a ++ s2l "d1suned" ++ w1 ++ s2l "version" ++ w2 ++ v ++ b.
Definition version_char (c : ascii) : bool := is_digit c || Ascii.eqb c dot.
Definition MCNPLine (v l : str) : Prop := exists a b, l = a ++ s2l "MCNP_" ++ v ++ b /\ ~ Mentions (s2l "MCNP_") a
  /\ v <> [] /\ Forall (fun c => version_char c = true) v /\ not_starting version_char b.
Definition trimmed0 (v r : str) : Prop := exists n m, v = repeat "0"%char n ++ r ++ repeat "0"%char m /\ (forall c r', r = c :: r' -> c <> "0"%char) /\ (forall c r', rev r = c :: r' -> c <> "0"%char).

(* warnings *)
Definition Warning (m l : str) : Prop := exists a b, l = a ++ s2l "warning." ++ b /\ ~ Mentions (s2l "warning.") a /\ ~ Mentions (s2l "warning.") b /\ m = strip (a ++ b).
Definition fatal_line (l : str) : Prop := exists w r, l = w ++ s2l "fatal error" ++ r /\ blanks w.
Definition Fatal (m l : str) : Prop := exists a b, l = a ++ s2l "fatal error." ++ b /\ ~ Mentions (s2l "fatal error.") b /\ m = strip b.
