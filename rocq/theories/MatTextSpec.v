(** Vocabulary for the statements about the text of material cards. *)
From Verif Require Import PyBase PyStr PyText PySci LibModel MatModel MatSpec MatTextModel.
Open Scope nat_scope.

(** a comment line: c or C in the first column, followed by white space *)
Definition CommentLine (l : str) : Prop := exists c w r, l = c :: w :: r /\ (c = "c"%char \/ c = "C"%char) /\ is_ws w = true.
(** a line of data: it starts with white space and its first word is not a material name (m or M and a digit) *)
Definition MatWord (w : str) : Prop := exists c d r, w = c :: d :: r /\ (c = "m"%char \/ c = "M"%char) /\ is_digit d = true.
Definition DataLine (l : str) : Prop := starts_ws l = true /\ l <> [] /\ forall w r, split l = w :: r -> ~ MatWord w.
(** the words of a line up to the first one that starts with a dollar sign *)
Inductive UpToDollar : list str -> list str -> Prop :=
| UD_end : UpToDollar [] []
| UD_dollar w r : UpToDollar (("$"%char :: w) :: r) []
| UD_word w r us : hd_error w <> Some "$"%char -> UpToDollar r us -> UpToDollar (w :: r) (w :: us).
(** the text of a nuclide: element and mass number, at least one digit in front, and a library after a dot *)
Definition ZaidText (w : str) (z : zaid) : Prop :=
  (exists c r, w = c :: r /\ is_digit c = true) /\ length (z_iso z) = 3 /\ ~ In dot (z_elem z ++ z_iso z) /\
  w = z_elem z ++ z_iso z ++ match z_lib z with None => [] | Some l => dot :: l end /\
  match z_lib z with None => True | Some l => ~ In dot l end.
(** nuclides, each with its fraction, and then keywords; the first keyword does not start with a digit *)
Inductive Words : list str -> list zaid -> list str -> Prop :=
| W_end : Words [] [] []
| W_keys k ks : (forall c r, k = c :: r -> is_digit c = false) -> Words (k :: ks) [] (k :: ks)
| W_zaid n f z ws zs ks : ZaidText n z -> parse_float f = Ok (z_frac z) -> Words ws zs ks -> Words (n :: f :: ws) (z :: zs) ks.
Definition Data (l : str) (zs : list zaid) (ks : list str) : Prop := exists us, UpToDollar (split l) us /\ Words us zs ks.

(** A part of a card: comment lines and lines of data with what they say *)
Record part := mkpart { p_comments : list str; p_lines : list (str * list zaid * list str) }.
Definition p_zaids (p : part) : list zaid := concat (map (fun x => snd (fst x)) (p_lines p)).
Definition p_keys (p : part) : list str := concat (map snd (p_lines p)).
Definition p_text (p : part) : list str := p_comments p ++ map (fun x => fst (fst x)) (p_lines p).
Definition Lines (ls : list (str * list zaid * list str)) : Prop :=
  Forall (fun x => DataLine (fst (fst x)) /\ ~ In cr (fst (fst x)) /\ Data (fst (fst x)) (snd (fst x)) (snd x)) ls.
Definition Comments (ls : list str) : Prop := Forall (fun l => CommentLine l /\ ~ In cr l) ls.
Definition Part (p : part) : Prop := Comments (p_comments p) /\ p_comments p <> [] /\ Lines (p_lines p) /\ p_lines p <> [].
(** the line with the name of the material: white space, m or M and digits, white space, data *)
Record nameline := mkname { n_ws : str; n_name : str; n_rest : str; n_zaids : list zaid; n_keys : list str }.
Definition n_text (n : nameline) : str := n_ws n ++ n_name n ++ n_rest n.
Definition NameLine (n : nameline) : Prop :=
  Forall (fun c => is_ws c = true) (n_ws n) /\ (exists c ds, n_name n = c :: ds /\ (c = "m"%char \/ c = "M"%char) /\ ds <> [] /\ Forall (fun d => is_digit d = true) ds) /\
  (exists w r, n_rest n = w :: r /\ is_ws w = true) /\ Data (n_rest n) (n_zaids n) (n_keys n) /\ ~ In cr (n_text n).

(** What is kept of a part *)
Definition seen (s : rsub) (zs : list zaid) (ks : list str) (header : str) : Prop := r_zaids s = zs /\ r_keys s = ks /\ r_header s = header.

(** ** Writing *)
(** A material to be written: a name, header lines (comments without their line end), and submaterials with header
    lines, nuclides and keywords *)
Definition Note (l : str) : Prop := CommentLine (l ++ [nl]) /\ ~ In nl l /\ ~ In cr l.
Fixpoint joined (ls : list str) : str := match ls with [] => [] | [l] => l | l :: r => l ++ nl :: joined r end.
Definition closed (ls : list str) : str := concat (map (fun l => l ++ [nl]) ls).
Definition Word (w : str) : Prop := w <> [] /\ Forall (fun c => is_ws c = false) w /\ hd_error w <> Some "$"%char.
Definition Plain (s : str) : Prop := ~ In nl s /\ ~ In cr s.
Record wpart := mkwp { wp_notes : list str; wp_elems : list (list (zaid * info)); wp_keys : list str }.
Definition WZaid (zi : zaid * info) : Prop :=
  let z := fst zi in wf_zaid z /\ (exists c r, z_elem z = c :: r /\ is_digit c = true) /\ Word (z_name z) /\ length (z_name z) <= 10 /\
  Plain (i_fullname (snd zi)) /\ Plain (i_weight (snd zi)) /\ Plain (i_abundance (snd zi)).
Definition WPart (p : wpart) : Prop :=
  Forall Note (wp_notes p) /\ concat (wp_elems p) <> [] /\ Forall WZaid (concat (wp_elems p)) /\ Forall Word (wp_keys p) /\
  (forall k ks, wp_keys p = k :: ks -> ~ MatWord k /\ forall c r, k = c :: r -> is_digit c = false).
(** the submaterial that is written: without header, or with the header lines *)
Definition Sub (w : wsub) (p : wpart) : Prop :=
  w_elems w = wp_elems p /\ w_keys w = wp_keys p /\ ((w_header w = None /\ wp_notes p = []) \/ w_header w = Some (joined (wp_notes p))).
Definition wp_zaids (p : wpart) : list zaid := map (fun zi => with_frac (fst zi) (roundn Short 6 (z_frac (fst zi)))) (concat (wp_elems p)).
Definition MatName (n : str) : Prop := exists c ds, n = c :: ds /\ (c = "m"%char \/ c = "M"%char) /\ ds <> [] /\ Forall (fun d => is_digit d = true) ds.

(** the header of a material: none, or the text of comment lines, with or without the last line end *)
Definition Header (o : option str) (ls : list str) : Prop :=
  Forall Note ls /\ ((o = None /\ ls = []) \/ o = Some (joined ls) \/ o = Some (closed ls)).
(** all the submaterials but the first have a header *)
Definition separated (ps : list wpart) : Prop := match ps with [] => True | _ :: r => Forall (fun p => wp_notes p <> []) r end.
(** A material as it is to be written, and what it says *)
Definition WMat (m : wmat) (hs : list str) (ps : list wpart) : Prop :=
  MatName (wm_name m) /\ Header (wm_header m) hs /\ Forall2 Sub (wm_subs m) ps /\ Forall WPart ps /\ separated ps /\ wm_mx m = [].
(** the same material with lines of mx cards *)
Definition with_mx (m : wmat) (mx : list (list str)) : wmat := mkWM (wm_name m) (wm_header m) (wm_subs m) mx.
(** a line, with or without its line end, and what it says *)
Definition one_line (l b : str) : Prop := (l = b \/ l = b ++ [nl]) /\ b <> [] /\ ~ In nl b.
(** the lines of a text file with the text and a line end *)
Definition file_lines (t : str) : list str := lines_of (t ++ [nl]).
(** nuclides in groups of one element: groups are not empty, two groups have different elements, no nuclide is repeated *)
Definition Grouped (gs : list (list zaid)) : Prop :=
  exists es, NoDup es /\ Forall2 (fun e g => g <> [] /\ Forall (fun z => z_elem z = e) g) es gs /\ NoDup (map z_name (concat gs)).
