(** What an .eeout file shows, independently of how it is read. *)
From Verif Require Import PyBase PyStr PyText D1SModel MeshModel MeshSpec OutSpec FispModel EeoutModel.
Open Scope nat_scope.

(* a line with numbers: two blanks, or a blank and a minus sign, before the first digit *)
Definition Numbers (qs : list Q) (l : str) : Prop :=
  (exists a b c r, l = a :: b :: c :: r /\ is_ws a = true /\ (is_ws b = true \/ b = minus) /\ is_digit c = true)
  /\ Forall2 (fun w q => SciText w /\ numeral w q) (split l) qs.
Definition NumberLines (qs : list Q) (ls : list str) : Prop := exists qss, qs = concat qss /\ Forall2 Numbers qss ls.
(* the line before the title of a record: six whole numbers, far from the margin *)
Definition RecordLine (l : str) : Prop := (exists r, l = sp :: sp :: sp :: r) /\ length (split l) = 6 /\ Forall all_digits (split l).
(* lines with whole numbers *)
Definition Whole (zs : list Z) (l : str) : Prop := split l <> [] /\ Forall2 (fun w z => all_digits w /\ z = Z.of_N (num_of w)) (split l) zs.
Definition WholeLines (zs : list Z) (ls : list str) : Prop := exists zss, zs = concat zss /\ Forall2 Whole zss ls.

(* NUMBER OF NODES    :                  391 *)
Definition CountLine (n : str) (v : Z) (l : str) : Prop :=
  (exists a b, l = a ++ b /\ a <> [] /\ Forall (fun c => info_char c = true) a /\ not_starting info_char b /\ n = strip a)
  /\ exists u d w, l = u ++ d ++ w /\ not_starting_digit (rev u) /\ all_digits d /\ digit_free w /\ v = Z.of_N (num_of d).
(* the counts, from NUMBER OF PARTICLES to NUMBER OF EDITS *)
Definition Counts (cs : list (str * Z)) (ls : list str) : Prop :=
  Forall2 (fun c l => CountLine (fst c) (snd c) l) cs ls /\ NoDup (map fst cs)
  /\ (exists l r, ls = l :: r /\ mentions "NUMBER OF PARTICLES" l)
  /\ exists r l, ls = r ++ [l] /\ mentions "NUMBER OF EDITS" l /\ Forall (fun x => ~ mentions "NUMBER OF EDITS" x) r.
Definition counted (cs : list (str * Z)) (n : string) (z : Z) : Prop := In (s2l n, z) cs.

(* the lines that are none of the titles the reader looks for *)
Definition MaterialsTitle (l : str) : Prop := exists w r, l = w ++ s2l "MATERIALS" ++ r /\ blanks w.
Definition ElementType (l : str) : Prop := exists r, l = s2l " ELEMENT TYPE" ++ r.
Definition start_titles : list string := ["PARTICLE LIST"; "NODES X"; "NODES Y"; "NODES Z"]%string.
Definition says_none (ts : list string) (l : str) : Prop := Forall (fun t => ~ mentions t l) ts.
Definition Plain (l : str) : Prop := says_none start_titles l /\ ~ MaterialsTitle l /\ ~ ElementType l.

(* the text of a line up to its end *)
Definition NameLine (n l : str) : Prop := exists t e, l = t ++ e /\ t <> [] /\ ~ In nl t /\ (e = [] \/ e = [nl]) /\ n = strip t.
Definition digit_words (ds : list str) (l : str) : Prop := exists pre parts, l = pre ++ concat (map (fun p => fst p ++ snd p) parts)
  /\ digit_free pre /\ Forall2 (fun p d => fst p = d /\ all_digits d /\ digit_free (snd p) /\ snd p <> []) parts ds.
Definition ListLine (ps : list Z) (l : str) : Prop := exists ds, digit_words ds l /\ ps = map (fun d => Z.of_N (num_of d)) ds.

(* an edit: its name, and the blocks of results and of errors of its bins, with the value for the whole mesh first *)
Record block := mkBlock { b_errors : bool; b_whole : Q; b_values : list Q }.
Record edit := mkEdit { t_number : Z; t_particle : Z; t_type : str; t_blocks : list block }.
Definition edit_titles : list string := ["DATA OUTPUT PARTICLE"; "DATA SETS RESULT TIME BIN"; "DATA SETS REL ERROR TIME BIN"; "CENTROIDS X"]%string.
Definition Quiet (l : str) : Prop := says_none edit_titles l.
Definition BlockTitle (errors : bool) (l : str) : Prop :=
  (if errors then mentions "DATA SETS REL ERROR TIME BIN" l /\ ~ mentions "RESULT" l else mentions "DATA SETS RESULT TIME BIN" l)
  /\ ~ mentions "DATA OUTPUT PARTICLE" l /\ ~ mentions "CENTROIDS X" l /\ value_line l = false.
Definition BlockText (b : block) (ls : list str) : Prop := exists t vs e rest, ls = t :: vs ++ e :: rest
  /\ BlockTitle (b_errors b) t /\ NumberLines (b_whole b :: b_values b) vs /\ Quiet e /\ value_line e = false /\ Forall Quiet rest.
(* DATA OUTPUT PARTICLE : 1 ; EDIT LIST : 1 ; TYPE : FLUX_14 *)
Definition EditTitle (t : edit) (l : str) : Prop := exists w1 p w2 e w3 z,
  l = s2l " DATA OUTPUT PARTICLE :" ++ w1 ++ p ++ s2l " ; EDIT LIST :" ++ w2 ++ e ++ s2l " ; TYPE :" ++ w3 ++ t_type t ++ z
  /\ blanks w1 /\ blanks w2 /\ blanks w3
  /\ all_digits p /\ t_particle t = Z.of_N (num_of p) /\ all_digits e /\ t_number t = Z.of_N (num_of e)
  /\ t_type t <> [] /\ Forall (fun c => is_word c = true) (t_type t) /\ not_starting is_word z
  /\ says_none ["DATA SETS RESULT TIME BIN"; "DATA SETS REL ERROR TIME BIN"; "CENTROIDS X"]%string l.
Definition EditText (t : edit) (ls : list str) : Prop := exists l other bs, ls = l :: other ++ concat bs
  /\ EditTitle t l /\ Forall Quiet other /\ Forall2 BlockText (t_blocks t) bs.
Definition edit_name (t : edit) : str := s2l "Tally" ++ str_of_Z (t_number t) ++ s2l "_par" ++ str_of_Z (t_particle t) ++ s2l "_" ++ t_type t.
(* the values are those of the last block of results, the errors those of the last block of errors *)
Definition LastBlock (errors : bool) (bs : list block) (qs : list Q) : Prop :=
  exists a b c, bs = a ++ b :: c /\ b_errors b = errors /\ b_values b = qs /\ Forall (fun x => b_errors x = negb errors) c.
Definition Arrays (t : edit) (fs : list (str * list Q)) : Prop := exists v e,
  LastBlock false (t_blocks t) v /\ LastBlock true (t_blocks t) e
  /\ fs = [(edit_name t ++ s2l " - value", v); (edit_name t ++ s2l " - error", e)].

(* a title as the file writes it: " NODES X (cm)" *)
Definition Title (t : string) (l : str) : Prop := exists r, l = sp :: s2l t ++ r /\ Forall (fun c => is_upper c = false /\ c <> plus /\ c <> minus) r.
(* the content of a file *)
Record content := mkContent {
  k_counts : list (str * Z); k_particles : list Z; k_materials : list str;
  k_x : list Q; k_y : list Q; k_z : list Q; k_ids : list Z; k_second : bool; k_elements : list (list Z);
  k_edits : list edit; k_density : list Q; k_volume : list Q }.
(* the beginning of the file: counts, particles, names of the materials *)
Definition BeginText (c : content) (ls : list str) : Prop := exists a0 cs a1 pt pl a2 mt ms a3,
  ls = a0 ++ cs ++ a1 ++ pt :: pl :: a2 ++ mt :: ms ++ a3
  /\ Forall Plain a0 /\ Forall (says_none ["NUMBER OF PARTICLES"; "NUMBER OF EDITS"]%string) a0
  /\ Forall Plain cs /\ Counts (k_counts c) cs /\ Forall Plain a1
  /\ Title "PARTICLE LIST" pt /\ Plain pl /\ ListLine (k_particles c) pl /\ Forall Plain a2
  /\ Title "MATERIALS" mt /\ Forall Plain ms /\ Forall2 NameLine (k_materials c) ms /\ Forall Plain a3.
(* the mesh: nodes, types and materials of the elements, nodes of the elements; a record line closes each part *)
Definition MeshHead (c : content) (ls : list str) : Prop := exists tx xs rx ty ys ry tz zs rz te es tm ms rm,
  ls = tx :: xs ++ rx :: ty :: ys ++ ry :: tz :: zs ++ rz :: te :: es ++ tm :: ms ++ [rm]
  /\ Title "NODES X" tx /\ NumberLines (k_x c) xs /\ RecordLine rx
  /\ Title "NODES Y" ty /\ NumberLines (k_y c) ys /\ RecordLine ry
  /\ Title "NODES Z" tz /\ NumberLines (k_z c) zs /\ RecordLine rz
  /\ Title "ELEMENT TYPE" te /\ Forall (says_none ["ELEMENT MATERIAL"; "CONNECTIVITY DATA"]%string) es
  /\ Title "ELEMENT MATERIAL" tm /\ WholeLines (k_ids c) ms /\ RecordLine rm.
Definition MeshText (c : content) (ls : list str) : Prop := exists h tc cs rc, ls = h ++ tc :: cs ++ [rc] /\ MeshHead c h
  /\ mentions "CONNECTIVITY DATA" tc /\ says_none ["NODE ORDERED"; "NEAREST NEIGHBOR DATA"]%string tc
  /\ WholeLines (concat (k_elements c)) cs /\ RecordLine rc.
(* the results: neighbours (not read), edits, centroids (not read), densities, volumes *)
Definition ResultText (c : content) (ls : list str) : Prop := exists tn a es cx b d ds e v vs e2,
  ls = tn :: a ++ concat es ++ cx :: b ++ d :: ds ++ e ++ v :: vs ++ e2
  /\ mentions "NEAREST NEIGHBOR DATA" tn /\ says_none ["CONNECTIVITY DATA"%string] tn /\ Quiet tn /\ Forall Quiet a
  /\ Forall2 EditText (k_edits c) es
  /\ Title "CENTROIDS X" cx /\ Forall (says_none ["DENSITY"; "VOLUMES"]%string) b
  /\ Title "DENSITY" d /\ NumberLines (k_density c) ds /\ Forall RecordLine e
  /\ Title "VOLUMES" v /\ NumberLines (k_volume c) vs /\ Forall (fun l => value_line l = false) e2.
Definition FileText (c : content) (lines : list str) : Prop := exists a b d, lines = a ++ b ++ d /\ BeginText c a /\ MeshText c b /\ ResultText c d.
(* the numbers of the file agree with each other *)
Definition nodes_each (c : content) : nat := if k_second c then 10 else 4.
Definition HeadCounts (c : content) (t1 t2 : Z) : Prop :=
  counted (k_counts c) "NUMBER OF MATERIALS" (Z.of_nat (length (k_materials c)))
  /\ counted (k_counts c) "NUMBER OF NODES" (Z.of_nat (length (k_x c)))
  /\ counted (k_counts c) "NUMBER OF 1st TETS" t1 /\ counted (k_counts c) "NUMBER OF 2nd TETS" t2.
Definition elements_counted (c : content) : Z := Z.of_nat (length (k_elements c)).
(* a result has a value for every element, or one for every node *)
Definition Sized {A} (c : content) (l : list A) : Prop := length l = length (k_elements c) \/ length l = length (k_x c).
Definition Consistent (c : content) : Prop :=
  HeadCounts c (if k_second c then 0%Z else elements_counted c) (if k_second c then elements_counted c else 0%Z)
  /\ counted (k_counts c) "NUMBER OF PARTICLES" (Z.of_nat (length (k_particles c)))
  /\ length (k_y c) = length (k_x c) /\ length (k_z c) = length (k_x c)
  /\ k_elements c <> [] /\ Forall (fun e => length e = nodes_each c) (k_elements c)
  /\ k_ids c <> [] /\ Sized c (k_ids c) /\ Sized c (k_density c) /\ Sized c (k_volume c)
  /\ NoDup (map edit_name (k_edits c))
  /\ Forall (fun t => (exists b, In b (t_blocks t) /\ b_errors b = false) /\ (exists b, In b (t_blocks t) /\ b_errors b = true)
                      /\ Forall (fun b => Sized c (b_values b)) (t_blocks t)) (k_edits c).
(* the material of an element is the name with the number of the element's material, counted from 1 *)
Definition material_of (c : content) (id : Z) : option str := if (1 <=? id)%Z then nth_error (k_materials c) (Z.to_nat (id - 1)) else None.
