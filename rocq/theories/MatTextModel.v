(** Model of the reading and writing of material cards: src/f4enix/input/materials.py, from_text and
    to_text of Zaid, SubMaterial, Material and MatCardsList.  Text is ASCII; the texts of the in-line
    information (formula, weight and abundance) are given, as their values are not part of a card; float("nan"),
    float("inf") and underscores in numbers are errors here; the density of OpenMC materials is not modelled. *)
From Verif Require Import PyBase PyStr PyText PySci LibModel MatModel.
Open Scope nat_scope.

(** constants.py 45 PAT_MAT = [\s\t]*[mM]\d+ at the start of a line: the text matched and what follows *)
Fixpoint span_ws (s : str) : str * str :=
  match s with
  | c :: s' => if is_ws c then let (a, b) := span_ws s' in (c :: a, b) else ([], s)
  | [] => ([], [])
  end.
Definition pat_mat (s : str) : option (str * str) :=
  let (w, r) := span_ws s in
  match r with
  | c :: r' => if Ascii.eqb (lower c) "m"%char
               then match span_digits r' with ([], _) => None | (ds, t) => Some (w ++ c :: ds, t) end
               else None
  | [] => None
  end.

(** materials.py 765-804 _readLine: nuclides and keywords of a line *)
Definition dollar (w : str) : bool := match w with c :: _ => Ascii.eqb c "$"%char | [] => false end.
Fixpoint kill_comment (ws : list str) : list str :=
  match ws with w :: r => if dollar w then [] else w :: kill_comment r | [] => [] end.
(** 780-803: a word that does not start with a digit ends the nuclides; a last word without a partner is left
    out (IndexError caught) *)
Definition digit_first (w : str) : bool := match w with c :: _ => is_digit c | [] => false end.
Fixpoint read_pieces (ws : list str) : res (list zaid * list str) :=
  match ws with
  | [] => Ok ([], [])
  | w :: r =>
      if digit_first w
      then match r with
           | [] => Ok ([], [])
           | f :: r' => do q <- parse_float f;
                        do '(zs, ks) <- read_pieces r';
                        Ok (zaid_of_name w q :: zs, ks)
           end
      else Ok ([], w :: r)
  end.
Definition drop_first_empty (ws : list str) : list str := match ws with [] :: r => r | _ => ws end.
Definition read_line (s : str) : res (list zaid * list str) :=
  let ws := drop_first_empty (resplit s) in
  match rev ws with
  | [] => Err IndexError
  | [] :: r => read_pieces (kill_comment (rev r))
  | _ => read_pieces (kill_comment ws)
  end.

(** materials.py 403-475 SubMaterial.from_text (the elements are those of collapse) *)
Record rsub := mkR { r_name : option str; r_zaids : list zaid; r_header : str; r_keys : list str }.
Fixpoint span_comments (ls : list str) : list str * list str :=
  match ls with
  | l :: r => if pat_comment l then let (a, b) := span_comments r in (l :: a, b) else ([], ls)
  | [] => ([], [])
  end.
Definition first_line (l : str) : res (list zaid * list str) :=
  match resplit l with
  | _ :: [] :: _ => Ok ([], [])
  | _ :: _ :: _ => read_line (match pat_mat l with Some (_, r) => r | None => l end)
  | _ => Ok ([], [])
  end.
Definition sub_from_text (text : list str) : res rsub :=
  let (h, rest) := span_comments text in
  match rest with
  | [] => Err UnboundLocalError
  | l :: ls =>
      do p <- first_line l;
      do ps <- mapM read_line ls;
      Ok (mkR (match pat_mat l with Some (n, _) => Some (strip n) | None => None end)
              (concat (map fst (p :: ps))) (removelast (concat h)) (concat (map snd (p :: ps))))
  end.

(** materials.py 925-976 Material.from_text and 843-870 __init__ *)
Record rmat := mkRM { rm_name : str; rm_header : str; rm_subs : list rsub }.
Record mstate := mkMS { ms_in : bool; ms_text : list str; ms_subs : list rsub; ms_header : option str }.
Definition mstep (st : mstate) (line : str) : res mstate :=
  let comment := pat_comment line in
  let st := match pat_mat line with Some _ => mkMS (ms_in st) [] (ms_subs st) (Some (concat (ms_text st))) | None => st end in
  if ms_in st then Ok (mkMS comment (ms_text st ++ [line]) (ms_subs st) (ms_header st))
  else if comment then do s <- sub_from_text (ms_text st); Ok (mkMS true [line] (ms_subs st ++ [s]) (ms_header st))
  else Ok (mkMS false (ms_text st ++ [line]) (ms_subs st) (ms_header st)).
Definition cr : ascii := "013"%char.
Definition no_cr (s : str) : str := filter (fun c => negb (Ascii.eqb c cr)) s.
Definition mat_from_text (text : list str) : res rmat :=
  do st <- foldM mstep (mkMS true [] [] None) (map no_cr text);
  do s <- sub_from_text (ms_text st);
  match ms_subs st ++ [s], ms_header st with
  | _, None => Err UnboundLocalError
  | s0 :: rest, Some h =>
      match r_name s0 with
      | None => Err AttributeError
      | Some n => Ok (mkRM (strip n) h (match r_zaids s0 with [] => rest | _ => s0 :: rest end))
      end
  | [], _ => Err IndexError
  end.

(** materials.py 169-199 Zaid.to_text: "{0:>15} {1:>18} {2:<12} {3:<10} {4:<10}" *)
Record info := mkinfo { i_fullname : str; i_weight : str; i_abundance : str }.
Definition ljust (w : nat) (s : str) : str := s ++ repeat sp (w - length s).
Definition zaid_to_text (z : zaid) (i : info) : str :=
  rjust 15 (z_name z) ++ sp :: rjust 18 (fmt_sci Short "E"%char 6 (z_frac z)) ++ sp :: ljust 12 (s2l "    $ " ++ i_fullname i) ++
  sp :: ljust 10 (s2l "WEIGHT(%) " ++ i_weight i) ++ sp :: ljust 10 (s2l "AB(%) " ++ i_abundance i).
(** s.strip("\n") *)
Fixpoint lstrip_nl (s : str) : str := match s with c :: s' => if Ascii.eqb c nl then lstrip_nl s' else s | [] => [] end.
Definition strip_nl (s : str) : str := rev (lstrip_nl (rev (lstrip_nl s))).
(** materials.py 499-529 SubMaterial.to_text *)
Record wsub := mkW { w_header : option str; w_elems : list (list (zaid * info)); w_keys : list str }.
Definition sub_to_text (s : wsub) : str :=
  strip_nl ((match w_header s with Some h => h ++ [nl] | None => [] end) ++
    concat (map (fun zi => zaid_to_text (fst zi) (snd zi) ++ [nl]) (concat (w_elems s))) ++
    match w_keys s with [] => [] | ks => "009"%char :: concat (map (fun k => sp :: k) ks) end).
(** materials.py 978-1016 Material.to_text *)
Record wmat := mkWM { wm_name : str; wm_header : option str; wm_subs : list wsub; wm_mx : list (list str) }.
Definition mat_to_text (m : wmat) : str :=
  strip_nl ((match wm_header m with Some h => strip_nl h ++ nl :: strip_nl (upper (wm_name m)) | None => upper (wm_name m) end) ++
    concat (map (fun s => nl :: sub_to_text s) (wm_subs m)) ++
    concat (map (fun l => nl :: upper (strip_nl l)) (concat (wm_mx m)))).
(** materials.py 1538-1552 MatCardsList.to_text *)
Definition list_to_text (ms : list wmat) : str := strip_nl (concat (map (fun m => nl :: mat_to_text m) ms)).
(** a material as read, to be written again: no in-line information (185-193: the empty abundance and the
    missing weight give empty texts) *)
Definition no_info : info := mkinfo [] [] [].
Definition rewritten (m : rmat) : wmat :=
  mkWM (rm_name m) (Some (rm_header m))
    (map (fun s => mkW (Some (r_header s)) (map (map (fun z => (z, no_info))) (collapse (r_zaids s))) (r_keys s)) (rm_subs m)) [].
