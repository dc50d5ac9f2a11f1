(** What an xsdir file shows and what the look-ups should answer, independently of how it is read. *)
From Verif Require Import PyBase PyStr PyText MeshSpec OutSpec LibModel XsModel.
Open Scope nat_scope.

(* a whole number, with or without a sign *)
Definition IntText (w : str) (z : Z) : Prop := exists d, all_digits d
  /\ (w = d /\ z = Z.of_N (num_of d) \/ w = plus :: d /\ z = Z.of_N (num_of d) \/ w = minus :: d /\ z = (- Z.of_N (num_of d))%Z).
(* a word that may be missing *)
Definition Maybe {A} (P : str -> A -> Prop) (o : option str) (v : option A) : Prop :=
  match o, v with Some w, Some x => P w x | None, None => True | _, _ => False end.

(* the first line: the path of the data, or anything else *)
Definition FirstLine (dp : option str) (l : str) : Prop :=
  match dp with
  | None => forall w r, split l = w :: r -> ~ exists t, map lower w = s2l "datapath" ++ t
  | Some p => (exists w r t, split l = w :: r /\ map lower w = s2l "datapath" ++ t) /\ exists a b, l = a ++ "="%char :: b /\ ~ In "="%char a /\ p = strip b
  end.
Definition SecondLine (l : str) : Prop := exists a b c, split l = [a; b; c] /\ map lower a = s2l "atomic" /\ map lower b = s2l "weight" /\ map lower c = s2l "ratios".
Definition starts_directory (l : str) : Prop := exists r, split l = s2l "directory" :: r.
(* a line of weight ratios: zaids, each with its ratio *)
Definition PairLine (ps : list (str * str)) (l : str) : Prop :=
  split l = concat (map (fun p => [fst p; snd p]) ps) /\ ps <> [] /\ ~ starts_directory l.
(* the lines between the weight ratios and the directory: none, or some of which the first has an odd number of words *)
Definition Gap (ls : list str) : Prop := Forall (fun l => split l <> [] /\ ~ starts_directory l) ls
  /\ match ls with [] => True | l :: _ => Nat.odd (length (split l)) = true end.
(* an entry of the directory, continued on the next line after a final + *)
Inductive EntryText : list str -> list str -> Prop :=
| EntryLast : forall l ws w, split l = ws ++ [w] -> w <> s2l "+" -> EntryText (ws ++ [w]) [l]
| EntryMore : forall l a b ls, split l = a ++ [s2l "+"] -> EntryText b ls -> EntryText (a ++ b) (l :: ls).
Definition Entry (t : xtable) (ls : list str) : Prop := exists ws, EntryText ws ls
  /\ exists a f d n more, ws = x_name t :: a :: x_file t :: x_access t :: f :: d :: n :: more
     /\ numeral a (x_awr t) /\ IntText f (x_ftype t) /\ IntText d (x_addr t) /\ IntText n (x_len t)
     /\ Maybe IntText (nth_error more 0) (x_rec t) /\ Maybe IntText (nth_error more 1) (x_entries t) /\ Maybe numeral (nth_error more 2) (x_temp t)
     /\ (x_ptable t = true <-> nth_error more 3 = Some (s2l "ptable")).
(* the directory ends with the file or with a blank line *)
Definition End (ls : list str) : Prop := ls = [] \/ exists l r, ls = l :: r /\ split l = [].
Definition XsdirText (dp : option str) (ps : list (str * str)) (ts : list xtable) (lines : list str) : Prop :=
  exists l1 l2 als gap ld ess e pss, lines = l1 :: l2 :: als ++ gap ++ ld :: concat ess ++ e
  /\ FirstLine dp l1 /\ SecondLine l2 /\ Forall2 PairLine pss als /\ ps = concat pss /\ Gap gap /\ starts_directory ld
  /\ Forall2 Entry ts ess /\ End e.
(* the last value given to a key *)
Definition LastOf {V} (ps : list (str * V)) (k : str) (v : V) : Prop := exists a b, ps = a ++ (k, v) :: b /\ ~ In k (map fst b).

(* the members that satisfy P, in order *)
Inductive Selected {A} (P : A -> Prop) : list A -> list A -> Prop :=
| SelNil : Selected P [] []
| SelTake : forall x l r, P x -> Selected P l r -> Selected P (x :: l) (x :: r)
| SelSkip : forall x l r, ~ P x -> Selected P l r -> Selected P (x :: l) r.
(* a table for a zaid in a library *)
Definition Table (zaid lib : str) (t : xtable) : Prop := x_name t = zaid ++ dot :: lib.
(* libraries with a suffix of three characters, such as 31c *)
Definition short (t : xtable) : Prop := exists z s, Table z s t /\ length s = 3 /\ ~ In dot s.

(* a row of the configuration gives a path for a code *)
Definition Path (code : str) (r : crow) (p : str) : Prop := dget str_eqb code (c_paths r) = Some p.
Definition has_suffix (x : xsdir) (lib : str) : Prop := exists z, In (z, lib) x.

(* the lines of a Serpent file *)
Definition neutron (t : xtable) : Prop := exists a, x_name t = a ++ ["c"%char].
Definition SerpentLine (repr sci11 : Q -> str) (t : xtable) (l : str) : Prop := exists zaid lib q m, Table zaid lib t /\ all_digits zaid /\ x_temp t = Some q
  /\ metastable t = Ok (Some m)
  /\ l = x_name t ++ s2l " " ++ x_name t ++ s2l " 1 " ++ zaid ++ s2l " " ++ (if (m =? 0)%Z then s2l "0" else s2l "1") ++ s2l " " ++ repr (x_awr t) ++ s2l " "
         ++ sci11 (q / (86173423 # 1000000000000000000))%Q ++ s2l " " ++ str_of_Z (x_ftype t - 1) ++ s2l " " ++ x_file t.

(** a word that can be the name or the value of an attribute: no blanks, quotes or equal signs *)
Definition plain_word (s : str) : Prop := Forall (fun c => is_ws c = false /\ c <> "034"%char /\ c <> "="%char) s.
(** a line of a cross_sections.xml file *)
Definition attr_text (kv : str * str) : str := fst kv ++ s2l "=" ++ ["034"%char] ++ snd kv ++ ["034"%char; sp].
Definition library_line (attrs : list (str * str)) : str := s2l "  <library " ++ concat (map attr_text attrs) ++ s2l "/>" ++ [nl].
