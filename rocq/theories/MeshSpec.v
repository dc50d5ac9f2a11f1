(** What a meshtal file shows, independently of how it is read.  [V t e k j i] is the value and error
    of the voxel (i, j, k) in time bin t and energy bin e. *)
From Verif Require Import PyBase PyStr PyText DataModel MeshModel.
Open Scope nat_scope.

(** lines of a text described piece by piece *)
Definition Txt := list str -> Prop.
Definition Any (n : nat) : Txt := fun ls => length ls = n.                      (* n lines, whatever they say *)
Definition Then (P R : Txt) : Txt := fun ls => exists a b, ls = a ++ b /\ P a /\ R b.
(* n pieces, the i-th one described by P i *)
Definition Each (n : nat) (P : nat -> Txt) : Txt := fun ls =>
  exists ps, ls = concat ps /\ length ps = n /\ forall i p, nth_error ps i = Some p -> P i p.
Infix ">>" := Then (at level 60, right associativity).

(* the word w is a numeral for q *)
Definition numeral (w : str) (q : Q) : Prop := parse_float w = Ok q.
(* one line: a label and then n numbers *)
Definition Row (n : nat) (v : nat -> Q) : Txt := fun ls =>
  exists l lab ws, ls = [l] /\ split l = lab :: ws /\ length ws = n /\ forall c w, nth_error ws c = Some w -> numeral w (v c).
(* one line whose last two words are the value and the error *)
Definition Last2 (x : Q * Q) : Txt := fun ls =>
  exists l pre v e, ls = [l] /\ split l = pre ++ [v; e] /\ numeral v (fst x) /\ numeral e (snd x).
(* one line whose last four words are the value, the error, the volume of the voxel and value times volume *)
Definition Last4 (x : Q * Q) (vol prod : Q) : Txt := fun ls =>
  exists l pre v e w p, ls = [l] /\ split l = pre ++ [v; e; w; p] /\ numeral v (fst x) /\ numeral e (snd x)
                        /\ numeral w vol /\ numeral p prod.

(** a table of values and a table of errors, [nr] rows of [nc] columns *)
Definition Tables (nr nc : nat) (x : nat -> nat -> Q * Q) : Txt :=
  Any 2 >> Any 2 >> Each nr (fun r => Row nc (fun c => fst (x r c))) >> Any 1
        >> Any 2 >> Each nr (fun r => Row nc (fun c => snd (x r c))) >> Any 1.
(** the data part of a mesh in the block layouts: [x t e b r c] *)
Definition Blocks (nb nr nc : nat) (x : nat -> nat -> nat -> Q * Q) : Txt :=
  Each nb (fun b => Tables nr nc (x b) >> Any 1).
Definition BlockData (times : bool) (nt ne nb nr nc : nat) (x : nat -> nat -> nat -> nat -> nat -> Q * Q) : Txt :=
  Each ne (fun e =>
    if times then Any 3 >> Each nt (fun t => Any 2 >> Blocks nb nr nc (x t e) >> Any 1)
    else Any 2 >> Blocks nb nr nc (x 0 e) >> Any 1).
Definition ColData (nt ne nz ny nx : nat) (line : nat -> nat -> nat -> nat -> nat -> Txt) : Txt :=
  Any 1 >> Each ne (fun e => Each nt (fun t => Each nx (fun i => Each ny (fun j => Each nz (fun k => line t e k j i))))).

Definition line_at (n : nat) (f : file) (l : str) : Prop := nth_error f n = Some l.
Definition mentions (p : string) (l : str) : Prop := exists a b, l = a ++ s2l p ++ b.

(** The four layouts.  [times]: the mesh has explicit time bins (otherwise there is one) *)
Inductive Layout := LCol | LIJ | LIK | LJK.
Definition axis_name (cyl : bool) (l : Layout) : string :=
  match l, cyl with
  | LIJ, false => "Z bin" | LIJ, true => "Theta bin"
  | LIK, false => "Y bin" | LIK, true => "Z bin"
  | LJK, false => "X bin" | LJK, true => "R bin"
  | LCol, _ => "Result"
  end%string.
(* the layout announced by the first lines of the data *)
Definition announces (cyl times : bool) (L : Layout) (f : file) : Prop :=
  match L with
  | LCol => exists l, line_at 0 f l /\ mentions "Result" l
  | _ => exists l0 l, line_at 0 f l0 /\ ~ mentions "Result" l0 /\ ~ mentions "GEOMETRY" l0
                      /\ line_at (if times then 5 else 2) f l /\ mentions (axis_name cyl L) l
                      /\ forall L', L' <> LCol -> L' <> L -> ~ mentions (axis_name cyl L') l
  end.
Definition PrintedIn (L : Layout) (times : bool) (nt ne nz ny nx : nat) (V : nat -> nat -> nat -> nat -> nat -> Q * Q) : Txt :=
  match L with
  | LCol => ColData nt ne nz ny nx (fun t e k j i => Last2 (V t e k j i))
  | LIJ => BlockData times nt ne nz ny nx (fun t e k j i => V t e k j i)
  | LIK => BlockData times nt ne ny nz nx (fun t e j k i => V t e k j i)
  | LJK => BlockData times nt ne nx nz ny (fun t e i k j => V t e k j i)
  end.
(** the array holds V *)
Definition Holds (nt ne nz ny nx : nat) (V : nat -> nat -> nat -> nat -> nat -> Q * Q) (a : arr) : Prop :=
  forall t e k j i, t < nt -> e < ne -> k < nz -> j < ny -> i < nx -> a t e k j i = Some (V t e k j i).

(** ** A whole meshtal file *)
(* a line end among spaces (in a file it comes last) *)
Definition empty_line (l : str) : Prop := exists n m, l = repeat sp n ++ nl :: repeat sp m.
Definition starts_tally (l : str) : Prop := exists r, l = s2l " Mesh Tally Number" ++ r.
(* a line "label: numbers"; the label ends in the first colon *)
Definition BinLine (l lab : str) (qs : list Q) : Prop :=
  exists a txt, lab = a ++ [":"%char] /\ ~ In ":"%char a /\ l = lab ++ txt /\ Forall2 numeral (split txt) qs.
(* what the label of an energy or time line says *)
Definition tells (lab : str) (t : tag) : Prop :=
  match t with
  | Erg => mentions "Energy" lab
  | Dtme => mentions "Decay time" lab /\ ~ mentions "Energy" lab
  | Tme => mentions "Time" lab /\ ~ mentions "Energy" lab /\ ~ mentions "Decay time" lab
  | Nuc => mentions "Nuclide" lab /\ ~ mentions "Energy" lab /\ ~ mentions "Decay time" lab /\ ~ mentions "Time" lab
  | Cel => mentions "Cell" lab /\ ~ mentions "Energy" lab /\ ~ mentions "Decay time" lab /\ ~ mentions "Time" lab /\ ~ mentions "Nuclide" lab
  | Line => False
  end.
Definition ExtraLine (l : str) (t : tag) (qs : list Q) : Prop := exists lab, BinLine l lab qs /\ tells lab t.
(* the lines of the boundaries: an origin line for cylindrical meshes, the three axes, an optional
   "... number:" line, an optional time line, the energy line *)
Definition BoundsText {T} (trsf : str -> res (option T)) (b : bounds T) (ls : list str) : Prop :=
  exists org l1 l2 l3 num tim le a1 a2 a3 te qe,
    ls = org ++ [l1; l2; l3] ++ num ++ tim ++ [le]
    /\ (if bd_cyl b then exists l0, org = [l0] /\ mentions "origin at" l0 /\ trsf l0 = Ok (bd_trsf b)
        else org = [] /\ ~ mentions "origin at" l1 /\ bd_trsf b = None)
    /\ BinLine l1 a1 (bd_x1 b) /\ BinLine l2 a2 (bd_x2 b) /\ BinLine l3 a3 (bd_x3 b)
    /\ (num = [] /\ ~ mentions "number:" (hd le tim) \/ exists l, num = [l] /\ mentions "number:" l)
    /\ ExtraLine le te qe /\ bd_e b = mkBin qe te true
    /\ (tim = [] /\ bd_t b = mkBin [0%Q; inject_Z (10 ^ 20)] Tme false
        \/ exists lt tt qt, tim = [lt] /\ ExtraLine lt tt qt /\ bd_t b = mkBin qt tt true).

(* number of intervals of an axis given by its boundaries *)
Definition intervals (x : list Q) : nat := length x - 1.
(* number of bins: intervals or discrete values, and a total for more than one (decay times have none) *)
Definition bins_of (b : xbin) : nat :=
  let n := length (x_vals b) in
  match x_tag b with
  | Erg | Tme => if n =? 2 then 1 else n
  | Dtme => n
  | _ => if n =? 1 then 1 else S n
  end.

(** the part of a file about one tally *)
Record tally_text (T : Type) := mkTT {
  t_num : Z; t_comments : list str; t_part : str; t_more : list str;
  t_bounds : bounds T; t_btext : list str; t_layout : Layout; t_dtext : list str;
  t_values : nat -> nat -> nat -> nat -> nat -> Q * Q }.
Arguments mkTT {T}. Arguments t_num {T}. Arguments t_comments {T}. Arguments t_part {T}. Arguments t_more {T}.
Arguments t_bounds {T}. Arguments t_btext {T}. Arguments t_layout {T}. Arguments t_dtext {T}. Arguments t_values {T}.
Section Tallies.
  Context {T : Type} (trsf : str -> res (option T)).
  Definition ValuesOf (s : tally_text T) (P : nat -> nat -> nat -> nat -> nat -> Prop) : Prop :=
    let b := t_bounds s in
    P (bins_of (bd_t b)) (bins_of (bd_e b)) (intervals (bd_x3 b)) (intervals (bd_x2 b)) (intervals (bd_x1 b)).
  Definition TallyText (s : tally_text T) : Txt := fun ls =>
    exists m b1 tb b2,
      ls = [s2l " Mesh Tally Number" ++ repeat sp m ++ str_of_Z (t_num s) ++ [nl]]
           ++ t_comments s ++ [t_part s] ++ t_more s ++ [b1; tb] ++ t_btext s ++ [b2] ++ t_dtext s
      /\ m + length (str_of_Z (t_num s)) <= 12
      /\ Forall (fun l => ~ empty_line l /\ ~ mentions "mesh tally." l) (t_comments s)
      /\ ~ empty_line (t_part s) /\ mentions "mesh tally." (t_part s)
      /\ Forall (fun l => ~ empty_line l) (t_more s)
      /\ empty_line b1 /\ ~ empty_line tb /\ Forall (fun l => ~ empty_line l) (t_btext s) /\ empty_line b2
      /\ BoundsText trsf (t_bounds s) (t_btext s)
      /\ bd_x1 (t_bounds s) <> [] /\ bd_x2 (t_bounds s) <> [] /\ bd_x3 (t_bounds s) <> []
      /\ Forall (fun l => ~ starts_tally l) (t_dtext s)
      /\ exists d tail, t_dtext s = d ++ tail
           /\ announces (bd_cyl (t_bounds s)) (x_explicit (bd_t (t_bounds s))) (t_layout s) d
           /\ ValuesOf s (fun nt ne nz ny nx => PrintedIn (t_layout s) (x_explicit (bd_t (t_bounds s))) nt ne nz ny nx (t_values s) d).
  Definition FileText (ss : list (tally_text T)) : Txt := fun ls =>
    exists pre texts, ls = pre ++ concat texts /\ Forall (fun l => ~ starts_tally l) pre
      /\ Forall2 TallyText ss texts /\ NoDup (map t_num ss).
  (* the first name of the list that the particle line mentions *)
  Definition particle_names : list string := ["neutron"; "photon"; "electron"; "proton"; "deuteron"]%string.
  Definition names_particle (l : str) (p : str) : Prop :=
    (exists n a b, particle_names = a ++ n :: b /\ p = s2l n /\ mentions n l /\ Forall (fun x => ~ mentions x l) a)
    \/ p = [] /\ Forall (fun x => ~ mentions x l) particle_names.
  (** the mesh object says what the text says *)
  Definition MeshOf (s : tally_text T) (m : fmesh T) : Prop :=
    fm_tally m = str_of_Z (t_num s) /\ fm_bounds m = t_bounds s
    /\ names_particle (t_part s) (fm_particle m)
    /\ fm_comments m = match concat (t_comments s) with [] => None | c => Some c end
    /\ ValuesOf s (fun nt ne nz ny nx => Holds nt ne nz ny nx (t_values s) (fm_data m)).
End Tallies.
