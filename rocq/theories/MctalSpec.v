(** What an MCNP mctal file shows, and what its tables should say, independently of how it is read. *)
From Verif Require Import PyBase PyStr PyText DataModel MeshModel MeshSpec MctalModel.
Open Scope nat_scope.

(** ** The text of one tally *)
Definition integer (w : str) (z : Z) : Prop := parse_int w = Ok z.
(* no lines, or a line *)
Definition NoLine : Txt := fun ls => ls = [].
Definition OneLine (P : str -> Prop) : Txt := fun ls => exists l, ls = [l] /\ P l.
(* lines that start with a blank, whose words together are P *)
Definition DataLines (P : list str -> Prop) : Txt := fun ls =>
  Forall (fun l => exists r, l = sp :: r) ls /\ P (concat (map split ls)).
Definition Numbers (qs : list Q) : Txt := DataLines (fun ws => Forall2 numeral ws qs).
Definition CellNumbers (zs : list Z) : Txt := fun ls =>
  DataLines (fun ws => Forall2 integer ws zs) ls /\ Forall (fun l => ~ In dot l) ls.
(* a line that starts with the word w *)
Definition Starts (w : str) (more : list str) (l : str) : Prop := split l = w :: more /\ exists r, l = w ++ r.
(* the head line of an axis: its letter, with t (a total bin) or c (a cumulative one), the number of bins, a flag *)
Definition marked (letter : ascii) (tc : option tcflag) (w : str) : Prop :=
  map lower w = letter :: match tc with None => [] | Some Total => ["t"%char] | Some Cumulative => ["c"%char] end.
Definition AxisHead (letter : ascii) (a : axis) : Txt := OneLine (fun l => exists w n more, Starts w (n :: more) l
  /\ marked letter (a_tc a) w /\ integer n (a_n a)
  /\ match more with [] => a_flag a = 0%Z | [x] => integer x (a_flag a) | _ => False end).
Definition PlainHead (letter : ascii) (a : axis) : Txt := OneLine (fun l => exists w n more, Starts w (n :: more) l
  /\ marked letter (a_tc a) w /\ integer n (a_n a)) .
(* the list of particles (a line that starts with exactly one blank) may be missing *)
Definition ParticleLine (ps : list Z) : Txt := fun ls =>
  match ps with
  | [] => ls = []
  | _ => exists l c r, ls = [l] /\ l = sp :: c :: r /\ c <> sp
         /\ Forall2 (fun w z => integer w z /\ Forall (fun d => is_digit d = true) w) (split l) ps
  end.
(* a line of comment: five blanks, the text, the line end *)
Definition CommentLines (cs : list str) : Txt := fun ls =>
  Forall2 (fun l c => l = repeat sp 5 ++ c ++ [nl] /\ (c = [] \/ exists c' x, c = c' ++ [x] /\ is_ws x = false)) ls cs.

(* the words of one value and its error: a number, NaN, or something that cannot be read; in the last case
   both are taken as 0 *)
Definition nan_text (w : str) : Prop := exists s n, w = s ++ n /\ map lower n = s2l "nan" /\ In s [[]; [minus]; [plus]].
Definition shows (w : str) (x : fl) : Prop := match x with Some q => numeral w q | None => nan_text w end.
Definition unreadable (w : str) : Prop := (forall x, ~ shows w x) /\ hd sp w <> "t"%char.
Definition PairText (ab : str * str) (v : fl * fl) : Prop :=
  (shows (fst ab) (fst v) /\ shows (snd ab) (snd v))
  \/ ((unreadable (fst ab) \/ (unreadable (snd ab) /\ exists x, shows (fst ab) x)) /\ v = (Some 0, Some 0)%Q).
Definition PairLine (vs : list (fl * fl)) (l : str) : Prop :=
  exists ps, split l = flat_map (fun ab => [fst ab; snd ab]) ps /\ ps <> [] /\ Forall2 PairText ps vs.
(* the values and errors one after the other, any number of pairs on a line *)
Definition ValueLines (vs : list (fl * fl)) : Txt := fun ls => exists vss, Forall2 PairLine vss ls /\ concat vss = vs.

(* the fluctuation chart: histories, value, error, figure of merit *)
Definition ChartLine (l : str) (d : list fl) : Prop := exists n w1 w2 more z x e g,
  split l = n :: w1 :: w2 :: more /\ ~ mentions "tally" l
  /\ integer n z /\ ((shows w1 x) \/ (unreadable w1 /\ x = Some 0%Q)) /\ shows w2 e
  /\ match more with [] => d = [Some (inject_Z z); x; e] | [w] => shows w g /\ d = [Some (inject_Z z); x; e; g] | _ => False end.
Definition Chart (js : list Z) (ds : list (list fl)) : Txt :=
  OneLine (fun l => exists ws, split l = s2l "tfc" :: ws /\ Forall2 integer ws js /\ length js = 9)
  >> (fun ls => Forall2 ChartLine ls ds).

(* not more bins than announced *)
Definition fits (a : axis) : Prop := (Z.of_nat (length (a_bins a)) <= a_n a)%Z /\ (0 <= a_n a)%Z.
(** The lines of a tally after the line "tally ...": of an ordinary tally and of a mesh tally.  [t] is the
    tally with its values left out, [vs] the values and errors in the order of the file *)
(* the bins of the two axes of the picture of a radiography tally (segments and cosines): bounds, of which the last three are not kept *)
Definition PictureBins (t : tally) (a : axis) : Txt :=
  if t_radiograph t then fun ls => exists xs, Numbers xs ls /\ (Z.of_nat (length xs) <= a_n a + 2)%Z /\ a_bins a = firstn (length xs - 3) xs
  else Numbers (a_bins a).
Definition Middle (t : tally) : Txt :=
  OneLine (fun l => exists n more, Starts (s2l "d") (n :: more) l /\ integer n (t_nDir t))
  >> PlainHead "u" (t_usr t) >> Numbers (a_bins (t_usr t))
  >> PlainHead "s" (t_seg t) >> PictureBins t (t_seg t)
  >> PlainHead "m" (t_mul t)
  >> AxisHead "c" (t_cos t) >> PictureBins t (t_cos t)
  >> AxisHead "e" (t_erg t) >> Numbers (a_bins (t_erg t))
  >> AxisHead "t" (t_tim t) >> Numbers (a_bins (t_tim t))
  >> OneLine (fun l => map lower (strip l) = s2l "vals").
Definition is_detector (t : tally) : bool := (Z.abs (t_number t) mod 10 =? 5)%Z.
Definition OrdinaryText (t : tally) (V : Txt) : Txt :=   (* V: the lines of values *)
  ParticleLine (t_particles t) >> CommentLines (t_comment t)
  >> OneLine (fun l => exists n more, Starts (s2l "f") (n :: more) l /\ integer n (t_nCells t))
  >> (if is_detector t then NoLine else fun ls => exists zs, t_cells t = map inject_Z zs /\ CellNumbers zs ls)
  >> Middle t >> V >> Chart (t_jtf t) (t_dat t).
(* the bounds of the mesh along each axis; the last one of each is not kept *)
Definition MeshText (t : tally) (vs : list (fl * fl)) : Txt :=
  ParticleLine (t_particles t) >> CommentLines (t_comment t)
  >> OneLine (fun l => exists w1 w2 w3 w4 w5 more, Starts (s2l "f") (w1 :: w2 :: w3 :: w4 :: w5 :: more) l
       /\ let '(i, na, nb, nc) := t_meshInfo t in integer w2 i /\ integer w3 na /\ integer w4 nb /\ integer w5 nc)
  >> (fun ls => exists a b c, Numbers ((t_cora t ++ [a]) ++ (t_corb t ++ [b]) ++ (t_corc t ++ [c])) ls)
  >> Middle t >> (fun ls => ValueLines vs ls /\ Forall (fun l => ~ mentions "tally" l) ls)
  >> (fun ls => Forall (fun l => split l <> [] /\ ~ mentions "tally" l) ls).

(* the number of values *)
Fixpoint prod (ds : list nat) : nat := match ds with [] => 1 | d :: r => d * prod r end.
(* the fields that the text of the tally does not contain *)
Definition Plain (a : axis) : Prop := a_flag a = 0%Z.
Definition common (t : tally) : Prop :=
  t_vals t = [] /\ (0 <= t_nDir t)%Z /\ Plain (t_usr t) /\ Plain (t_seg t) /\ Plain (t_mul t)
  /\ fits (t_usr t) /\ fits (t_seg t) /\ fits (t_mul t) /\ fits (t_cos t) /\ fits (t_erg t) /\ fits (t_tim t)
  /\ a_bins (t_mul t) = [].
Definition OrdinaryAny (t : tally) (V : Txt) : Txt := fun ls =>   (* any number of values *)
  (0 <= t_detector t)%Z /\ t_radiograph t = (3 <=? t_detector t)%Z /\ t_mesh t = false /\ t_meshInfo t = (0, 1, 1, 1)%Z
  /\ t_cora t = [] /\ t_corb t = [] /\ t_corc t = []
  /\ (0 <= t_nCells t)%Z
  /\ (if is_detector t then t_cells t = map (fun k => inject_Z (Z.of_nat k)) (seq 1 (Z.to_nat (t_nCells t)))
      else (Z.of_nat (length (t_cells t)) <= t_nCells t)%Z)
  /\ common t /\ OrdinaryText t V ls.
Definition Ordinary (t : tally) (vs : list (fl * fl)) : Txt := fun ls => length vs = prod (shape t) /\ OrdinaryAny t (ValueLines vs) ls.
Definition Mesh (t : tally) (vs : list (fl * fl)) : Txt := fun ls =>
  (t_detector t <= -1)%Z /\ t_radiograph t = false /\ t_mesh t = true /\ t_nCells t = 1%Z
  /\ t_cells t = (if is_detector t then [1%Q] else []) /\ t_jtf t = [] /\ t_dat t = []
  /\ (let '(_, na, nb, nc) := t_meshInfo t in
      (0 < na)%Z /\ (0 < nb)%Z /\ (0 < nc)%Z /\ length (t_cora t) = Z.to_nat na /\ length (t_corb t) = Z.to_nat nb /\ length (t_corc t) = Z.to_nat nc)
  /\ common t /\ length vs = prod (shape t) /\ MeshText t vs ls.
Definition TallyText (t : tally) (vs : list (fl * fl)) : Txt := fun ls => Ordinary t vs ls \/ Mesh t vs ls.
Definition TallyLine (t : tally) : Txt := OneLine (fun l => exists a b c more,
  split l = s2l "tally" :: a :: b :: c :: more /\ integer a (t_number t) /\ integer b (t_type t) /\ integer c (t_detector t)).
(* tally after tally, up to the end of the file or a blank line *)
Fixpoint Tallies (ts : list (tally * list (fl * fl))) : Txt :=
  match ts with
  | [] => fun ls => match ls with [] => True | l :: _ => split l = [] end
  | (t, vs) :: r => TallyLine t >> TallyText t vs >> Tallies r
  end.
(* an ordinary tally with too few values, or with at least one line of values too many *)
Definition WrongCount (t : tally) : Txt := OrdinaryAny t (fun ls =>
  (exists vs, ValueLines vs ls /\ length vs < prod (shape t))
  \/ (exists vs more, (ValueLines vs >> ValueLines more) ls /\ length vs = prod (shape t) /\ more <> [])).
(* whole tallies, whatever follows *)
Fixpoint Series (ts : list (tally * list (fl * fl))) : Txt :=
  match ts with
  | [] => fun ls => ls = []
  | (t, vs) :: r => TallyLine t >> TallyText t vs >> Series r
  end.
(* the first lines of the file *)
Definition HeadText (h : header) : Txt :=
  OneLine (fun l => match h_id h, h_run h with
    | Some (k, v, d, hr), Some (a, b, c) => exists x y z, split l = [k; v; d; hr; x; y; z] /\ integer x a /\ integer y b /\ integer z c
    | None, Some (a, b, c) => exists x y z, split l = [x; y; z] /\ integer x a /\ integer y b /\ integer z c
    | _, _ => False
    end)
  >> OneLine (fun l => h_title h = strip l)
  >> OneLine (fun l => exists w n more, split l = w :: n :: more /\ integer n (h_ntal h) /\ h_ntal h <> 0%Z /\ length more <> 2)
  >> (fun ls => Forall (fun l => split l <> []) ls /\ Forall2 integer (concat (map split ls)) (h_ntals h)).
Definition MctalText (h : header) (ts : list (tally * list (fl * fl))) : Txt := HeadText h >> Tallies ts.

(** ** The values of a tally: the place of a bin in the file when cell, direct/total, user, segment, multiplier,
    cosine, energy, time, c, b and a bins are nested in this order, the last one running fastest *)
Fixpoint place (dims idx : list nat) : nat :=
  match dims, idx with
  | _ :: ds, i :: is => i * prod ds + place ds is
  | _, _ => 0
  end.
Definition in_shape (dims idx : list nat) : Prop := Forall2 (fun i d => i < d) idx dims.
Definition without_values (t : tally) : tally :=
  mkTally (t_number t) (t_type t) (t_detector t) (t_radiograph t) (t_mesh t) (t_particles t) (t_comment t)
    (t_nCells t) (t_meshInfo t) (t_cells t) (t_cora t) (t_corb t) (t_corc t) (t_nDir t) (t_usr t) (t_seg t) (t_mul t)
    (t_cos t) (t_erg t) (t_tim t) [] (t_jtf t) (t_dat t).
Definition Reads (t : tally) (vs : list (fl * fl)) (t' : tally) : Prop :=
  without_values t' = t
  /\ forall idx, in_shape (shape t) idx -> exists v, nth_error vs (place (shape t) idx) = Some v /\ get_value t' idx = Ok v.

(** ** The tables *)
(* equal entries: numbers by value *)
Definition same (a b : dval) : Prop :=
  match a, b with
  | VQ x, VQ y => (x == y)%Q
  | VS x, VS y => x = y
  | VNaN, VNaN => True
  | _, _ => False
  end.
(* the name of a cell: its number, or "Input n" for the n-th one when the number is 0 *)
Definition cell_name (t : tally) (f : nat) : dval :=
  match nth_error (t_cells t) f with
  | None => VNaN
  | Some q => if (qtrunc q =? 0)%Z then VS (s2l "Input " ++ str_of_N (N.of_nat (S f))) else VQ (inject_Z (qtrunc q))
  end.
(* the i-th bin of an axis; an axis without bins has no name for it *)
Definition bin (bins : list Q) (i : nat) : dval := match nth_error bins i with Some q => VQ q | None => VNaN end.
Definition counted (n : Z) (i : nat) : dval := if (n <=? 0)%Z then VNaN else vnat i.
(* the bins of the combination d, u, s, m, c, e, t, k, j, i of the cell f *)
Definition bins_of (t : tally) (f : nat) (idx : list nat) : list (string * dval) :=
  match idx with
  | [d; u; s; m; c; e; tm; k; j; i] =>
      [("Cells", cell_name t f); ("Dir", counted (t_nDir t) d); ("User", bin (a_bins (t_usr t)) u); ("Segments", vnat (S s));
       ("Multiplier", counted (a_n (t_mul t)) m); ("Cosine", bin (a_bins (t_cos t)) c); ("Energy", bin (a_bins (t_erg t)) e);
       ("Time", bin (a_bins (t_tim t)) tm); ("Cor A", bin (t_cora t) i); ("Cor B", bin (t_corb t) j); ("Cor C", bin (t_corc t) k)]%string
  | _ => []
  end.
(* the number of bins of each axis; the total bin of the segments does not count *)
Definition size {A} (l : list A) : nat := Nat.max 1 (length l).
Definition sizes (t : tally) : list nat :=
  [Nat.max 1 (Z.to_nat (t_nDir t)); size (a_bins (t_usr t));
   Z.to_nat (Z.max 1 (a_n (t_seg t)) - match a_tc (t_seg t) with Some Total => 1 | _ => 0 end); Nat.max 1 (Z.to_nat (a_n (t_mul t)));
   size (a_bins (t_cos t)); size (a_bins (t_erg t)); size (a_bins (t_tim t)); size (t_corc t); size (t_corb t); size (t_cora t)].
Definition Comb (t : tally) (f : nat) (idx : list nat) : Prop := f < size (t_cells t) /\ in_shape (sizes t) idx.
(* where a tally has its total: the first of these axes with a total or cumulative bin *)
Definition total_name (t : tally) : option string :=
  if a_tc (t_tim t) then Some "Time"%string else if a_tc (t_erg t) then Some "Energy"%string else if a_tc (t_seg t) then Some "Segments"%string
  else if a_tc (t_cos t) then Some "Cosine"%string else if a_tc (t_usr t) then Some "User"%string else if a_tc (t_mul t) then Some "Multiplier"%string else None.
Definition last_bin (t : tally) (f : nat) : list nat := f :: map pred (tl (shape t)).
(* row r of a table with columns cols shows x in every column of that name *)
Definition Shows (cols : list string) (r : list dval) (n : string) (x : dval) : Prop :=
  forall p, nth_error cols p = Some n -> exists y, nth_error r p = Some y /\ same y x.
(* a tally as the reader gives it: at least one segment besides the total, a value for every bin *)
Definition Filled (t : tally) : Prop :=
  (0 <= t_nCells t /\ 0 <= t_nDir t /\ 0 <= a_n (t_seg t) /\ 0 <= a_n (t_mul t))%Z /\ 0 < nth 2 (sizes t) 0
  /\ (forall f idx, Comb t f idx -> in_shape (shape t) (f :: idx))
  /\ (forall idx, in_shape (shape t) idx -> exists v, get_value t idx = Ok v).
(* all of them are numbers *)
Definition Finite (t : tally) : Prop :=
  forall idx x, in_shape (shape t) idx -> get_value t idx = Ok x -> exists v e, x = (Some v, Some e).
(* a row shows the bins of a combination, its value and its error *)
Definition plain_column (n : string) : Prop := n <> "Cor A"%string /\ n <> "Cor C"%string.
Definition ShowsBin (t : tally) (D : df) (r : list dval) (f : nat) (idx : list nat) (v e : Q) : Prop :=
  (forall n x, In (n, x) (bins_of t f idx) -> plain_column n -> Shows (d_cols D) r n x)
  /\ Shows (d_cols D) r "Value" (VQ v) /\ Shows (d_cols D) r "Error" (VQ e).
(* the total row of a cell *)
Definition ShowsTotal (t : tally) (D : df) (r : list dval) (f : nat) (axis : string) (v e : Q) : Prop :=
  Shows (d_cols D) r "Cells" (cell_name t f) /\ Shows (d_cols D) r axis (VS (s2l "total"))
  /\ Shows (d_cols D) r "Value" (VQ v) /\ Shows (d_cols D) r "Error" (VQ e).
(* the last total among some tallies *)
Definition last_total (ts : list tally) : option string :=
  fold_left (fun a t => match total_name t with Some n => Some n | None => a end) ts None.
(* the bins the summary of the errors is about: every combination, and the total of each cell when there is one *)
Definition Counted (t : tally) (b : list nat) : Prop :=
  (exists f idx, b = f :: idx /\ Comb t f idx) \/ (exists f, b = last_bin t f /\ f < size (t_cells t) /\ total_name t <> None).
(* an error of 0 beside a value of 0 is not reported *)
Definition reported (e v : Q) : fl := if Qeq_bool e 0 && Qeq_bool v 0 then None else Some e.
