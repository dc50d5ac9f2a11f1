(** Model of src/f4enix/input/elite.py (class Elite_Input) and of the E-Lite tables of
    src/f4enix/constants.py 137-170.

    Numbers are exact rationals.  [sind], [cosd] stand for math.sin/cos of math.radians of an angle in degrees and
    [norm] for np.linalg.norm.  The Excel file and numjuggler are outside /repo: the former is the list of its
    (sector, cell) rows; of a surface card the fields used here are kept. *)
From Coq Require Import QArith.
From Verif Require Import PyBase PyStr PyText LibModel MatModel InpModel.
Open Scope nat_scope.

(** The keys of the E-Lite tables: numbers and the text "2 & 3" *)
Inductive sector := SNum (z : Z) | STxt (s : str).
Definition sector_eqb (a b : sector) : bool :=
  match a, b with
  | SNum x, SNum y => (x =? y)%Z
  | STxt x, STxt y => str_eqb x y
  | _, _ => false
  end.
Definition s23 : sector := STxt (s2l "2 & 3").
(** constants.py 138-147 SECTOR_BOUNDARIES *)
Definition sector_boundaries : list (sector * (Z * Z)) :=
  [(SNum 1, (427024, 427016)); (s23, (-437544, 437543)); (SNum 4, (451024, 451016)); (SNum 5, (459024, 459016));
   (SNum 6, (467024, 467016)); (SNum 7, (475024, 475016)); (SNum 8, (483024, 483016)); (SNum 9, (491024, 491016))]%Z.
(** constants.py 149-158 SECTOR_BOUNDARIES_ANGLES *)
Definition sector_angles : list (sector * (Z * Z)) :=
  [(SNum 1, (10, 50)); (s23, (50, 130)); (SNum 4, (130, 170)); (SNum 5, (170, -150));
   (SNum 6, (-150, -110)); (SNum 7, (-110, -70)); (SNum 8, (-70, -30)); (SNum 9, (-30, 10))]%Z.
(** constants.py 160-169 PLASMA_CELLS *)
Definition plasma_cells : list (sector * Z) :=
  [(SNum 1, 427001); (s23, 435001); (SNum 4, 451001); (SNum 5, 459001); (SNum 6, 467001); (SNum 7, 475001); (SNum 8, 483001); (SNum 9, 491001)]%Z.
(** constants.py 171 SECTOR_NAMES *)
Definition sector_names : list sector := [SNum 1; s23; SNum 4; SNum 5; SNum 6; SNum 7; SNum 8; SNum 9]%Z.

Definition lookup {A} (d : list (sector * A)) (s : sector) : res A := of_opt KeyError (dget sector_eqb s d).

(** 49-70 _initialize_elite, after the check: the cells of each sector of the table *)
Definition sectors_cells (rows : list (sector * Z)) : list (sector * list Z) :=
  map (fun sec => (sec, map snd (filter (fun r => sector_eqb (fst r) sec) rows))) sector_names.
(** 131-149 the cells that are asked from the extraction: those of the sectors and the outer and graveyard cells *)
Definition requested (rows : list (sector * Z)) (sectors : list sector) : res (list Z) :=
  do ls <- mapM (lookup (sectors_cells rows)) sectors; Ok (concat ls ++ [800; 801]%Z).

(** 205-215 _set_sdef: the new lines of cards SI70 and SP70 *)
Definition source_lines (sectors : list sector) : res (str * str) :=
  do cs <- mapM (lookup plasma_cells) sectors;
  Ok (s2l "SI70 L " ++ concat (map (fun z => str_of_Z z ++ [sp]) cs),
      s2l "SP70 " ++ concat (map (fun s => if sector_eqb s s23 then s2l "2 " else s2l "1 ") sectors)).
(** 205-218 _set_sdef; [d]: the lines of every data card *)
Definition set_sdef (sectors : list sector) (d : list (str * list str)) : res (list (str * list str)) :=
  do '(si, spp) <- source_lines sectors;
  do _ <- of_opt KeyError (dget str_eqb (s2l "SI70") d);
  let d1 := dset str_eqb (s2l "SI70") [si] d in
  do _ <- of_opt KeyError (dget str_eqb (s2l "SP70") d1);
  Ok (dset str_eqb (s2l "SP70") [spp] d1).

(** 281-296 _get_boundaries_angles *)
Fixpoint boundaries_angles_aux (first : bool) (sectors : list sector) : res (list Z) :=
  match sectors with
  | [] => Ok []
  | s :: rest =>
      do '(a, b) <- lookup sector_angles s;
      do r <- boundaries_angles_aux false rest;
      Ok ((if first then [a] else []) ++ (match rest with [] => [b] | _ => [] end) ++ r)
  end.
Definition boundaries_angles (sectors : list sector) : res (list Z) := boundaries_angles_aux true sectors.

(** 298-328 _modify_graveyard: the table is read for the first and for the last sector only; the pair (new outer
    cell, new graveyard) *)
Fixpoint modify_graveyard_aux (cur : option (card * card)) (k : nat) (graveyard outer : card) (sectors : list sector) : res (card * card) :=
  match sectors with
  | [] => match cur with Some (gy, out) => Ok (out, gy) | None => Err UnboundLocalError end
  | s :: rest =>
      do cur1 <- (match k with
                  | O => do b <- lookup sector_boundaries s;
                         do gy <- add_surface (- fst b) None Union graveyard;
                         do out <- add_surface (fst b) None Intersect outer;
                         Ok (Some (gy, out))
                  | _ => Ok cur
                  end);
      do cur2 <- (match rest, cur1 with
                  | [], Some (gy, out) => do b <- lookup sector_boundaries s;
                         do gy' <- add_surface (- snd b) None Union gy;
                         do out' <- add_surface (snd b) None Intersect out;
                         Ok (Some (gy', out'))
                  | [], None => Err UnboundLocalError
                  | _, _ => Ok cur1
                  end);
      modify_graveyard_aux cur2 (S k) graveyard outer rest
  end.
Definition modify_graveyard (sectors : list sector) (graveyard outer : card) : res (card * card) :=
  modify_graveyard_aux None 0 graveyard outer sectors.

(** Of a surface card: values[0][0], stype, scoefs, the number of its transformation, the lines and the printed text.
    get_input() makes the printed text again from the lines. *)
Record surf := mkSurf { s_num : Z; s_type : str; s_coefs : list Q; s_tr : option Z; s_lines : list str; s_text : list str }.
(** Of a transformation card: whether it is starred (angles in degrees) and its numbers, the first being its own *)
Record trans := mkTrans { t_star : bool; t_values : list Q }.

Definition vec3 := (Q * Q * Q)%type.
Definition coef (l : list Q) (i : nat) : res Q := of_opt IndexError (nth_error l i).

(** 353-364 _check_tol *)
Definition check_tol (tol : Q) (l : list (Q * Q)) : bool :=
  forallb (fun ab => Qle_bool (snd ab - tol) (fst ab) && Qle_bool (fst ab) (snd ab + tol)) l.
Definition pairs (a b : vec3) : list (Q * Q) :=
  let '(a1, a2, a3) := a in let '(b1, b2, b3) := b in [(a1, b1); (a2, b2); (a3, b3)].

Section Trig.
  Variable sind cosd : Z -> Q.          (* math.sin(math.radians(angle)), math.cos(...) of a number of degrees *)
  Variable cosq : Q -> Q.               (* math.cos(math.radians(v)) of an entry of a transformation *)
  Variable norm : vec3 -> Q.

  (** 333-351 _rotate_plane; numpy's inverse of a singular matrix raises LinAlgError *)
  Definition rotate_plane (t : trans) (p : vec3) : res vec3 :=
    let cs := if t_star t then map cosq (t_values t) else t_values t in
    do a <- coef cs 4; do b <- coef cs 5; do c <- coef cs 6;
    do d <- coef cs 7; do e <- coef cs 8; do f <- coef cs 9;
    do g <- coef cs 10; do h <- coef cs 11; do i <- coef cs 12;
    let det := (a * (e * i - f * h) - b * (d * i - f * g) + c * (d * h - e * g))%Q in
    if Qeq_bool det 0 then Err OtherError
    else let '(x, y, z) := p in
      Ok (((e * i - f * h) * x + (c * h - b * i) * y + (b * f - c * e) * z) / det,
          ((f * g - d * i) * x + (a * i - c * g) * y + (c * d - a * f) * z) / det,
          ((d * h - e * g) * x + (b * g - a * h) * y + (a * e - b * d) * z) / det)%Q.

  (** 224-231 the angles that are looked at: each boundary and its opposite *)
  Definition opposite (a : Z) : Z := if (180 <? a)%Z then (a - 180)%Z else (a + 180)%Z.
  Definition boundary_angles (l : list Z) : list Z := concat (map (fun a => [a; opposite a]) l).
  (** 234-236 *)
  Definition normal_of (a : Z) : vec3 := ((- sind a)%Q, cosd a, 0%Q).

  (** 246-258 normal and position of a plane; None: no plane *)
  Definition plane_of (s : surf) : res (option (vec3 * Q)) :=
    if str_eqb (s_type s) (s2l "p") then
      match firstn 3 (s_coefs s) with
      | [a; b; c] => do d <- coef (s_coefs s) 3; Ok (Some ((a, b, c), d))
      | _ => Err IndexError
      end
    else if str_eqb (s_type s) (s2l "px") then do d <- coef (s_coefs s) 0; Ok (Some ((1, 0, 0)%Q, d))
    else if str_eqb (s_type s) (s2l "py") then do d <- coef (s_coefs s) 0; Ok (Some ((0, 1, 0)%Q, d))
    else if str_eqb (s_type s) (s2l "pz") then do d <- coef (s_coefs s) 0; Ok (Some ((0, 0, 1)%Q, d))
    else Ok None.
  (** 259 the normal divided by its length; None: a division by zero, which gives NaN *)
  Definition unit (p : vec3) : option vec3 :=
    let '(a, b, c) := p in let n := norm p in
    if Qeq_bool n 0 then None else Some ((a / n)%Q, (b / n)%Q, (c / n)%Q).

  (** 260-279 whether the plane is the boundary at an angle *)
  Definition is_boundary (tol : Q) (ts : list (str * trans)) (a : Z) (s : surf) : res bool :=
    do pl <- plane_of s;
    match pl with
    | None => Ok false
    | Some (p, d) =>
        if check_tol tol [(d, 0%Q)] then
          let hit v := match v with None => false | Some v => check_tol tol (pairs v (normal_of a)) end in
          match s_tr s with
          | None => Ok (hit (unit p))
          | Some n =>
              do t <- of_opt KeyError (dget str_eqb (s2l "TR" ++ str_of_Z n) ts);
              if length (t_values t) <? 12 then Ok false
              else match unit p with
                   | None => do _ <- rotate_plane t p; Ok false
                   | Some u => do v <- rotate_plane t u; Ok (hit (Some v))
                   end
          end
        else Ok false
    end.

  (** "{:.8f}" *)
  Definition fmt_f8_pos (q : Q) : str :=
    let n := Z.to_N (qround_even (q * inject_Z 100000000)) in str_of_N (n / 100000000) ++ dot :: ndig 8 (n mod 100000000).
  Definition fmt_f8 (q : Q) : str := if Qle_bool 0 q then fmt_f8_pos q else minus :: fmt_f8_pos (- q)%Q.

  Definition sgn (b : bool) : Q := if b then 1%Q else (-1)%Q.
  (** 386 not (90 < angle < 270 or -270 < angle < -90) *)
  Definition quadrant (a : Z) : bool := negb (((90 <? a) && (a <? 270) || (-270 <? a) && (a <? -90))%Z).
  Fixpoint join (ws : list str) : str := match ws with [] => [] | [w] => w | w :: ws' => w ++ sp :: join ws' end.
  Definition rstrip_nl (l : str) : str := (fix go r := match r with c :: r' => if Ascii.eqb c nl then go r' else rev r | [] => [] end) (rev l).
  Definition not_comment (l : str) : bool := match l with c :: _ => negb (is_c c) | [] => true end.
  (** 375-393 the translated plane *)
  Definition translate (a : Z) (l : nat) (tol : Q) (s : surf) : res surf :=
    let ws := split (join (map rstrip_nl (filter not_comment (s_lines s)))) in
    do y <- coef (s_coefs s) 1;
    let sign := (sgn (1 <? l) * sgn (quadrant a) * sgn (negb (Qle_bool y 0)))%Q in
    do w <- of_opt IndexError (hd_error (rev ws));
    do d <- parse_float w;
    let line := join (removelast ws ++ [fmt_f8 (d + sign * 2 * tol)%Q]) ++ [nl] in
    Ok (mkSurf (s_num s) (s_type s) (s_coefs s) (s_tr s) [line] [line]).
  (** 366-374 _modify_boundary *)
  Definition modify_boundary (l0 : bool) (a : Z) (l : nat) (tol : Q) (s : surf) : res surf :=
    if l0 then match s_text s with
               | [] => Err IndexError
               | t :: r => Ok (mkSurf (s_num s) (s_type s) (s_coefs s) (s_tr s) (s_lines s) (("*"%char :: t) :: r))
               end
    else translate a l tol s.
  (** 238-279 what a round of the loop does to one surface *)
  Definition visit (tol : Q) (l0 : list Z) (ts : list (str * trans)) (la : nat * Z) (s : surf) : res surf :=
    do b <- is_boundary tol ts (snd la) s;
    if b then modify_boundary (zmem (s_num s) l0) (snd la) (fst la) tol s else Ok s.
  (** 221-279 _set_boundaries: for each angle all the surfaces *)
  Fixpoint enumerate {A} (k : nat) (l : list A) : list (nat * A) := match l with [] => [] | x :: r => (k, x) :: enumerate (S k) r end.
  Definition set_boundaries (angles : list Z) (tol : Q) (l0 : list Z) (ts : list (str * trans)) (ss : list surf) : res (list surf) :=
    foldM (fun ss la => mapM (visit tol l0 ts la) ss) ss (enumerate 0 (boundary_angles angles)).
End Trig.
