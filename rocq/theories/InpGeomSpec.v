(** C33: the region a cell card denotes, read from its text. *)
From Verif Require Import PyBase PyStr PyText LibModel MatModel InpModel.
Open Scope nat_scope.

(** ** from the text to the words of the geometry *)
Definition words (ls : list str) : list str := concat (map split ls).
Definition has_letter (w : str) : bool := existsb is_alpha w.
Fixpoint before_keywords (ws : list str) : list str :=
  match ws with
  | [] => []
  | w :: ws' => if has_letter w then [] else w :: before_keywords ws'
  end.
(** number, material, density (unless the material is 0), geometry, keywords *)
Definition geometry_words (ws : list str) : list str :=
  match ws with
  | _ :: mat :: rest => before_keywords (match parse_int mat with Ok 0%Z => rest | _ => tl rest end)
  | _ => []
  end.

(** ** tokens *)
Inductive token := TNum (neg : bool) (id : str) | TLP | TRP | TColon | THash | TBad.
Definition num_char (c : ascii) : bool := is_digit c || Ascii.eqb c "." || Ascii.eqb c "-" || Ascii.eqb c "+".
Definition number (w : str) : token :=
  let (neg, id) := match w with
                   | c :: id => if Ascii.eqb c "-" then (true, id) else if Ascii.eqb c "+" then (false, id) else (false, w)
                   | [] => (false, [])
                   end in
  match id with
  | [] => TBad
  | _ => if existsb (fun c => Ascii.eqb c "-" || Ascii.eqb c "+") id then TBad else TNum neg id
  end.
Definition symbol (c : ascii) : token :=
  if Ascii.eqb c "(" then TLP else if Ascii.eqb c ")" then TRP else if Ascii.eqb c ":" then TColon
  else if Ascii.eqb c "#" then THash else TBad.
Definition flush (cur : str) : list token := match cur with [] => [] | _ => [number (rev cur)] end.
Fixpoint lex_aux (cur : str) (s : str) : list token :=
  match s with
  | [] => flush cur
  | c :: s' => if num_char c then lex_aux (c :: cur) s' else flush cur ++ symbol c :: lex_aux [] s'
  end.
Definition lex (w : str) : list token := lex_aux [] w.
Definition tokens (ws : list str) : list token := concat (map lex ws).

(** ** regions *)
Inductive geom := GSurf (neg : bool) (id : str) | GCell (id : str) | GNot (g : geom) | GAnd (a b : geom) | GOr (a b : geom).
(** [side id]: the point is on the positive side of surface [id]; [cell id]: it is in cell [id] *)
Fixpoint inside (side cell : str -> bool) (g : geom) : bool :=
  match g with
  | GSurf neg id => if neg then negb (side id) else side id
  | GCell id => cell id
  | GNot g => negb (inside side cell g)
  | GAnd a b => inside side cell a && inside side cell b
  | GOr a b => inside side cell a || inside side cell b
  end.
(** juxtaposition is intersection and binds tighter than ":", "#" is complement *)
Inductive is_union : list token -> geom -> Prop :=
| u_one ts g : is_inter ts g -> is_union ts g
| u_or ts1 g1 ts2 g2 : is_union ts1 g1 -> is_inter ts2 g2 -> is_union (ts1 ++ TColon :: ts2) (GOr g1 g2)
with is_inter : list token -> geom -> Prop :=
| i_one ts g : is_factor ts g -> is_inter ts g
| i_and ts1 g1 ts2 g2 : is_inter ts1 g1 -> is_factor ts2 g2 -> is_inter (ts1 ++ ts2) (GAnd g1 g2)
with is_factor : list token -> geom -> Prop :=
| f_surf neg id : is_factor [TNum neg id] (GSurf neg id)
| f_par ts g : is_union ts g -> is_factor (TLP :: ts ++ [TRP]) g
| f_cell id : is_factor [THash; TNum false id] (GNot (GCell id))
| f_not ts g : is_union ts g -> is_factor (THash :: TLP :: ts ++ [TRP]) (GNot g).
Definition region_of (ls : list str) (g : geom) : Prop := is_union (tokens (geometry_words (words ls))) g.

(** ** cards with the ordinary layout: number, material and density set apart by blanks, and the
    keywords not glued to the geometry *)
Definition no_tilde (w : tline) : Prop := ~ In (Ch tilde) w.
Definition keyword (w : tline) : Prop :=
  match w with
  | Ch a :: w' => is_alpha a = true \/ (a = "*"%char /\ match w' with Ch b :: _ => is_alpha b = true | _ => False end)
  | _ => False
  end.
Definition geometric (k : kind) : Prop := k = Ksur \/ k = Kcel.
Definition hole_count (ws : list tline) : nat :=
  length (filter (fun i => match i with Hole _ => true | Ch _ => false end) (concat ws)).
Record ordinary (c : card) (n m : Z) (geo key : list tline) : Prop := {
  o_rows : exists w0 w1 row0 rest rows, c_input c = row0 :: rows /\
     tsplit row0 = [Hole w0] :: [Hole w1] :: (if (m =? 0)%Z then rest else [Ch tilde] :: rest) /\
     rest ++ concat (map tsplit rows) = geo ++ key;
  o_geo : Forall (fun w => has_alpha w = false /\ no_tilde w) geo;
  o_key : match key with [] => True | w :: _ => keyword w end;
  o_vals : exists gs ks, c_values c = (n, Kcel) :: (m, Kmat) :: gs ++ ks /\ length gs = hole_count geo /\ gs <> [] /\
     Forall (fun v => geometric (snd v)) gs /\ Forall (fun v => ~ geometric (snd v)) ks;
  o_dens : m <> 0%Z -> exists d hs, c_hidden c = d :: hs /\ d <> [] /\ Forall (fun x => is_ws x = false) d }.

(** C34: cards whose first words are the number, the material and (unless void) the density; after
    them anything *)
Definition headed (c : card) (n m : Z) : Prop :=
  exists w0 w1 row0 rest rows vs, c_input c = row0 :: rows /\
    tsplit row0 = [Hole w0] :: [Hole w1] :: (if (m =? 0)%Z then rest else [Ch tilde] :: rest) /\
    c_values c = (n, Kcel) :: (m, Kmat) :: vs /\ (m <> 0%Z -> c_hidden c <> []).
