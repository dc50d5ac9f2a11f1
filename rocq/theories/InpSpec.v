(** Specification vocabulary for the MCNP input (C28-C36), independent of how MCNPinput.py computes. *)
From Verif Require Import PyBase PyStr PyText LibModel MatModel InpModel.
Open Scope nat_scope.

(** the card stored under a key *)
Definition card_at (h : heap) (d : cdict) (key : str) (c : card) : Prop :=
  exists l, dget str_eqb key d = Some l /\ nth_error h l = Some c.
(** every entry of the dictionaries is an existing card *)
Definition allocated (h : heap) (d : cdict) : Prop := forall l, In l (map snd d) -> l < length h.
(** the number written in a key is exactly the printed name of its card *)
Definition settled (h : heap) (d : cdict) : Prop :=
  forall key l, In (key, l) d -> exists c n, nth_error h l = Some c /\ c_name c = Some n /\ key_num key = str_of_Z n.
(** the number written in a key is the name of its card ("007" and "+7" denote 7) *)
Definition keys_match (h : heap) (d : cdict) : Prop :=
  forall key l, dget str_eqb key d = Some l -> exists c n, nth_error h l = Some c /\ c_name c = Some n /\ parse_int (key_num key) = Ok n.
(** the name of a card is the number it prints *)
Definition self_named (k : kind) (c : card) : Prop := exists n, c_name c = Some n /\ first_of k (c_values c) = Some n.

(** the addresses used by an input *)
Definition locs (d : cdict) : list loc := map snd d.
Definition input_locs (a : input) : list loc := locs (i_cells a) ++ locs (i_surfs a) ++ locs (i_other a) ++ locs (i_trans a).
Definition input_allocated (h : heap) (a : input) : Prop := forall l, In l (input_locs a) -> l < length h.
Definition disjoint_keys (a b : cdict) : Prop := forall key, In key (dkeys a) -> ~ In key (dkeys b).

(** C30: a cell needs the cells its geometry mentions and, when fillers are followed, the cells of
    the universe that fills it *)
Definition cell_of (h : heap) (cells : cdict) (n : Z) (c : card) : Prop := card_at h cells (str_of_Z n) c.
Definition mentions (c : card) (n : Z) : Prop := In (n, Kcel) (tl (c_values c)).
Definition needs (h : heap) (cells : cdict) (fillers : bool) (a b : Z) : Prop :=
  exists c, cell_of h cells a c /\
    (mentions c b \/
     (fillers = true /\ exists u key l c' k, get_f c = Some u /\ In (key, l) cells /\ nth_error h l = Some c' /\
        get_u c' = Some u /\ head (c_values c') = Some (b, k))).
Inductive reach (R : Z -> Z -> Prop) (start : list Z) : Z -> Prop :=
| reach_start : forall n, In n start -> reach R start n
| reach_step : forall a b, reach R start a -> R a b -> reach R start b.

(** C32: a card that is not a comment *)
Definition is_comment (p : pcard) : bool :=
  negb (p_named p) && match p_lines p with l :: _ => pat_comment l | [] => false end.
Definition own_key (p : pcard) : res str := if p_named p then p_key p else p_first_word p.
(** every run of comments is one card and is followed by a card *)
Fixpoint comments_attached (cards : list pcard) : Prop :=
  match cards with
  | [] => True
  | p :: rest => (if is_comment p then match rest with q :: _ => is_comment q = false | [] => False end else True)
                 /\ comments_attached rest
  end.

(** C29: what a number of type [k] becomes *)
Definition shifted (o : offsets) (v v' : Z * kind) : Prop :=
  snd v' = snd v /\
  match (match snd v with Kcel => o_cel o | Ksur => o_sur o | Ku => o_u o | Kfill => o_u o | Ktr => o_tr o | Kmat => None | Kother => None end) with
  | None => fst v' = fst v
  | Some d => (fst v = 0 -> fst v' = 0)%Z /\ (fst v <> 0 -> fst v' = fst v + d)%Z
  end.
(** the card prints [n], of type [k], right after the mark [pre], as its first word *)
Definition prints_number (pre : str) (k : kind) (n : Z) (c : card) : Prop :=
  (exists vs, c_values c = (n, k) :: vs) /\
  (exists w rest lines, c_input c = (map Ch pre ++ Hole w :: rest) :: lines /\
     match rest with [] => True | Ch x :: _ => is_ws x = true | Hole _ :: _ => False end) /\
  (exists ls, card_text c = Ok ls) /\
  Forall (fun x => is_ws x = false /\ Ascii.eqb x tilde = false) pre.

(** one block: all cards print their number after one of the marks *)
Definition numbered_block (marks : list str) (k : kind) (h : heap) (d : cdict) : Prop :=
  (forall l, In l (locs d) -> exists c n pre, nth_error h l = Some c /\ In pre marks /\ prints_number pre k n c /\ n <> 0%Z) /\
  (forall l1 l2 c1 c2 n p1 p2, In l1 (locs d) -> In l2 (locs d) -> nth_error h l1 = Some c1 -> nth_error h l2 = Some c2 ->
     prints_number p1 k n c1 -> prints_number p2 k n c2 -> l1 = l2).

(** after renumbering with update of the keys: the same cards in the same order, every number shifted,
    every key the number (with its mark) that the card prints, every name that number *)
Definition follows (k : kind) (marks : list str) (o : offsets) (h h' : heap) (d d' : cdict) : Prop :=
  locs d' = locs d /\
  forall key l, In (key, l) d' -> exists pre c c' n, In pre marks /\ nth_error h l = Some c /\ nth_error h' l = Some c' /\
    Forall2 (shifted o) (c_values c) (c_values c') /\ c_input c' = c_input c /\ c_hidden c' = c_hidden c /\
    prints_number pre k n c' /\ c_name c' = Some n /\ key = pre ++ str_of_Z n.

(** a surface number may be preceded by an asterisk *)
Definition surf_marks : list str := [[]; s2l "*"].

(** C30: the entry found for a number, possibly under the key with an asterisk *)
Definition found (d : cdict) (id : str) (e : str * loc) : Prop :=
  dget str_eqb (fst e) d = Some (snd e) /\ (fst e = id \/ (fst e = star id /\ dget str_eqb id d = None)).
(** the copies are new cards, one by one equal to the originals *)
Definition same_cards (h h' : heap) (d d' : cdict) : Prop :=
  Forall2 (fun (e e' : str * loc) => fst e' = fst e /\ exists c, nth_error h (snd e) = Some c /\ nth_error h' (snd e') = Some c) d d'.
(** a requested cell loses its universe unless it is kept *)
Definition stripped (keep_u : bool) (req : list Z) (c : card) : card :=
  if keep_u then c else match c_values c with (v, _) :: _ => if zmem v req then remove_u c else c | [] => c end.
(** C32: a card is stored under its own key, after the comments that precede it *)
Definition stored (p : pcard) (e : str * list str) : Prop := own_key p = Ok (fst e) /\ exists pre, snd e = pre ++ p_lines p.
(** a run of assignments d[key] = card, stopping at the first exception *)
Definition assign_all (k : kind) (h : heap) (d : cdict) (ops : list (str * loc)) : res (heap * cdict) :=
  foldM (fun hd kl => setitem k (fst hd) (snd hd) (fst kl) (snd kl)) (h, d) ops.

