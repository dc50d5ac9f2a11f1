(** C126: the life of an input.  Independent of how MCNPinput.py computes. *)
From Coq Require Import ZArith QArith.
From Verif Require Import PyBase PyStr PyText LibModel MatModel InpModel InpSpec LookModel.
Open Scope nat_scope.

(** one block (cells or surfaces): different keys; every key is the number that its card prints and is named by, after its
    mark; no number is zero and no two cards have one number *)
Definition good_block (marks : list str) (k : kind) (h : heap) (d : cdict) : Prop :=
  NoDup (dkeys d) /\
  (forall key l, In (key, l) d -> exists c n pre, nth_error h l = Some c /\ In pre marks /\ prints_number pre k n c /\
     c_name c = Some n /\ n <> 0%Z /\ key = pre ++ str_of_Z n) /\
  (forall key1 l1 key2 l2 c1 c2, In (key1, l1) d -> In (key2, l2) d -> nth_error h l1 = Some c1 -> nth_error h l2 = Some c2 ->
     c_name c1 = c_name c2 -> l1 = l2).
(** an input in order: its two blocks are, no card is used twice, all cards exist *)
Definition good (h : heap) (a : input) : Prop :=
  good_block [[]] Kcel h (i_cells a) /\ good_block surf_marks Ksur h (i_surfs a) /\
  NoDup (dkeys (i_other a)) /\ NoDup (dkeys (i_trans a)) /\ NoDup (input_locs a) /\ input_allocated h a.

(** the numbers of the cards of a block *)
Definition has_number (h : heap) (d : cdict) (n : Z) : Prop := exists key l c, In (key, l) d /\ nth_error h l = Some c /\ c_name c = Some n.
Definition moves_to_zero (off : option Z) (n : Z) : Prop := exists d, off = Some d /\ (n + d)%Z = 0%Z.

(** the requested cells can be printed when their universe is removed *)
Definition print_stripped (h : heap) (a : input) (req : list Z) : Prop :=
  forall n c, In n req -> cell_of h (i_cells a) n c -> exists ls, card_text (remove_u c) = Ok ls.

(** what may happen to an input between its reading and its writing: the input it is changed into (an extracted input is
    followed from its extraction on, with or without renumbering; so is the input it is extracted from).  A call that raises
    is not a step. *)
Inductive step (h : heap) (a : input) : heap -> input -> Prop :=
| s_renumber : forall o h' a', renumber o true h a = Ok (h', a') ->
    (forall n, has_number h (i_cells a) n -> ~ moves_to_zero (o_cel o) n) ->
    (forall n, has_number h (i_surfs a) n -> ~ moves_to_zero (o_sur o) n) -> step h a h' a'
| s_merge : forall b h' a', merge h a b = ((h', a'), None) -> good h b ->
    (forall l, In l (input_locs a) -> ~ In l (input_locs b)) ->
    (forall n, has_number h (i_surfs a) n -> ~ has_number h (i_surfs b) n) -> step h a h' a'
| s_new_card : forall c, step h a (h ++ [c]) a
| s_add_cell : forall key l c n z h' cs, setitem Kcel h (i_cells a) key l = Ok (h', cs) ->
    ~ In l (input_locs a) -> nth_error h l = Some c -> c_name c = Some n -> prints_number [] Kcel n c ->
    key = str_of_Z z -> z <> 0%Z ->
    step h a h' (mkInp cs (i_surfs a) (i_mats a) (i_trans a) (i_other a) (i_tallies a) (i_fmesh a) (i_header a))
| s_replace_material : forall new dens old us h', replace_material new dens old us h a = Ok h' -> step h a h' a
| s_scale_densities : forall factor h', scale_densities factor h (i_cells a) = Ok h' -> step h a h' a
| s_extracted : forall fuel req keep_u fillers h' b, extract_cells fuel h a req None keep_u fillers = Ok (Some (h', b)) ->
    (keep_u = false -> print_stripped h a req) -> step h a h' b
| s_extracted_renumbered : forall fuel req o keep_u fillers h' b, extract_cells fuel h a req (Some (o, true)) keep_u fillers = Ok (Some (h', b)) ->
    (keep_u = false -> print_stripped h a req) ->
    (forall n, has_number h (i_cells a) n -> ~ moves_to_zero (o_cel o) n) ->
    (forall n, has_number h (i_surfs a) n -> ~ moves_to_zero (o_sur o) n) -> step h a h' b
| s_extracted_from : forall fuel req keep_u fillers h' b, extract_cells fuel h a req None keep_u fillers = Ok (Some (h', b)) ->
    (keep_u = false -> print_stripped h a req) -> step h a h' a.
Inductive history : heap -> input -> heap -> input -> Prop :=
| h_none : forall h a, history h a h a
| h_more : forall h a h1 a1 h2 a2, history h a h1 a1 -> step h1 a1 h2 a2 -> history h a h2 a2.

(** a run of renumberings, each with the update of the keys *)
Fixpoint renumber_run (os : list offsets) (h : heap) (a : input) : res (heap * input) :=
  match os with
  | [] => Ok (h, a)
  | o :: os' => do '(h1, a1) <- renumber o true h a; renumber_run os' h1 a1
  end.
(** the sum of the offsets given for one type of number *)
Definition offset_for (k : kind) (o : offsets) : Z :=
  match (match k with Kcel => o_cel o | Ksur => o_sur o | Ku | Kfill => o_u o | Ktr => o_tr o | Kmat | Kother => None end) with
  | Some d => d | None => 0%Z
  end.
Definition total (k : kind) (os : list offsets) : Z := fold_right Z.add 0%Z (map (offset_for k) os).
(** no part of the run takes the number to zero *)
Definition never_zero (os : list offsets) (v : Z * kind) : Prop :=
  fst v = 0%Z \/ forall p q, os = p ++ q -> (fst v + total (snd v) p <> 0)%Z.
(** what the number is after the run: zero stays zero *)
Definition moved (os : list offsets) (v : Z * kind) : Z * kind :=
  (if (fst v =? 0)%Z then 0%Z else (fst v + total (snd v) os)%Z, snd v).
(** every card of the block is still there, in its place, with every number moved, and named and stored by its number *)
Definition block_moved (k : kind) (marks : list str) (os : list offsets) (h h' : heap) (d d' : cdict) : Prop :=
  Forall2 (fun (e e' : str * loc) => snd e' = snd e /\ exists pre c c' n, In pre marks /\ nth_error h (snd e) = Some c /\ nth_error h' (snd e) = Some c' /\
     c_name c = Some n /\ fst e = pre ++ str_of_Z n /\
     c_values c' = map (moved os) (c_values c) /\ c_input c' = c_input c /\ c_hidden c' = c_hidden c /\
     c_name c' = Some (n + total k os)%Z /\ fst e' = pre ++ str_of_Z (n + total k os)) d d'.
