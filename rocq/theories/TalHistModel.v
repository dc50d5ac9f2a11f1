(** Model of the lists of tallies of an input over its life: src/f4enix/input/MCNPinput.py 315-357 (from_input; the same
    loop is 1855-1863 in D1S_Input.from_input), 384-408 (merge), 417-437 (_update_card_keys), 1614-1723 (add_F_tally,
    add_stopCard).  Of an input only the data cards (their lines, see DataModel.v) and the two lists are kept; the blocks
    of cells, surfaces, materials and transformations are in InpModel.v. *)
From Verif Require Import PyBase PyStr PyText LibModel MatModel InpModel DataModel.
Open Scope nat_scope.

(** a data card as parsed by numjuggler: its lines, whether its dtype is Fn, its name (None: the attribute is not set) *)
Record rcard := mkRC { rc_lines : list str; rc_fn : bool; rc_name : option Z }.
(** other_data, tally_keys, fmesh_keys *)
Record tinput := mkT { ti_other : odict; ti_tallies : list Z; ti_meshes : list Z }.
(** constants.py 48 PAT_FMESH_KEY ^FMESH\d+ *)
Definition pat_fmesh (key : str) : bool :=
  match strip_prefix (s2l "FMESH") key with Some (d :: _) => is_digit d | _ => false end.
(** 339-346 the two lists *)
Definition list_card (l : list Z * list Z) (kc : str * rcard) : res (list Z * list Z) :=
  if rc_fn (snd kc) then do n <- of_opt AttributeError (rc_name (snd kc)); Ok (fst l ++ [n], snd l)
  else if pat_fmesh (fst kc) then do n <- of_opt AttributeError (rc_name (snd kc)); Ok (fst l, snd l ++ [n])
  else Ok l.
Definition read_tallies (other : list (str * rcard)) : res tinput :=
  do l <- foldM list_card ([], []) other;
  Ok (mkT (map (fun kc => (fst kc, rc_lines (snd kc))) other) (fst l) (snd l)).

(** 404-408 the end of merge: other_data.update and the two lists extended *)
Definition merge_tallies (a b : tinput) : tinput :=
  mkT (fold_left (fun d kl => dset str_eqb (fst kl) (snd kl) d) (ti_other b) (ti_other a))
      (ti_tallies a ++ ti_tallies b) (ti_meshes a ++ ti_meshes b).
(** 417-437 and 2164-2174: the cards under the first word of their text; the lists of tallies stay *)
Definition data_key (ls : list str) : res str := key_of_lines (map (filter (fun c => negb (Ascii.eqb c nl))) ls).
Definition update_keys (t : tinput) : res tinput :=
  do d <- foldM (fun nd kl => do k <- data_key (snd kl); Ok (dset str_eqb k (snd kl) nd)) [] (ti_other t);
  Ok (mkT d (ti_tallies t) (ti_meshes t)).

Section History.
  Context (wrap : list str -> list str).
  (** the arguments of add_F_tally *)
  Record tally_args := mkTA { a_id : Z; a_particles : list str; a_cells : list str; a_total : bool; a_energies : option (list Q);
    a_desc : option str; a_mult : option str; a_sd : bool }.
  (** 1614-1702; the input after the call, and the exception *)
  Definition add_tally (x : tally_args) (t : tinput) : tinput * option exn :=
    let '(d, e) := add_F_tally wrap (a_id x) (a_particles x) (a_cells x) (a_total x) (a_energies x) (a_desc x) (a_mult x) (a_sd x)
                     (mkD (ti_other t) (ti_tallies t)) in
    (mkT (d_other d) (d_keys d) (ti_meshes t), e).
  Definition add_stop (nps : Q) (t : tinput) : tinput :=
    mkT (d_other (add_stopCard nps (mkD (ti_other t) (ti_tallies t)))) (ti_tallies t) (ti_meshes t).

  (** the life of an input: read, given tallies or a stop card, merged with another one (which has its own life) *)
  Inductive life := Read (cards : list (str * rcard)) | Add (x : tally_args) (l : life) | Stop (nps : Q) (l : life) | Merge (l other : life).
  Fixpoint live (l : life) : res tinput :=
    match l with
    | Read cards => read_tallies cards
    | Add x l => do t <- live l; match add_tally x t with (t', None) => Ok t' | (_, Some e) => Err e end
    | Stop q l => do t <- live l; Ok (add_stop q t)
    | Merge l o => do t <- live l; do u <- live o; Ok (merge_tallies t u)
    end.
End History.
