(** Model of D1S_Input (src/f4enix/input/MCNPinput.py 1777-2061): activation paths of the materials
    and the translation driven by the reaction file. *)
From Verif Require Import PyBase PyStr PyText D1SModel LibModel MatModel DataModel.
Open Scope nat_scope.

Definition triple := (str * str * str)%type.
(** list(set(reactions)); reactions.sort(): tuples compare entry by entry *)
Definition triple_eqb (a b : triple) : bool :=
  let '(a1, a2, a3) := a in let '(b1, b2, b3) := b in str_eqb a1 b1 && str_eqb a2 b2 && str_eqb a3 b3.
Definition triple_leb (a b : triple) : bool :=
  let '(a1, a2, a3) := a in let '(b1, b2, b3) := b in
  if str_eqb a1 b1 then if str_eqb a2 b2 then str_leb a3 b3 else str_leb a2 b2 else str_leb a1 b1.
Fixpoint insert_triple (x : triple) (l : list triple) : list triple :=
  match l with [] => [x] | y :: l' => if triple_leb x y then x :: l else y :: insert_triple x l' end.
Definition sorted_triples (l : list triple) : list triple := fold_right insert_triple [] l.
Fixpoint dedup_triples (l : list triple) : list triple :=
  match l with [] => [] | x :: l' => if memb triple_eqb x l' then dedup_triples l' else x :: dedup_triples l' end.

(** the activation data: isotope table and sheets of the activation libraries (libmanager.py) *)
Record actdata := mkact { a_iso : list isorow; a_sheets : list (str * list LibModel.reacrow) }.
(** 1907-1918: the loops over materials, submaterials and zaids *)
Definition zaid_paths (D : actdata) (lib : str) (z : zaid) : res (list triple) :=
  do l <- get_reactions (a_iso D) (a_sheets D) lib (z_num z);
  Ok (map (fun md => (z_num z, fst md, snd md)) l).
Definition zaids_of (ms : list material) : list zaid := concat (map all_zaids ms).
(** 1924-1938: the Reaction of a path, with its comment *)
Definition path_comment (D : actdata) (parent daughter : str) : res str :=
  do '(_, pf) <- get_zaidname (a_iso D) parent;
  do df <- (if str_eqb (last3 daughter) (s2l "900")
            then do '(_, f) <- get_zaidname (a_iso D) (but3 daughter); Ok (f ++ s2l "m")
            else do '(_, f) <- get_zaidname (a_iso D) daughter; Ok f);
  Ok (pf ++ s2l " -> " ++ df).
Definition path_reaction (D : actdata) (lib : str) (t : triple) : res reac :=
  let '(parent, mt, daughter) := t in
  let parent := parent ++ dot :: lib in
  do c <- path_comment D parent daughter;
  mk_reaction parent mt daughter (Some c).
(** 1888-1938 get_potential_paths *)
Definition get_potential_paths (D : actdata) (lib : str) (ms : list material) : res (list reac) :=
  do ls <- mapM (zaid_paths D lib) (zaids_of ms);
  mapM (path_reaction D lib) (sorted_triples (dedup_triples (concat ls))).
(** 1940-1993 get_reaction_file: the list of reactions of the new file *)
Definition get_reaction_file (D : actdata) (lib : str) (irr : option ifile) (ms : list material) : res (list reac) :=
  match irr with
  | None => Err ValueError
  | Some f => do l <- get_potential_paths D lib ms;
              Ok (filter (fun r => memb str_eqb (x_daughter r) (get_daughters f)) l)
  end.

(** 1995-2061 smart_translate: materials, reactions and data cards afterwards, and the exception.
    The dictionary newlib is {activation_lib: ..., transport_lib: ...}: equal keys collapse *)
Record d1s := mkd1s { s_mats : list material; s_reacs : option (list reac); s_data : dinput }.
Definition transport_zaids (active : list str) (ms : list material) : list str :=
  fold_left (fun acc z => if negb (memb str_eqb (z_num z) active) && negb (memb str_eqb (z_num z) acc) then acc ++ [z_num z] else acc) (zaids_of ms) [].
Definition smart_newlib (act trans : str) (active transp : list str) : MatModel.newlib :=
  ByZaid (dset str_eqb trans transp [(act, active)]).
Definition smart_translate (E : matenv) (act trans : str) (fix_natural : bool) (s : d1s) : d1s * option exn :=
  match s_reacs s with
  | None => (s, Some ValueError)
  | Some rs =>
      let '(ms, o) := if fix_natural then translate_list E (ToLib trans) (s_mats s) else (s_mats s, None) in
      match o with
      | Some e => (mkd1s ms (s_reacs s) (s_data s), Some e)
      | None =>
          let active := map (fun r => before_dot (x_parent r)) rs in
          let rs' := map (reac_change_lib act) rs in
          let data := add_PIKMT_card (Some rs') (s_data s) in
          let '(ms', o') := translate_list E (smart_newlib act trans active (transport_zaids active ms)) ms in
          (mkd1s ms' (Some rs') data, o')
      end
  end.
