(** Model of the object Elite_Input over its life: src/f4enix/input/elite.py 44-70 (initialization from the Excel file,
    kept for all later calls) and 72-202 extract_sector, on the heap of InpModel.v.

    The Excel file is the outcome of reading its (sector, cell) rows.  Of a surface or transformation card, elite.py uses
    fields that InpModel.v does not keep: [view] and [trans_of] read them, [paint] stores the fields of a surface back in
    its card.  A call that raises leaves its half-made copies unreachable: they are not kept in the heap. *)
From Coq Require Import QArith.
From Verif Require Import PyBase PyStr PyText LibModel MatModel InpModel LookModel EliteModel.
Open Scope nat_scope.

Definition rows := list (sector * Z).
Definition same_set (a b : list Z) : bool := forallb (fun x => zmem x b) a && forallb (fun x => zmem x a) b.

(** elite.py 55-58 the cells that are in no universe *)
Definition level0_cells (void_d : Q) (h : heap) (a : input) : res (list Z) :=
  do t <- get_cells_summary void_d h (i_cells a);
  Ok (map cr_cell (filter (fun r => match cr_u r with None => true | Some _ => false end) t)).
(** 49-70 _initialize_elite; the RuntimeError of an incompatible file is OtherError *)
Definition initialize (void_d : Q) (h : heap) (a : input) (excel : res rows) (check : bool) : res rows :=
  do t <- excel;
  if check then do l0 <- level0_cells void_d h a; if same_set l0 (map snd t) then Ok t else Err OtherError
  else Ok t.

(** 134-137 the cells of the sectors *)
Definition own_cells (t : rows) (sectors : list sector) : res (list Z) :=
  do ls <- mapM (lookup (sectors_cells t)) sectors; Ok (concat ls).
(** 139-145 the surfaces of these cells *)
Definition level0_surfaces (h : heap) (a : input) (own : list Z) : res (list Z) :=
  do ls <- mapM (fun kl => do c <- hget h (snd kl);
                           match c_values c with
                           | (v, _) :: _ => Ok (if zmem v own then surfs_of c else [])
                           | [] => Err IndexError
                           end) (i_cells a);
  Ok (concat ls).

(** card.input = [line] *)
Definition set_input (line : str) (c : card) : card := mkCard (c_name c) (c_values c) [text line] (c_hidden c).
Definition set_input_at (key line : str) (h : heap) (d : cdict) : res heap :=
  do l <- of_opt KeyError (dget str_eqb key d); do c <- hget h l; Ok (hset h l (set_input line c)).
(** 205-219 _set_sdef on the cards *)
Definition set_sdef_cards (sectors : list sector) (h : heap) (d : cdict) : res heap :=
  do '(si, spp) <- source_lines sectors;
  do h1 <- set_input_at (s2l "SI70") si h d;
  set_input_at (s2l "SP70") spp h1 d.

Fixpoint hset_all (h : heap) (ls : list loc) (cs : list card) : heap :=
  match ls, cs with l :: ls', c :: cs' => hset_all (hset h l c) ls' cs' | _, _ => h end.

(** what write_blocks receives, by value *)
Record written := mkW { w_cells : list (str * card); w_surfs : list (str * card); w_mats : matlist material;
                        w_header : list str; w_trans : list (str * card); w_data : list (str * card) }.
Definition by_value (h : heap) (d : cdict) : res (list (str * card)) :=
  mapM (fun kl => do c <- hget h (snd kl); Ok (fst kl, c)) d.

Section Run.
  Variable sind cosd : Z -> Q.
  Variable cosq : Q -> Q.
  Variable norm : vec3 -> Q.
  Variable void_d : Q.
  Variable view : card -> surf.
  Variable paint : surf -> card -> card.
  Variable trans_of : card -> trans.

  (** 221-279 _set_boundaries on the cards *)
  Definition set_boundaries_cards (angles : list Z) (tol : Q) (l0 : list Z) (h : heap) (ss ts : cdict) : res heap :=
    do cs <- mapM (fun kl => hget h (snd kl)) ss;
    do trs <- mapM (fun kl => do c <- hget h (snd kl); Ok (fst kl, trans_of c)) ts;
    do vs <- set_boundaries sind cosd cosq norm angles tol l0 trs (map view cs);
    Ok (hset_all h (map snd ss) (map (fun vc => paint (fst vc) (snd vc)) (combine vs cs))).

  (** 127-202 extract_sector with the table of the Excel file; Ok None: the collection of the cells is still running *)
  Definition extract (fuel : nat) (h : heap) (a : input) (t : rows) (sectors : list sector) (tol : Q) : res (option (heap * written)) :=
    do own <- own_cells t sectors;
    do l0 <- level0_surfaces h a own;
    do o <- extraction fuel h a (own ++ [800; 801]%Z) false true true;
    match o with
    | None => Ok None
    | Some (h1, (cells, (surfs, ms))) =>
        do '(h2, msurfs) <- copy_dict h1 surfs;
        do '(h3, mdata) <- copy_dict h2 (i_other a);
        do h4 <- set_sdef_cards sectors h3 mdata;
        do angles <- boundaries_angles sectors;
        do h5 <- set_boundaries_cards angles tol l0 h4 msurfs (i_trans a);
        do lg <- of_opt KeyError (dget str_eqb (s2l "801") (i_cells a)); do gy <- hget h5 lg;
        do lo <- of_opt KeyError (dget str_eqb (s2l "800") (i_cells a)); do outer <- hget h5 lo;
        do '(outer', gy') <- modify_graveyard sectors gy outer;
        let h6 := h5 ++ [outer'; gy'] in
        let cells' := dset str_eqb (s2l "801") (S (length h5)) (dset str_eqb (s2l "800") (length h5) cells) in
        do wc <- by_value h6 cells'; do ws <- by_value h6 msurfs; do wt <- by_value h6 (i_trans a); do wd <- by_value h6 mdata;
        Ok (Some (h6, mkW wc ws ms (i_header a) wt wd))
    end.

  (** 44-47 the object: the heap and the table, once read.  One call: the sectors, the Excel file, the tolerance, whether
      the file is checked; [c_fuel] bounds the rounds of the collection *)
  Record estate := mkE { e_heap : heap; e_table : option rows }.
  Record call := mkCall { c_sectors : list sector; c_excel : res rows; c_tol : Q; c_check : bool; c_fuel : nat }.
  (** 124-202: the state after the call and what is written *)
  Definition extract_sector (a : input) (st : estate) (c : call) : estate * res (option written) :=
    match (match e_table st with Some t => Ok t | None => initialize void_d (e_heap st) a (c_excel c) (c_check c) end) with
    | Err e => (st, Err e)
    | Ok t =>
        match extract (c_fuel c) (e_heap st) a t (c_sectors c) (c_tol c) with
        | Err e => (mkE (e_heap st) (Some t), Err e)
        | Ok None => (mkE (e_heap st) (Some t), Ok None)
        | Ok (Some (h', w)) => (mkE h' (Some t), Ok (Some w))
        end
    end.
  (** a history of calls on one object *)
  Definition run (a : input) (st : estate) (cs : list call) : estate := fold_left (fun st c => fst (extract_sector a st c)) cs st.
End Run.
