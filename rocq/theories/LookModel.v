(** Model of the densities, the table of the cells and the look-ups of
    src/f4enix/input/MCNPinput.py (616-727, 1075-1145).  Cards, heap and dictionaries are those of
    InpModel.v; numbers are exact.  Assumed of numjuggler: get_d reads the first hidden text of the
    card, set_d rewrites it (the cache of get_d is not modelled). *)
From Coq Require Import ZArith QArith Qabs.
From Verif Require Import PyBase PyStr PyText PySci LibModel MatModel InpModel.
Open Scope nat_scope.

(** numjuggler get_d of a cell that is not void *)
Definition get_d (c : card) : res Q :=
  match c_hidden c with [] => Err IndexError | d :: _ => parse_float d end.
(** numjuggler set_d *)
Definition set_d (d : str) (c : card) : res card :=
  match c_hidden c with [] => Err IndexError | _ :: hs => Ok (mkCard (c_name c) (c_values c) (c_input c) (d :: hs)) end.
(** MCNPinput.py 1075-1089 scale_densities *)
Definition scale_cell (factor : Q) (c : card) : res card :=
  if optz_eqb (get_m c) 0 then Ok c
  else do d <- get_d c; set_d (fmt_sci Two "e"%char 5 (d * factor)%Q) c.
Definition scale_densities (factor : Q) (h : heap) (cells : cdict) : res heap :=
  foldM (fun h kl => do c <- hget h (snd kl); do c' <- scale_cell factor c; Ok (hset h (snd kl) c')) h cells.

Section Tables.
  (* MatCardsList[f"M{id}"].get_density(d, lm): atoms per barn and centimetre to grams per cubic centimetre *)
  Context (convert : Z -> Q -> res Q).
  (* get_d of a void cell *)
  Context (void_d : Q).
  (** MCNPinput.py 1101-1116: the material and the density of a cell; a cell without material number is outside the model *)
  Definition cell_density (c : card) : res (option (Z * Q)) :=
    match get_m c with
    | None => Err OtherError
    | Some m => if (m =? 0)%Z then Ok None
                else do d <- get_d c;
                     if negb (Qle_bool 0 d) then Ok (Some (m, Qabs d))
                     else do g <- convert m d; Ok (Some (m, g))
    end.
  (** min() and max() of a group *)
  Definition qmin2 (a b : Q) : Q := if Qle_bool a b then a else b.
  Definition qmax2 (a b : Q) : Q := if Qle_bool a b then b else a.
  Definition group (m : Z) (l : list (Z * Q)) : list Q := map snd (filter (fun p => (fst p =? m)%Z) l).
  Definition range_row (l : list (Z * Q)) (m : Z) : list (Z * (Q * Q)) :=
    match group m l with [] => [] | d :: ds => [(m, (fold_left qmin2 ds d, fold_left qmax2 ds d))] end.
  (** MCNPinput.py 1091-1124 get_densities_range: material, minimum, maximum; groupby sorts the groups *)
  Definition get_densities_range (h : heap) (cells : cdict) : res (list (Z * (Q * Q))) :=
    do l <- mapM (fun kl => do c <- hget h (snd kl); cell_density c) cells;
    let found := concat (map (fun o => match o with Some p => [p] | None => [] end) l) in
    Ok (concat (map (range_row found) (sort_set (map fst found)))).

  (** MCNPinput.py 1126-1147 get_cells_summary *)
  Record crow := mkCR { cr_cell : Z; cr_mat : option Z; cr_dens : Q; cr_u : option Z; cr_fill : option Z }.
  Definition cell_row (h : heap) (kl : str * loc) : res crow :=
    do c <- hget h (snd kl);
    do n <- parse_int (fst kl);
    do d <- (if optz_eqb (get_m c) 0 then Ok void_d else get_d c);
    Ok (mkCR n (get_m c) d (get_u c) (get_f c)).
  (* sort_index *)
  Fixpoint insert_cr (x : crow) (l : list crow) : list crow :=
    match l with [] => [x] | y :: l' => if (cr_cell x <=? cr_cell y)%Z then x :: l else y :: insert_cr x l' end.
  Definition get_cells_summary (h : heap) (cells : cdict) : res (list crow) :=
    match mapM (cell_row h) cells with
    | Err e => Err e
    | Ok [] => Err KeyError
    | Ok rows => Ok (fold_right insert_cr [] rows)
    end.
End Tables.

(** MCNPinput.py 631-655 get_cells_by_id; str(id) was applied to the numbers *)
Definition get_cells_by_id (ids : list Z) (make_copy : bool) (h : heap) (a : input) : res (heap * cdict) :=
  do sel <- get_cards_by_id (map str_of_Z ids) (i_cells a);
  if make_copy then copy_dict h sel else Ok (h, sel).
(** MCNPinput.py 657-673 get_surfs_by_id *)
Definition get_surfs_by_id (ids : list Z) (a : input) : res cdict := get_cards_by_id (map str_of_Z ids) (i_surfs a).
(** MCNPinput.py 698-724 get_data_cards *)
Definition get_data_cards (ids : list str) (a : input) : res cdict :=
  match get_cards_by_id ids (i_other a) with
  | Err KeyError => get_cards_by_id ids (i_trans a)
  | r => r
  end.
(** MCNPinput.py 675-696 get_materials_subset: one name, or a list of names *)
Definition get_material (id : str) (a : input) : res material := ml_get (i_mats a) (upper id).
Definition get_materials_subset (ids : list str) (a : input) : res (matlist material) :=
  do ms <- mapM (fun id => ml_get (i_mats a) (upper id)) ids; Ok (ml_new mt_name ms).
