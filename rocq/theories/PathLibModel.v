(** Model of src/f4enix/output/decay_pathways.py: the library of decay pathways.
    A table is the list of its rows; a missing number (NaN) is None.  pandas: .loc with lists of labels
    and sort_values leave the order of some rows open, the model keeps the one of the table there. *)
From Verif Require Import PyBase PyStr PyText D1SModel LibModel.
Open Scope nat_scope.

(** one row of the csv file: state may be NaN.  The values are those of the six "max dose % at" columns *)
Record rawrow := mkRaw { w_spectrum : str; w_dose : str; w_element : str; w_isotope : str; w_state : option str;
                         w_pathway : str; w_material : str; w_vals : list (option Q) }.
(** a row of the library *)
Record prow := mkRow { p_dose : str; p_spectrum : str; p_element : str; p_isotope : str; p_pathway : str;
                       p_material : str; p_vals : list (option Q) }.

(** s.replace("nan", "") *)
Fixpoint remove_nan (skip : nat) (s : str) : str :=
  match s with
  | [] => []
  | c :: s' =>
      match skip with
      | S k => remove_nan k s'
      | O => if str_eqb (firstn 3 s) (s2l "nan") then remove_nan 2 s' else c :: remove_nan 0 s'
      end
  end.

(** a DataFrame handed to the constructor: its rows and whether it (still) has the column "state" *)
Record frame := mkFrame { fr_state : bool; fr_rows : list rawrow }.
Definition joined (r : rawrow) : str :=
  remove_nan 0 (w_isotope r ++ match w_state r with Some s => s | None => s2l "nan" end).
(** 56-76 __init__: the library, and the caller's table afterwards (it is changed in place: 61-63) *)
Definition new_library (df : frame) : res (list prow * frame) :=
  if fr_state df
  then Ok (map (fun r => mkRow (w_dose r) (w_spectrum r) (w_element r) (joined r) (w_pathway r) (w_material r) (w_vals r)) (fr_rows df),
           mkFrame false (map (fun r => mkRaw (w_spectrum r) (w_dose r) (w_element r) (joined r) None (w_pathway r) (w_material r) (w_vals r)) (fr_rows df)))
  else Err KeyError.

(** 29-41 *)
Definition available_spectra : list str := map s2l ["First Wall (315g)"; "Eq. port interspace (175g)"; "N-17 neutron emission (175g)"]%string.
Definition available_times : list str := map s2l ["24h"; "11.6d"; "30d"; "180d"; "1y"; "10y"]%string.

(** material_library.py 8-68 MaterialComposition and its __eq__ (as records of rationals, so equality of
    percentages is Qeq) *)
Record matcomp := mkMat { mc_name : str; mc_perc : list Q; mc_elem : list str }.
Fixpoint list_eqb {A} (eqb : A -> A -> bool) (a b : list A) : bool :=
  match a, b with
  | [], [] => true
  | x :: a', y :: b' => eqb x y && list_eqb eqb a' b'
  | _, _ => false
  end.
Definition mat_eqb (a b : matcomp) : bool :=
  str_eqb (mc_name a) (mc_name b) && list_eqb Qeq_bool (mc_perc a) (mc_perc b) && list_eqb str_eqb (mc_elem a) (mc_elem b).

(** the criteria of a query; None is the default *)
Record query := mkQuery { q_spectrum : option (list str); q_dose : Z; q_materials : option (list matcomp); q_times : option (list str) }.

(** 168-197: the default, or the given list when every entry is available *)
Definition checked {A} (eqb : A -> A -> bool) (avail : list A) (l : option (list A)) : res (list A) :=
  match l with
  | None => Ok avail
  | Some l => if forallb (fun x => memb eqb x avail) l then Ok l else Err ValueError
  end.
(** 175-180 *)
Definition dose_label (d : Z) : res str :=
  if Z.eqb d 95 then Ok (s2l "Dose 95%") else if Z.eqb d 99 then Ok (s2l "Dose 99%") else Err ValueError.

Definition isnone (o : option Q) : bool := match o with None => true | Some _ => false end.
(** the values of the requested cooling times *)
Definition at_times (ts : list str) (r : prow) : list (option Q) :=
  map (fun t => match index_of str_eqb t available_times with Some k => nth k (p_vals r) None | None => None end) ts.

Section Lib.
  (** AVAILABLE_MATERIALS of material_library.py 434-452, and the table of the isotopes *)
  Context (avail : list matcomp) (iso : list isorow).

  (** 139-214 filter_pathways: the rows kept, each with the values of the requested cooling times.  Labels that do not
      occur in the table at all (pandas raises a KeyError for them) are taken as labels without rows *)
  Definition filter_pathways (lib : list prow) (q : query) : res (list (prow * list (option Q))) :=
    do sp <- checked str_eqb available_spectra (q_spectrum q);
    do lab <- dose_label (q_dose q);
    do ms <- checked mat_eqb avail (q_materials q);
    do ts <- checked str_eqb available_times (q_times q);
    let names := map mc_name ms in
    let rows := filter (fun r => str_eqb (p_dose r) lab && memb str_eqb (p_spectrum r) sp && memb str_eqb (p_material r) names) lib in
    Ok (filter (fun x => negb (forallb isnone (snd x))) (map (fun r => (r, at_times ts r)) rows)).

  (** groupby and max: the largest number, None only when there is none *)
  Definition omax (a b : option Q) : option Q :=
    match a, b with
    | None, _ => b
    | _, None => a
    | Some x, Some y => Some (if Qle_bool x y then y else x)
    end.
  Definition pkey := (str * str * str)%type.
  Definition pkey_eqb (a b : pkey) : bool :=
    str_eqb (fst (fst a)) (fst (fst b)) && str_eqb (snd (fst a)) (snd (fst b)) && str_eqb (snd a) (snd b).
  Definition key_of (r : prow) : pkey := (p_element r, p_isotope r, p_pathway r).
  Fixpoint add_group (k : pkey) (v : list (option Q)) (g : list (pkey * list (option Q))) : list (pkey * list (option Q)) :=
    match g with
    | [] => [(k, v)]
    | (k', v') :: g' => if pkey_eqb k k' then (k', map (fun p => omax (fst p) (snd p)) (combine v' v)) :: g' else (k', v') :: add_group k v g'
    end.
  Definition group_max (rows : list (prow * list (option Q))) : list (pkey * list (option Q)) :=
    fold_left (fun g x => add_group (key_of (fst x)) (snd x) g) rows [].

  (** 14-26 _sort_df_byzaidnum: sort_values compares the texts of the numbers *)
  Fixpoint insert_by (x : str * (pkey * list (option Q))) (l : list (str * (pkey * list (option Q)))) :=
    match l with
    | [] => [x]
    | y :: l' => if str_leb (fst x) (fst y) then x :: l else y :: insert_by x l'
    end.
  Definition sort_by (l : list (str * (pkey * list (option Q)))) := fold_right insert_by [] l.
  (** 78-137 get_pathways.  Without rows the new column is a whole table, which pandas refuses (ValueError) *)
  Definition get_pathways (lib : list prow) (q : query) : res (list (pkey * list (option Q))) :=
    do rows <- filter_pathways lib q;
    match group_max rows with
    | [] => Err ValueError
    | g => do zs <- mapM (fun x => do z <- get_zaidnum iso (fst (fst (fst x)) ++ snd (fst (fst x))); Ok (z, x)) g;
           Ok (map snd (sort_by zs))
    end.
End Lib.
