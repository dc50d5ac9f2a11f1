(** Model of src/f4enix/input/ace.py: the files of an xsdir (_xsdir_to_ace_filepaths), the cross section of a list of nuclides
    (_get_xs_zaid_list) and Combination.  The cross sections of a nuclide come from the endf package: they are parameters.
    Numbers are exact. *)
From Verif Require Import PyBase PyStr PyText LibModel MatModel XsModel.
Open Scope nat_scope.

Definition key_eqb (a b : str * str) : bool := str_eqb (fst a) (fst b) && str_eqb (snd a) (snd b).
(** str.isdigit *)
Definition isdigit (s : str) : bool := match s with [] => false | _ => forallb is_digit s end.
(** os.path.join(folder, f) on posix, for a folder without a final separator *)
Definition slash : ascii := "/"%char.
Definition join_path (folder f : str) : str :=
  match f with c :: _ => if Ascii.eqb c slash then f else (match folder with [] => f | _ => folder ++ slash :: f end) | [] => match folder with [] => [] | _ => folder ++ [slash] end end.
(** ace.py 58-77 _xsdir_to_ace_filepaths, for the tables of the file and its folder *)
Definition ace_files (folder : str) (ts : list xtable) : res (list ((str * str) * str)) :=
  foldM (fun d t =>
    do suffix <- of_opt IndexError (nth_error (split_dot (x_name t)) 1);
    Ok (if isdigit (table_zaid t) then
          if dmem key_eqb (table_zaid t, suffix) d then d else dset key_eqb (table_zaid t, suffix) (join_path folder (x_file t)) d
        else d)) [] ts.

(** np.union1d: the values of both, once each, in increasing order *)
Fixpoint qins (x : Q) (l : list Q) : list Q :=
  match l with
  | [] => [x]
  | y :: r => match (x ?= y)%Q with Lt => x :: l | Eq => l | Gt => y :: qins x r end
  end.
Definition union1d (a b : list Q) : list Q := fold_right qins [] (a ++ b).

Section Xs.
  (** the energies of a nuclide (KeyError when it is not in the library), and its tabulated cross section for a type *)
  Variable grid : str -> res (list Q).
  Variable table : str -> nat -> Q -> Q.
  (** the points of a group: np.logspace(log10(a), log10(b), integral_points) *)
  Variable points : Q -> Q -> list Q.

  (** np.trapz(y, x) *)
  Fixpoint trapz (f : Q -> Q) (xs : list Q) : Q :=
    match xs with
    | a :: r => match r with b :: _ => ((b - a) * (f a + f b) / 2 + trapz f r)%Q | [] => 0%Q end
    | [] => 0%Q
    end.
  (** ace.py 316-331 the groups: the first one starts at the lowest energy of the table.  Division by zero gives 0 here and
      nan in numpy. *)
  Fixpoint groups (f : Q -> Q) (low : Q) (es : list Q) : list Q :=
    match es with [] => [] | e :: r => (trapz f (points low e) / (e - low))%Q :: groups f e r end.
  Definition qmin (l : list Q) : Q := match l with [] => 0%Q | x :: r => fold_left (fun a b => if Qle_bool a b then a else b) r x end.
  (** ace.py 316-337 the values of a table on the grid *)
  Definition values (group : option (list Q)) (es : list Q) (low : Q) (f : Q -> Q) : list Q :=
    match group with Some g => groups f low g | None => map f es end.
  Definition addq (a b : list Q) : list Q := map (fun p => (fst p + snd p)%Q) (combine a b).
  Definition nuc_of (z : zaid) : str := z_elem z ++ z_iso z.
  (** ace.py 312-339 the loop over the nuclides for a type: the variable nuc is set after the table is taken *)
  Definition add_zaid (group : option (list Q)) (es : list Q) (low : str -> Q) (line : nat) (s : str * list Q) (z : zaid) : str * list Q :=
    let (nuc, acc) := s in
    (nuc_of z, addq acc (map (fun v => (z_frac z * v)%Q) (values group es (low nuc) (table nuc line)))).
  (** ace.py 308-339: nuc keeps its value from one type to the next *)
  Fixpoint all_types (group : option (list Q)) (es : list Q) (low : str -> Q) (zaids : list zaid) (nuc : str) (line : nat) (types : list str) : list (list Q) :=
    match types with
    | [] => []
    | t :: r => if str_eqb t (s2l "unity") then map (fun _ => 1%Q) es :: all_types group es low zaids nuc (S line) r
                else let (nuc', acc) := fold_left (add_zaid group es low line) zaids (nuc, map (fun _ => 0%Q) es) in
                     acc :: all_types group es low zaids nuc' (S line) r
    end.
  (** ace.py 266-330 _get_xs_zaid_list; [group] is the group structure, if any *)
  Definition get_xs_list (zaids : list zaid) (types : list str) (group : option (list Q)) : res (list Q * list (list Q)) :=
    do gs <- mapM (fun z => grid (nuc_of z)) zaids;
    do es <- (match group with
              | Some g => Ok g
              | None => match gs with [] => Err IndexError | g :: r => Ok (fold_left union1d r g) end
              end);
    let low := fun n => match grid n with Ok g => qmin g | Err _ => 0%Q end in
    Ok (es, all_types group es low zaids (match rev zaids with z :: _ => nuc_of z | [] => [] end) 0 types).
End Xs.

(** ace.py 518-522 Combination.__call__: the operations one after the other, from the left *)
Definition combination (fs : list (Q -> Q)) (ops : list (Q -> Q -> Q)) (x : Q) : res Q :=
  do f <- of_opt IndexError (nth_error fs 0);
  do r <- foldM (fun s op => let '(ans, i) := s in do g <- of_opt IndexError (nth_error fs (S i)); Ok (op ans (g x), S i)) (f x, 0) ops;
  Ok (fst r).
