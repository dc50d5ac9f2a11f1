(** Model of the tables and in-line comments of materials: src/f4enix/input/materials.py 287-328 (Element), 668-742
    (SubMaterial), 873-923, 1041-1079, 1098-1112 and 1272-1360 (Material), 1638-1671 (MatCardsList).
    Fractions are exact; a number that numpy would turn into nan or an infinity is [None].  The printed form of the
    in-line numbers is not modelled here. *)
From Verif Require Import PyBase PyStr PyText LibModel D1SModel MatModel.
Open Scope nat_scope.

(** materials.py 222-239 get_fullname with libmanager.py 524-543 get_zaidname on a Zaid object *)
Definition fullname (E : matenv) (z : zaid) : res str :=
  do i <- parse_int (z_elem z);
  do r <- of_opt KeyError (row_by_Z (l_iso (m_lib E)) i);
  do a <- parse_int (z_iso z);
  Ok (if (0 <? a)%Z then r_E r ++ dash :: str_of_Z a else r_E r).
(** s.split("-")[0] *)
Fixpoint before_dash (s : str) : str :=
  match s with c :: s' => if Ascii.eqb c dash then [] else c :: before_dash s' | [] => [] end.

(** materials.py 317-328 Element.get_fraction *)
Definition elem_fraction (zs : list zaid) : Q := qsum (map z_frac zs).
(** materials.py 727-736: the zaid rows of an element: element name, isotope label, fraction *)
Definition zaid_row (E : matenv) (z : zaid) : res (str * str * Q) :=
  do f <- fullname E z;
  Ok (before_dash f, f ++ s2l " [" ++ z_elem z ++ z_iso z ++ s2l "]", z_frac z).
(** materials.py 722-737: the element row carries the element name of its last zaid (elements are never empty: Element(
    []) raises UnboundLocalError) *)
Definition elem_info (E : matenv) (zs : list zaid) : res ((str * Q) * list (str * str * Q)) :=
  do rows <- mapM (zaid_row E) zs;
  match rev rows with
  | [] => Err UnboundLocalError
  | r :: _ => Ok ((fst (fst r), elem_fraction zs), rows)
  end.
(** materials.py 700-742 SubMaterial.get_info: the element table and the zaid table *)
Definition sub_info (E : matenv) (s : submat) : res (list (str * Q) * list (str * str * Q)) :=
  do l <- mapM (elem_info E) (s_elems s);
  Ok (map fst l, concat (map snd l)).

(** one row of either table: element, isotope label (zaid level only), fraction *)
Definition irow : Type := (str * option str * Q)%type.
Definition rows_of (zaids : bool) (t : list (str * Q) * list (str * str * Q)) : list irow :=
  if zaids then map (fun r => (fst (fst r), Some (snd (fst r)), snd r)) (snd t)
  else map (fun r => (fst r, None, snd r)) (fst t).
Definition i_elem (r : irow) : str := fst (fst r).
Definition i_iso (r : irow) : option str := snd (fst r).
Definition i_frac (r : irow) : Q := snd r.
(** a row of df_complete (1322-1331): the columns of other tables are aligned by position *)
Record crow := mkC { c_sub : nat; c_elem : str; c_iso : option str; c_atom : option Q; c_mass : option Q }.
Definition complete (i : nat) (rows ra rm : list irow) : list crow :=
  map (fun kr => mkC i (i_elem (snd kr)) (i_iso (snd kr)) (option_map i_frac (nth_error ra (fst kr))) (option_map i_frac (nth_error rm (fst kr))))
      (combine (seq 0 (length rows)) rows).
(** a row of df_elem (1342-1358) *)
Record erow := mkE { e_sub : nat; e_elem : str; e_frac : Q; e_subfrac : option Q; e_matfrac : option Q }.
(** numpy division *)
Definition ndiv (a b : Q) : option Q := if Qeq_bool b 0 then None else Some (a / b)%Q.
(** 1346-1348 groupby: the distinct keys in increasing order *)
Definition ekey : Type := (nat * str)%type.
Definition key_ltb (a b : ekey) : bool :=
  (fst a <? fst b) || (Nat.eqb (fst a) (fst b) && negb (str_leb (snd b) (snd a))).
Definition key_eqb (a b : ekey) : bool := Nat.eqb (fst a) (fst b) && str_eqb (snd a) (snd b).
Fixpoint insert_key (x : ekey) (l : list ekey) : list ekey :=
  match l with
  | [] => [x]
  | y :: l' => if key_eqb x y then l else if key_ltb x y then x :: l else y :: insert_key x l'
  end.
Definition keys (l : list ekey) : list ekey := fold_right insert_key [] l.
Definition srow : Type := (nat * irow)%type.
Definition s_key (r : srow) : ekey := (fst r, i_elem (snd r)).
Definition fsum (p : srow -> bool) (l : list srow) : Q := qsum (map (fun r => i_frac (snd r)) (filter p l)).
Definition elem_table (df : list srow) : list erow :=
  map (fun k => let f := fsum (fun r => key_eqb (s_key r) k) df in
                mkE (fst k) (snd k) f (ndiv f (fsum (fun r => Nat.eqb (fst r) (fst k)) df)) (ndiv f (fsum (fun _ => true) df)))
      (keys (map s_key df)).
(** 1293-1320: submaterials numbered from 1 *)
Definition numbered {A} (l : list A) : list (nat * A) := combine (seq 1 (length l)) l.
(** materials.py 1272-1360 Material.get_info; pd.concat of no table is a ValueError *)
Definition mat_info (E : matenv) (zaids : bool) (m : material) : res (list crow * list erow) :=
  do sa <- switch_copy Atom E m;
  do sm <- switch_copy Mass E m;
  do ts <- mapM (fun x => do t <- sub_info E (fst x); do ta <- sub_info E (fst (snd x)); do tm <- sub_info E (snd (snd x));
                          Ok (rows_of zaids t, rows_of zaids ta, rows_of zaids tm)) (combine (mt_subs m) (combine sa sm));
  match ts with
  | [] => Err ValueError
  | _ => Ok (concat (map (fun x => complete (fst x) (fst (fst (snd x))) (snd (fst (snd x))) (snd (snd x))) (numbered ts)),
             elem_table (concat (map (fun x => map (fun r => (fst x, r)) (fst (fst (snd x)))) (numbered ts))))
  end.
(** materials.py 1638-1671 MatCardsList.get_info: the rows, each with the name of its material *)
Definition list_info (E : matenv) (zaids : bool) (l : list material) : res (list (str * crow) * list (str * erow)) :=
  do ts <- mapM (fun m => do t <- mat_info E zaids m; Ok (map (fun r => (mt_name m, r)) (fst t), map (fun r => (mt_name m, r)) (snd t))) l;
  match ts with
  | [] => Err ValueError
  | _ => Ok (concat (map fst ts), concat (map snd ts))
  end.

(** the in-line information of a zaid: formula, abundance in its element, mass fraction of its element *)
Record inl := mkinl { in_name : str; in_ab : Q; in_weight : option Q }.
(** materials.py 286-313 update_zaidinfo; Python division *)
Definition update_zaid (E : matenv) (tot : Q) (w : option Q) (z : zaid) : res (zaid * inl) :=
  do f <- fullname E z;
  do a <- qdiv (z_frac z) tot;
  Ok (z, mkinl f (a * 100)%Q w).
(** materials.py 688-692: [rows] is the Sub-Material Fraction column of the submaterial; Element.Z (284) is the element of
    its zaids *)
Definition update_elem (E : matenv) (rows : list (str * option Q)) (e : str) (zs : list zaid) : res (list (zaid * inl)) :=
  do f <- fullname E (mkzaid (-1)%Q e (s2l "000") None);
  do w <- of_opt KeyError (dget str_eqb (before_dash f) rows);
  mapM (update_zaid E (elem_fraction zs) w) zs.
(** materials.py 668-693 SubMaterial._update_info *)
Definition update_sub (E : matenv) (rows : list (str * option Q)) (s : submat) : res (list (list (zaid * inl))) :=
  mapM (fun g => update_elem E rows (fst g) (element_zaids (snd g))) (group_elements (s_zaids s)).
(** materials.py 1098-1112 Material._update_info; .loc of an absent submaterial is a KeyError *)
Definition update_info (E : matenv) (m : material) : res (list (list (list (zaid * inl)))) :=
  do '(m1, _) <- switch_inplace Atom E m;
  do '(m2, _) <- switch_inplace Mass E m1;
  do '(_, el) <- mat_info E false m2;
  mapM (fun x => match filter (fun r => Nat.eqb (e_sub r) (fst x)) el with
                 | [] => Err KeyError
                 | rs => update_sub E (map (fun r => (e_elem r, e_subfrac r)) rs) (snd x)
                 end) (numbered (mt_subs m)).
(** materials.py 1041-1079 Material.translate with its final _update_info: the material afterwards, and the in-line
    information or the exception *)
Definition translate_full (E : matenv) (nl : newlib) (m : material) : material * res (list (list (list (zaid * inl)))) :=
  match translate_mat E nl m with
  | (m', Some e) => (m', Err e)
  | (m', None) => (m', update_info E m')
  end.

(** materials.py 904-911: the zaid of an entry, given as the text str(zaid) *)
Definition entry_zaid (E : matenv) (x : str * Q) : res zaid :=
  match get_zaidnum (l_iso (m_lib E)) (fst x) with
  | Ok n => Ok (mkzaid (snd x) (but3 n) (last3 n) None)
  | Err ValueError => Ok (mkzaid (snd x) (but3 (fst x)) (last3 (fst x)) None)
  | Err e => Err e
  end.
(** materials.py 873-923 Material.from_zaids: the header, the material and its in-line information *)
Definition from_zaids (E : matenv) (zs : list (str * Q)) (lib name : str) (id : Z) : res (str * material * list (list (list (zaid * inl)))) :=
  do l <- mapM (entry_zaid E) zs;
  do s <- translate_sub E (ToLib lib) (mk_submat l);
  let m := mk_material (s2l "M" ++ str_of_Z id) [s] in
  do i <- update_info E m;
  Ok (s2l "C " ++ name, m, i).
