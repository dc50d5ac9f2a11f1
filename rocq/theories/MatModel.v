(** Model of src/f4enix/input/materials.py: zaids, elements, submaterials, materials and the
    material list.  Fractions are exact rationals ([str(float)] followed by [float] is the identity
    in Python, so the passages through text inside translate and Element lose nothing).
    Headers, additional keys, mx cards and the in-line comments written by _update_info
    (formula, abundance, weight) are not modelled, nor are exceptions raised by _update_info. *)
From Verif Require Import PyBase PyStr PyText LibModel.
Open Scope nat_scope.

(** materials.py 76-131 Zaid *)
Record zaid := mkzaid { z_frac : Q; z_elem : str; z_iso : str; z_lib : option str }.
(** materials.py 128-131 name *)
Definition z_name (z : zaid) : str :=
  z_elem z ++ z_iso z ++ match z_lib z with None => [] | Some l => dot :: l end.
Definition z_num (z : zaid) : str := z_elem z ++ z_iso z.

(** s.split(".") *)
Fixpoint split_dot_aux (cur : str) (s : str) : list str :=
  match s with
  | [] => [rev cur]
  | c :: s' => if Ascii.eqb c dot then rev cur :: split_dot_aux [] s' else split_dot_aux (c :: cur) s'
  end.
Definition split_dot (s : str) : list str := split_dot_aux [] s.
(** materials.py 133-167 from_string, on a name and its fraction *)
Definition zaid_of_name (name : str) (f : Q) : zaid :=
  let pieces := split_dot name in
  let num := match pieces with p :: _ => p | [] => [] end in
  mkzaid f (but3 num) (last3 num) (match pieces with _ :: l :: _ => Some l | _ => None end).

(** materials.py 249-284 Element.__init__ *)
Definition collapse_names (zs : list zaid) : list (str * Q) :=
  fold_left (fun d z => dset str_eqb (z_name z)
      (match dget str_eqb (z_name z) d with Some f => (f + z_frac z)%Q | None => z_frac z end) d) zs [].
Definition element_zaids (zs : list zaid) : list zaid :=
  map (fun nf => zaid_of_name (fst nf) (snd nf)) (collapse_names zs).
(** materials.py 477-497 _collapse_zaids *)
Definition group_elements (zs : list zaid) : list (str * list zaid) :=
  fold_left (fun d z => dset str_eqb (z_elem z)
      (match dget str_eqb (z_elem z) d with Some l => l ++ [z] | None => [z] end) d) zs [].
Definition collapse (zs : list zaid) : list (list zaid) :=
  map (fun el => element_zaids (snd el)) (group_elements zs).

(** materials.py 332-402 SubMaterial: the zaid list and the elements (lists of zaids) *)
Record submat := mksub { s_zaids : list zaid; s_elems : list (list zaid) }.
Definition mk_submat (zs : list zaid) : submat := mksub zs (collapse zs).

(** the argument newlib of translate, materials.py 566-575 *)
Inductive newlib :=
| ToLib (l : str)
| ByOldLib (d : list (str * str))
| ByZaid (d : list (str * list str)).
(** materials.py 587-621 *)
Definition pick_lib (nl : newlib) (z : zaid) : res str :=
  match nl with
  | ToLib l => Ok l
  | ByOldLib d => match z_lib z with
                  | None => Err ValueError
                  | Some l => of_opt ValueError (dget str_eqb l d)
                  end
  | ByZaid d => match find (fun lz => memb str_eqb (z_num z) (snd lz)) d with
                | Some (l, _) => Ok l
                | None => Err ValueError
                end
  end.

(** library manager plus its dosimetry libraries *)
Record matenv := mkmenv { m_lib : libman; m_dosim : list str }.
(** materials.py 623-644: the translation of one zaid; None when it is ignored *)
Definition zaid_translation (E : matenv) (nl : newlib) (z : zaid) : res (option (list (str * transl))) :=
  do tag <- pick_lib nl z;
  if match z_lib z with Some l => memb str_eqb l (m_dosim E) | None => false end
  then Ok (Some [(z_num z, (z_lib z, 1%Q, 1%Q))])
  else match convertZaid (m_lib E) (z_num z) tag with
       | Ok tr => Ok (Some tr)
       | Err ValueError => Ok None
       | Err e => Err e
       end.
(** materials.py 646-663: the new zaids; ZeroDivisionError when the weights add up to 0 *)
Definition new_zaids (z : zaid) (tr : list (str * transl)) : res (list zaid) :=
  if Qlt_le_dec (z_frac z) 0
  then let ref := qsum (map (fun kv => (snd (fst (snd kv)) * snd (snd kv))%Q) tr) in
       mapM (fun kv => if Qeq_bool ref 0 then Err ZeroDivisionError
                       else Ok (mkzaid (snd (fst (snd kv)) * snd (snd kv) / ref * z_frac z)%Q
                                       (but3 (fst kv)) (last3 (fst kv)) (fst (fst (snd kv))))) tr
  else Ok (map (fun kv => mkzaid (snd (fst (snd kv)) * z_frac z)%Q (but3 (fst kv)) (last3 (fst kv)) (fst (fst (snd kv)))) tr).
(** materials.py 559-666 SubMaterial.translate *)
Definition translate_zaid (E : matenv) (nl : newlib) (z : zaid) : res (list zaid) :=
  do o <- zaid_translation E nl z;
  match o with Some tr => new_zaids z tr | None => Ok [] end.
Definition translate_sub (E : matenv) (nl : newlib) (s : submat) : res submat :=
  do l <- mapM (translate_zaid E nl) (s_zaids s);
  Ok (mk_submat (concat l)).

(** materials.py 744-762 scale_fractions *)
Definition scale_sub (k : Q) (s : submat) : submat :=
  mk_submat (map (fun z => mkzaid (z_frac z * k)%Q (z_elem z) (z_iso z) (z_lib z)) (s_zaids s)).

(** materials.py 807-871 Material: its submaterials *)
Record material := mkmat { mt_name : str; mt_subs : list submat }.
(** materials.py 851-866: an empty first submaterial is dropped *)
Definition mk_material (name : str) (subs : list submat) : material :=
  mkmat name (match subs with s :: rest => match s_zaids s with [] => rest | _ => subs end | [] => [] end).
(** materials.py 1041-1079 translate; a submaterial that raises leaves the earlier ones
    translated: the material reached and the exception *)
Fixpoint translate_subs (E : matenv) (nl : newlib) (l : list submat) : list submat * option exn :=
  match l with
  | [] => ([], None)
  | s :: l' => match translate_sub E nl s with
               | Err e => (s :: l', Some e)
               | Ok s' => let (r, o) := translate_subs E nl l' in (s' :: r, o)
               end
  end.
Definition translate_mat (E : matenv) (nl : newlib) (m : material) : material * option exn :=
  let (l, o) := translate_subs E nl (mt_subs m) in (mkmat (mt_name m) l, o).

(** materials.py 1081-1090 get_tot_fraction *)
Definition all_zaids (m : material) : list zaid := concat (map s_zaids (mt_subs m)).
Definition tot_fraction (m : material) : Q := qsum (map z_frac (all_zaids m)).

(** libmanager.get_zaid_mass of a zaid *)
Definition zmass (E : matenv) (z : zaid) : res Q := get_zaid_mass (l_iso (m_lib E)) (z_elem z) (z_iso z).
Definition with_frac (z : zaid) (f : Q) : zaid := mkzaid f (z_elem z) (z_iso z) (z_lib z).
Definition qdiv (a b : Q) : res Q := if Qeq_bool b 0 then Err ZeroDivisionError else Ok (a / b)%Q.

Inductive ftype := Atom | Mass.
(** materials.py 1150-1156 and 1182-1186: the normalisation *)
Definition weight_of (t : ftype) (E : matenv) (z : zaid) : res Q :=
  do m <- zmass E z;
  match t with Atom => do q <- qdiv (- z_frac z)%Q m; Ok q | Mass => Ok (z_frac z * m)%Q end.
(** materials.py 1159-1178 and 1188-1207: the new fraction of a zaid *)
Definition switched (t : ftype) (E : matenv) (norm : Q) (z : zaid) : res zaid :=
  do w <- weight_of t E z;
  do f <- qdiv (match t with Atom => w | Mass => (- w)%Q end) norm;
  Ok (with_frac z f).
Definition must_switch (t : ftype) (tot : Q) : bool :=
  match t with Atom => negb (Qle_bool 0 tot) | Mass => negb (Qle_bool tot 0) end.
(** materials.py 1114-1211 switch_fraction.  [switch_subs] computes the switched submaterials. *)
Definition switch_subs (t : ftype) (E : matenv) (m : material) : res (list submat) :=
  do ws <- mapM (weight_of t E) (all_zaids m);
  mapM (fun s => do zs <- mapM (switched t E (qsum ws)) (s_zaids s); Ok (mk_submat zs)) (mt_subs m).
(** inplace=True: the new state of the material and the returned list (the copies get no zaids) *)
Definition switch_inplace (t : ftype) (E : matenv) (m : material) : res (material * list submat) :=
  if must_switch t (tot_fraction m)
  then do subs <- switch_subs t E m;
       Ok (mkmat (mt_name m) subs, map (fun _ => mk_submat []) subs)
  else Ok (m, mt_subs m).
(** inplace=False: the returned list; the material is not changed *)
Definition switch_copy (t : ftype) (E : matenv) (m : material) : res (list submat) :=
  if must_switch t (tot_fraction m) then switch_subs t E m else Ok (mt_subs m).

(** constants.py 224 AVOGADRO_NUMBER times 1e-24: any positive constant; kept as a parameter *)
(** lib_manager.isotopes["Atomic Mass"].loc[zaid.name.split(".")[0]] *)
Definition table_mass (E : matenv) (z : zaid) : res Q :=
  match find (fun r => str_eqb (r_idx r) (before_dot (z_name z))) (l_iso (m_lib E)) with
  | Some r => Ok (r_mass r)
  | None => Err KeyError
  end.
(** materials.py 1213-1240 get_tad: the material afterwards and the answer *)
Definition get_tad (nav : Q) (E : matenv) (density : Q) (m : material) : res (material * Q) :=
  do '(m1, _) <- switch_inplace Atom E m;
  let tot := tot_fraction m1 in
  do parts <- mapM (fun z => do q <- qdiv (z_frac z) tot; do a <- table_mass E z; Ok (q * a)%Q) (all_zaids m1);
  do d <- qdiv density (qsum parts);
  Ok (m1, (d * nav)%Q).
(** materials.py 1242-1270 get_density *)
Definition get_density (nav : Q) (E : matenv) (tad : Q) (m : material) : res (material * Q) :=
  do '(m1, _) <- switch_inplace Mass E m;
  let tot := tot_fraction m1 in
  do parts <- mapM (fun z => do q <- qdiv (z_frac z) tot; do a <- table_mass E z; qdiv q a) (all_zaids m1);
  do mn <- qdiv 1 (qsum parts);
  Ok (m1, (tad / nav * mn)%Q).
(** materials.py 1362-1387 fractions_to_atom_densities *)
Definition fractions_to_atom_densities (nav : Q) (E : matenv) (density : Q) (m : material) : res material :=
  do '(m1, _) <- switch_inplace Mass E m;
  do '(m2, _) <- switch_inplace Atom E m1;
  do '(m3, tad) <- get_tad nav E density m2;
  Ok (mkmat (mt_name m3) (map (scale_sub tad) (mt_subs m3))).

(** str.upper() on ASCII *)
Definition upper_c (c : ascii) : ascii :=
  let n := N_of_ascii c in if ((97 <=? n) && (n <=? 122))%N then ascii_of_N (n - 32) else c.
Definition upper (s : str) : str := map upper_c s.

(** materials.py 1390-1466 MatCardsList over any kind of entries with names: the list and its
    dictionary.  Entries have an identity, since list.remove compares objects. *)
Section MatList.
  Context {A : Type} (name : A -> str) (same : A -> A -> bool).
  Record matlist := mkml { ml_list : list A; ml_dic : list (str * A) }.
  (* 1461-1465 *)
  Definition compute_dic (l : list A) : list (str * A) :=
    fold_left (fun d m => dset str_eqb (upper (name m)) m d) l [].
  (* 1391-1427 *)
  Definition ml_new (l : list A) : matlist := mkml l (compute_dic l).
  (* 1438-1442 *)
  Definition ml_get (L : matlist) (key : str) : res A := of_opt KeyError (dget str_eqb (upper key) (ml_dic L)).
  (* 1444-1446 *)
  Definition ml_append (L : matlist) (m : A) : matlist := ml_new (ml_list L ++ [m]).
  (* 1448-1455: the dictionary is not updated inside the loop *)
  Definition ml_extend (L : matlist) (ms : list A) : matlist :=
    ml_new (fold_left (fun l m => if dmem str_eqb (upper (name m)) (ml_dic L) then l else l ++ [m]) ms (ml_list L)).
  (* 1457-1459 *)
  Definition ml_remove (L : matlist) (m : A) : matlist * option exn :=
    if existsb (same m) (ml_list L) then (ml_new (remove_first (same m) (ml_list L)), None) else (L, Some ValueError).
End MatList.
Arguments matlist : clear implicits.

(** materials.py 1579-1618 MatCardsList.translate *)
Fixpoint translate_list (E : matenv) (nl : newlib) (l : list material) : list material * option exn :=
  match l with
  | [] => ([], None)
  | m :: l' => match translate_mat E nl m with
               | (m', Some e) => (m' :: l', Some e)
               | (m', None) => let (r, o) := translate_list E nl l' in (m' :: r, o)
               end
  end.
(** materials.py 1719-1752: the contribution of one source material, a copy of the listed one
    (1747-1751: IndexError when it has no submaterial) *)
Definition contribution (E : matenv) (t : ftype) (L : matlist material) (np : str * Q) : res (list submat) :=
  do m <- ml_get L (upper (fst np));
  do '(m1, _) <- switch_inplace t E m;
  let tot := tot_fraction m1 in
  do group <- mapM (fun s => do k <- qdiv (snd np) tot; Ok (scale_sub (match t with Atom => k | Mass => (- k)%Q end) s)) (mt_subs m1);
  match group with [] => Err IndexError | _ => Ok group end.
(** materials.py 1712-1714 ^M\d{1,7}$ : the mat_name is replaced by M1 when invalid ("$" also
    accepts one final newline) *)
Definition valid_mat_name (s : str) : bool :=
  match s with
  | c :: ds => let ds := match rev ds with n :: r => if Ascii.eqb n nl then rev r else ds | [] => ds end in
               Ascii.eqb c "M"%char && forallb is_digit ds && Nat.leb 1 (length ds) && Nat.leb (length ds) 7
  | [] => false
  end.
(** materials.py 1673-1762 generate_material: the material list afterwards and the new material *)
Definition generate_material (E : matenv) (L : matlist material) (names : list str) (percs : list Q) (lib : str) (t : ftype)
  (mat_name : str) : res (matlist material * material) :=
  match translate_list E (ToLib lib) (ml_list L) with
  | (_, Some e) => Err e
  | (l, None) =>
      let L1 := ml_new mt_name l in
      do groups <- mapM (contribution E t L1) (combine names percs);
      Ok (L1, mk_material (if valid_mat_name mat_name then mat_name else s2l "M1") (concat groups))
  end.
