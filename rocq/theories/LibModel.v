(** Model of src/f4enix/input/libmanager.py (LibManager, IsotopeDataParser) and of the table
    look-ups of src/f4enix/input/xsdirpyne.py (Xsdir).  A library manager is seen through the
    libraries loaded for one MCNP-type code ("mcnp", "d1s" or "serpent"): for each library suffix
    the (zaid, suffix) pairs of its xsdir file.  Numbers of the isotope table are exact decimals. *)
From Verif Require Import PyBase PyStr PyText.
Open Scope nat_scope.

(** one row of the isotope table, libmanager.py 51-56 *)
Record isorow := mkrow {
  r_Z : N; r_E : str; r_name : str; r_A : N; r_abund : Q; r_idx : str; r_mass : Q }.

(** s[:-3] and s[-3:] *)
Definition but3 (s : str) : str := firstn (length s - 3) s.
Definition last3 (s : str) : str := skipn (length s - 3) s.
Definition zeros3 : str := s2l "000".

(** "{:03d}".format(n), "{:0>3}".format(n) for n >= 0 *)
Definition fmt03 (n : N) : str := let s := str_of_N n in repeat "0"%char (3 - length s) ++ s.

(** xsdirpyne.py 85-92: (name[:-4], name[-3:]) of a table name *)
Definition table_key (name : str) : str * str := (firstn (length name - 4) name, last3 name).
(** the tables of one xsdir file, as (zaid, suffix) pairs *)
Definition xsdir := list (str * str).
(** xsdirpyne.py 237-243 _precompute_available_libs *)
Definition available_libraries (x : xsdir) : list (str * list str) :=
  fold_left (fun d t => dset str_eqb (fst t)
     (match dget str_eqb (fst t) d with Some l => l ++ [snd t] | None => [snd t] end) d) x [].
(** xsdirpyne.py 214-235 zaid_has_table *)
Definition zaid_has_table (x : xsdir) (zaid lib : str) : bool :=
  match dget str_eqb zaid (available_libraries x) with
  | Some l => memb str_eqb lib l
  | None => false
  end.

(** the loaded libraries of a code (libmanager.py 213-277, data[code]), the default library and
    the isotope table *)
Record libman := mklib {
  l_data : list (str * xsdir); l_default : str; l_iso : list isorow }.
(** self.libraries[code] *)
Definition libraries (m : libman) : list str := dkeys (l_data m).

(** libmanager.py 301-333 check4zaid *)
Definition check4zaid (m : libman) (zaid : str) : list str :=
  map fst (filter (fun lx => zaid_has_table (snd lx) zaid (fst lx)) (l_data m)).

(** libmanager.py 343-358 expand_element *)
Definition expand_element (m : libman) (e : str) : list isorow :=
  filter (fun r => str_eqb (r_E r) e) (l_iso m).

(** a translated zaid: library (None: left unassigned), abundance and atomic mass *)
Definition transl := (option str * Q * Q)%type.
(** self.data[code][self.defaultlib]: KeyError when the default library is not loaded *)
Definition default_has (m : libman) (zaid : str) : res bool :=
  do x <- of_opt KeyError (dget str_eqb (l_default m) (l_data m));
  Ok (zaid_has_table x zaid (l_default m)).

(** libmanager.py 400-426, the loop over the isotopes of the element *)
Definition expand_step (m : libman) (x : xsdir) (lib : str) (tr : list (str * transl)) (r : isorow)
  : res (list (str * transl)) :=
  do newlib <- (if zaid_has_table x (r_idx r) lib then Ok lib
                else do b <- default_has m (r_idx r);
                     if (b : bool) then Ok (l_default m) else Err ValueError);
  Ok (dset str_eqb (r_idx r) (Some newlib, r_abund r, r_mass r) tr).

(** last character, for library[-1] == lib[-1] (suffixes are never empty in an xsdir) *)
Definition last_char (s : str) : option ascii := match rev s with c :: _ => Some c | [] => None end.
Definition same_type (a b : str) : bool :=
  match last_char a, last_char b with Some x, Some y => Ascii.eqb x y | _, _ => false end.

(** libmanager.py 360-465 convertZaid, for an MCNP-type code *)
Definition convertZaid (m : libman) (zaid lib : str) : res (list (str * transl)) :=
  match dget str_eqb lib (l_data m) with
  | None => Err ValueError
  | Some x =>
    if str_eqb (last3 zaid) zeros3 then
      if zaid_has_table x zaid lib then Ok [(zaid, (Some lib, 1%Q, 1%Q))]
      else do z <- parse_int (but3 zaid);
           foldM (expand_step m x lib) [] (filter (fun r => Z.eqb (Z.of_N (r_Z r)) z) (l_iso m))
    else if memb str_eqb lib (check4zaid m zaid) then Ok [(zaid, (Some lib, 1%Q, 1%Q))]
    else
      let natzaid := but3 zaid ++ zeros3 in
      if zaid_has_table x natzaid lib then Ok [(natzaid, (Some lib, 1%Q, 1%Q))]
      else do b <- default_has m zaid;
           if (b : bool) then Ok [(zaid, (Some (l_default m), 1%Q, 1%Q))]
           else if existsb (fun l => same_type l lib) (check4zaid m zaid)
                then Ok [(zaid, (None, 1%Q, 1%Q))]
                else Err ValueError
  end.

(** libmanager.py 467-500 get_libzaids with xsdirpyne.py 263-284 find_zaids, the tables being
    kept as (zaid, suffix) pairs: table.name.split(".")[0] and [-1] of "zaid.suffix" *)
Definition get_libzaids (m : libman) (lib : str) : list str :=
  match dget str_eqb lib (l_data m) with
  | None => []
  | Some x => fold_left (fun zs t => if str_eqb (snd t) lib
                then (if memb str_eqb (fst t) zs then zs else zs ++ [fst t]) else zs) x []
  end.

(** libmanager.py 290-299: first row of each Z (newiso_byZ) and of each E (newiso_byE) *)
Definition row_by_Z (t : list isorow) (z : Z) : option isorow :=
  find (fun r => Z.eqb (Z.of_N (r_Z r)) z) t.
Definition row_by_E (t : list isorow) (e : str) : option isorow :=
  find (fun r => str_eqb (r_E r) e) t.

Definition dash : ascii := "-"%char.
(** libmanager.py 505-543 get_zaidname on a zaid given as text *)
Definition get_zaidname (t : list isorow) (zaid : str) : res (str * str) :=
  let z0 := before_dot zaid in
  do i <- parse_int (but3 z0);
  do r <- of_opt KeyError (row_by_Z t i);
  do a <- parse_int (last3 z0);
  Ok (r_name r, if (0 <? a)%Z then r_E r ++ dash :: str_of_Z a else r_E r).

(** the patterns [a-zA-Z]+ and \d+ *)
Definition is_letter (c : ascii) : bool :=
  let n := N_of_ascii c in ((65 <=? n) && (n <=? 90) || (97 <=? n) && (n <=? 122))%N.
Fixpoint span_letters (s : str) : str * str :=
  match s with
  | c :: s' => if is_letter c then let (a, b) := span_letters s' in (c :: a, b) else ([], s)
  | [] => ([], [])
  end.
Fixpoint first_letters (s : str) : option str :=
  match s with
  | [] => None
  | c :: s' => if is_letter c then Some (fst (span_letters s)) else first_letters s'
  end.

(** libmanager.py 545-585 get_zaidnum *)
Definition get_zaidnum (t : list isorow) (f : str) : res str :=
  do name <- of_opt ValueError (first_letters f);
  do r <- of_opt KeyError (row_by_E t name);
  let num := match first_digits f with Some ds => num_of ds | None => 0%N end in
  Ok (str_of_N (r_Z r) ++ fmt03 num).

(** libmanager.py 58-78 get_formulazaid: the pattern is matched at the start of the text *)
Definition get_formulazaid (t : list isorow) (f : str) : res str :=
  let (name, r) := span_letters f in
  let (ds, _) := span_digits r in
  match name, ds with
  | [], _ | _, [] => Err AttributeError
  | _, _ => do r <- of_opt IndexError (row_by_E t name);
            Ok (str_of_N (r_Z r) ++ fmt03 (num_of ds))
  end.

(** libmanager.py 587-606 is_lib_available, for the codes whose loaded libraries are given *)
Definition is_lib_available (codes : list libman) (lib : str) : bool :=
  forallb (fun m => memb str_eqb lib (libraries m)) codes.

(** libmanager.py 608-632 get_zaid_mass: element and isotope parts of the zaid *)
Definition get_zaid_mass (t : list isorow) (element isotope : str) : res Q :=
  match find (fun r => str_eqb (r_idx r) (element ++ isotope)) t with
  | Some r => Ok (r_mass r)
  | None =>
      do z <- parse_int element;
      match filter (fun r => Z.eqb (Z.of_N (r_Z r)) z) t with
      | [] => Err KeyError
      | rows => Ok (qsum (map (fun r => (r_mass r * r_abund r)%Q) rows))
      end
  end.

(** one row of an activation library sheet: Parent, MT, Daughter (libmanager.py 279-288) *)
Record reacrow := mkreac { a_parent : str; a_mt : Z; a_daughter : str }.
(** libmanager.py 668-674 / 680-686: the number of a daughter, "900" appended when metastable *)
Definition daughter_num (t : list isorow) (d : str) : res str :=
  match rev d with
  | [] => Err IndexError
  | c :: rest => if Ascii.eqb c "m"%char
                 then do n <- get_zaidnum t (rev rest); Ok (n ++ s2l "900")
                 else get_zaidnum t d
  end.
(** the loop of libmanager.py 664-675 under "except KeyError: pass": what was collected before a
    KeyError is returned *)
Fixpoint reac_loop (t : list isorow) (acc : list (str * str)) (l : list reacrow) : res (list (str * str)) :=
  match l with
  | [] => Ok acc
  | r :: l' => match daughter_num t (a_daughter r) with
               | Ok d => reac_loop t (acc ++ [(str_of_Z (a_mt r), d)]) l'
               | Err KeyError => Ok acc
               | Err e => Err e
               end
  end.
(** formula.replace("-", "") *)
Definition no_dash (s : str) : str := filter (fun c => negb (Ascii.eqb c dash)) s.
(** libmanager.py 634-685 get_reactions *)
Definition get_reactions (t : list isorow) (sheets : list (str * list reacrow)) (lib parent : str)
  : res (list (str * str)) :=
  match dget str_eqb lib sheets with
  | None => Ok []
  | Some df =>
      match get_zaidname t parent with
      | Err KeyError => Ok []
      | Err e => Err e
      | Ok (_, f) => reac_loop t [] (filter (fun r => str_eqb (a_parent r) (no_dash f)) df)
      end
  end.
