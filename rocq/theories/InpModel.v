(** Model of src/f4enix/input/MCNPinput.py (class CardsDict and class Input): dictionaries of
    cards, merging, renumbering, extraction.

    The parser numjuggler is not part of /repo.  A card is seen through what MCNPinput.py uses of
    it: its name, its list of (number, type) values, the template of its text with one hole per
    value, and the texts hidden behind the "~" marks of the template.  Assumed of numjuggler:
    card() puts the values back, in order, in the holes (left justified in the width of the hole)
    and the hidden texts in the "~" marks (comments are kept apart from the template and are not
    modelled); apply_map rewrites each value by the function of its
    type, "fill" numbers by the function of "u"; get_m/get_u/get_f return the first value of type
    mat/u/fill (the caching of these three is not modelled); get_refcells the values of type cel
    after the first; _set_value_by_type rewrites the first value of that type.

    Python card objects have an identity and are shared between dictionaries, so cards live in
    a heap and the dictionaries hold their addresses. *)
From Verif Require Import PyBase PyStr PyText LibModel MatModel.
Open Scope nat_scope.

Inductive kind := Kcel | Ksur | Kmat | Ku | Kfill | Ktr | Kother.
Definition kind_eqb (a b : kind) : bool :=
  match a, b with
  | Kcel, Kcel | Ksur, Ksur | Kmat, Kmat | Ku, Ku | Kfill, Kfill | Ktr, Ktr | Kother, Kother => true
  | _, _ => false
  end.

(** one character of a template line, or a "{:<w}" hole *)
Inductive titem := Ch (c : ascii) | Hole (w : nat).
Definition tline := list titem.

Record card := mkCard {
  c_name : option Z;                (* card.name; None: reading it raises AttributeError *)
  c_values : list (Z * kind);       (* card.values *)
  c_input : list tline;             (* card.input, the template *)
  c_hidden : list str }.            (* card.hidden["~"] *)

Definition tilde : ascii := "~"%char.
(** "{:<w}".format *)
Definition ljust (w : nat) (s : str) : str := s ++ repeat sp (w - length s).
(** the text of a template line; the values and the hidden texts that are left *)
Fixpoint fill (t : tline) (vs : list Z) (hs : list str) : res (str * (list Z * list str)) :=
  match t with
  | [] => Ok ([], (vs, hs))
  | Ch c :: t' =>
      if Ascii.eqb c tilde
      then match hs with
           | h :: hs' => do '(s, r) <- fill t' vs hs'; Ok (h ++ s, r)
           | [] => do '(s, r) <- fill t' vs hs; Ok (c :: s, r)
           end
      else do '(s, r) <- fill t' vs hs; Ok (c :: s, r)
  | Hole w :: t' =>
      match vs with
      | v :: vs' => do '(s, r) <- fill t' vs' hs; Ok (ljust w (str_of_Z v) ++ s, r)
      | [] => Err IndexError
      end
  end.
Fixpoint fill_lines (ls : list tline) (vs : list Z) (hs : list str) : res (list str) :=
  match ls with
  | [] => Ok []
  | l :: ls' => do '(s, (vs', hs')) <- fill l vs hs; do r <- fill_lines ls' vs' hs'; Ok (s :: r)
  end.
(** the lines of card.card() *)
Definition card_text (c : card) : res (list str) := fill_lines (c_input c) (map fst (c_values c)) (c_hidden c).

(** 2164-2174 _get_card_key on the lines of the text: the lines are re-ended by "\n" *)
Fixpoint key_of_lines (ls : list str) : res str :=
  match ls with
  | [] => Err ValueError
  | [] :: ls' => key_of_lines ls'
  | l :: ls' => if pat_comment (l ++ [nl]) then key_of_lines ls'
                else match split l with w :: _ => Ok (upper w) | [] => Err IndexError end
  end.
Definition card_key (c : card) : res str := do ls <- card_text c; key_of_lines ls.

(** numjuggler getters, see the header *)
Definition first_of (k : kind) (vs : list (Z * kind)) : option Z :=
  option_map fst (find (fun v => kind_eqb (snd v) k) vs).
Definition get_m (c : card) : option Z := first_of Kmat (c_values c).
Definition get_u (c : card) : option Z := first_of Ku (c_values c).
Definition get_f (c : card) : option Z := first_of Kfill (c_values c).
Definition get_refcells (c : card) : list Z :=
  map fst (filter (fun v => kind_eqb (snd v) Kcel) (tl (c_values c))).
Fixpoint set_first (k : kind) (z : Z) (vs : list (Z * kind)) : list (Z * kind) :=
  match vs with
  | [] => []
  | (v, k') :: vs' => if kind_eqb k' k then (z, k') :: vs' else (v, k') :: set_first k z vs'
  end.
Definition with_values (c : card) (vs : list (Z * kind)) : card := mkCard (c_name c) vs (c_input c) (c_hidden c).
Definition rename (k : kind) (z : Z) (c : card) : card := mkCard (Some z) (set_first k z (c_values c)) (c_input c) (c_hidden c).

Definition loc := nat.
Definition heap := list card.
Definition cdict := list (str * loc).
Fixpoint hset (h : heap) (l : loc) (c : card) : heap :=
  match h, l with
  | [], _ => []
  | _ :: h', O => c :: h'
  | x :: h', S l' => x :: hset h' l' c
  end.
Definition hget (h : heap) (l : loc) : res card := of_opt AttributeError (nth_error h l).

(** 88-270 an Input *)
Record input := mkInp {
  i_cells : cdict; i_surfs : cdict; i_mats : matlist material; i_trans : cdict; i_other : cdict;
  i_tallies : list Z; i_fmesh : list Z; i_header : list str }.

(** 73-77 / 303-306: key[1:] when the key contains an asterisk *)
Definition key_num (key : str) : str := if memb Ascii.eqb "*"%char key then tl key else key.
(** 78-83, 285-290, 307-310: the number in the key takes precedence over the card *)
Definition force_num (k : kind) (num : str) (h : heap) (l : loc) : res heap :=
  do c <- hget h l;
  do n <- of_opt AttributeError (c_name c);
  if str_eqb num (str_of_Z n) then Ok h
  else do z <- parse_int num; Ok (hset h l (rename k z c)).

(** 63-87 CardsDict.__setitem__ *)
Definition setitem (k : kind) (h : heap) (d : cdict) (key : str) (l : loc) : res (heap * cdict) :=
  do h' <- force_num k (key_num key) h l; Ok (h', dset str_eqb key l d).

(** 276-288 cells setter, 299-312 surfs setter *)
Definition cells_setter (h : heap) (d : cdict) : res heap :=
  foldM (fun h kl => force_num Kcel (fst kl) h (snd kl)) h d.
Definition surfs_setter (h : heap) (d : cdict) : res heap :=
  foldM (fun h kl => force_num Ksur (key_num (fst kl)) h (snd kl)) h d.

(** 410-415 _safe_dict_update on a CardsDict; the state reached when it raises *)
Fixpoint safe_update (k : kind) (h : heap) (d : cdict) (ext : cdict) : (heap * cdict) * option exn :=
  match ext with
  | [] => ((h, d), None)
  | (key, l) :: ext' =>
      if dmem str_eqb key d then ((h, d), Some KeyError)
      else match setitem k h d key l with
           | Ok (h', d') => safe_update k h' d' ext'
           | Err e => ((h, d), Some e)
           end
  end.
(** the same on a plain dictionary *)
Fixpoint safe_update_plain (d : cdict) (ext : cdict) : cdict * option exn :=
  match ext with
  | [] => (d, None)
  | (key, l) :: ext' =>
      if dmem str_eqb key d then (d, Some KeyError) else safe_update_plain (dset str_eqb key l d) ext'
  end.
(** dict.update *)
Definition dupdate (d ext : cdict) : cdict := fold_left (fun d kl => dset str_eqb (fst kl) (snd kl) d) ext d.

(** 384-408 merge with ensure_updated_dicts=False *)
Definition merge (h : heap) (a b : input) : (heap * input) * option exn :=
  let set_cells c := mkInp c (i_surfs a) (i_mats a) (i_trans a) (i_other a) (i_tallies a) (i_fmesh a) (i_header a) in
  match safe_update Kcel h (i_cells a) (i_cells b) with
  | ((h1, cs), Some e) => ((h1, set_cells cs), Some e)
  | ((h1, cs), None) =>
      match safe_update Ksur h1 (i_surfs a) (i_surfs b) with
      | ((h2, ss), Some e) =>
          ((h2, mkInp cs ss (i_mats a) (i_trans a) (i_other a) (i_tallies a) (i_fmesh a) (i_header a)), Some e)
      | ((h2, ss), None) =>
          let ms := ml_extend mt_name (i_mats a) (ml_list (i_mats b)) in
          match safe_update_plain (i_trans a) (i_trans b) with
          | (ts, Some e) => ((h2, mkInp cs ss ms ts (i_other a) (i_tallies a) (i_fmesh a) (i_header a)), Some e)
          | (ts, None) =>
              ((h2, mkInp cs ss ms ts (dupdate (i_other a) (i_other b)) (i_tallies a ++ i_tallies b)
                      (i_fmesh a ++ i_fmesh b) (i_header a)), None)
          end
      end
  end.

(** 428-432 the new dictionary of one block *)
Definition rekey (h : heap) (d : cdict) : res cdict :=
  foldM (fun nd kl => do c <- hget h (snd kl); do key <- card_key c; Ok (dset str_eqb key (snd kl) nd)) [] d.
(** 417-437 _update_card_keys (successful runs; an exception leaves the input unchanged except
    for cards renamed by the setters) *)
Definition update_card_keys (h : heap) (a : input) : res (heap * input) :=
  do cs <- rekey h (i_cells a); do ss <- rekey h (i_surfs a);
  do os <- rekey h (i_other a); do ts <- rekey h (i_trans a);
  do h1 <- cells_setter h cs; do h2 <- surfs_setter h1 ss;
  Ok (h2, mkInp cs ss (i_mats a) ts os (i_tallies a) (i_fmesh a) (i_header a)).

(** 471-491: the offset function of a type of number *)
Definition renum_fn (off z : Z) : Z := if (z =? 0)%Z then 0%Z else (z + off)%Z.
Record offsets := mkOff { o_cel : option Z; o_sur : option Z; o_u : option Z; o_tr : option Z }.
(** 471-473 renum_all trumps the others *)
Definition renum_all (o : Z) : offsets := mkOff (Some o) (Some o) (Some o) (Some o).
Definition offset_of (o : offsets) (k : kind) : option Z :=
  match k with
  | Kcel => o_cel o | Ksur => o_sur o | Ku | Kfill => o_u o | Ktr => o_tr o | _ => None
  end.
Definition renum_val (o : offsets) (v : Z * kind) : Z * kind :=
  match offset_of o (snd v) with Some off => (renum_fn off (fst v), snd v) | None => v end.
(** numjuggler apply_map *)
Definition apply_map (o : offsets) (c : card) : card := with_values c (map (renum_val o) (c_values c)).
Definition renum_dict (o : offsets) (h : heap) (d : cdict) : res heap :=
  foldM (fun h kl => do c <- hget h (snd kl); Ok (hset h (snd kl) (apply_map o c))) h d.
(** 439-495 renumber *)
Definition renumber (o : offsets) (update_keys : bool) (h : heap) (a : input) : res (heap * input) :=
  do h1 <- renum_dict o h (i_cells a); do h2 <- renum_dict o h1 (i_surfs a);
  do h3 <- renum_dict o h2 (i_other a); do h4 <- renum_dict o h3 (i_trans a);
  if update_keys then update_card_keys h4 a else Ok (h4, a).

(** 616-629 _get_cards_by_id *)
Definition star (s : str) : str := "*"%char :: s.
Definition get_cards_by_id (ids : list str) (d : cdict) : res cdict :=
  foldM (fun sel id =>
    match dget str_eqb id d with
    | Some l => Ok (dset str_eqb id l sel)
    | None => match dget str_eqb (star id) d with
              | Some l => Ok (dset str_eqb (star id) l sel)
              | None => Err KeyError
              end
    end) [] ids.

(** deepcopy of a dictionary of cards: fresh cards at the end of the heap *)
Definition copy_dict (h : heap) (d : cdict) : res (heap * cdict) :=
  foldM (fun hd kl => do c <- hget (fst hd) (snd kl); Ok (fst hd ++ [c], snd hd ++ [(fst kl, length (fst hd))]))
        (h, []) d.

Definition zmem (z : Z) (l : list Z) : bool := memb Z.eqb z l.
(** one round of the loop of 952-986 _collect_hash_uni: the cells referenced by [front], and the
    cells of the universes that fill them; KeyError on an unknown cell *)
Definition collect_step (h : heap) (cells : cdict) (fillers : bool) (front : list Z) : res (list Z) :=
  do cs <- mapM (fun n => do l <- of_opt KeyError (dget str_eqb (str_of_Z n) cells); hget h l) front;
  let refs := concat (map get_refcells cs) in
  if fillers then
    let unis := concat (map (fun c => match get_f c with Some f => [f] | None => [] end) cs) in
    do us <- mapM (fun kl => do c <- hget h (snd kl);
                             match get_u c with
                             | Some u => if zmem u unis
                                         then match c_values c with (v, _) :: _ => Ok [v] | [] => Err IndexError end
                                         else Ok []
                             | None => Ok []
                             end) cells;
    Ok (filter (fun n => negb (zmem n front)) (refs ++ concat us))
  else Ok (filter (fun n => negb (zmem n front)) refs).
(** 952-986: Ok None: the loop is still running after [fuel] rounds *)
Fixpoint collect (fuel : nat) (h : heap) (cells : cdict) (fillers : bool) (front cset : list Z) : res (option (list Z)) :=
  match fuel with
  | O => Ok None
  | S fuel' =>
      do new <- collect_step h cells fillers front;
      match new with
      | [] => Ok (Some cset)
      | _ => collect fuel' h cells fillers new (cset ++ new)
      end
  end.

(** sorted list of the distinct elements: list(set); sort *)
Fixpoint insert_z (z : Z) (l : list Z) : list Z :=
  match l with
  | [] => [z]
  | x :: l' => if (z =? x)%Z then l else if (z <? x)%Z then z :: l else x :: insert_z z l'
  end.
Definition sort_set (l : list Z) : list Z := fold_right insert_z [] l.

(** 1588-1612 remove_u *)
Fixpoint drop_u_line (t : tline) : tline :=
  match t with
  | Ch a :: ((Ch b :: Hole w :: t') as t1) =>
      if (Ascii.eqb a "u" || Ascii.eqb a "U") && Ascii.eqb b "=" then drop_u_line t' else Ch a :: drop_u_line t1
  | x :: t' => x :: drop_u_line t'
  | [] => []
  end.
Fixpoint drop_u_value (vs : list (Z * kind)) : list (Z * kind) :=
  match vs with
  | [] => []
  | v :: vs' => if kind_eqb (snd v) Ku then vs' else v :: drop_u_value vs'
  end.
Definition remove_u (c : card) : card :=
  mkCard (c_name c) (drop_u_value (c_values c)) (map drop_u_line (c_input c)) (c_hidden c).

(** 917-925: surfaces and materials used by the cells *)
Definition surfs_of (c : card) : list Z := map fst (filter (fun v => kind_eqb (snd v) Ksur) (c_values c)).
Definition mats_of (c : card) : list Z :=
  filter (fun z => negb (z =? 0)%Z) (map fst (filter (fun v => kind_eqb (snd v) Kmat) (c_values c))).
Definition mat_key (z : Z) : str := "M"%char :: str_of_Z z.
(** removal of the universe from the requested cells, 926-927 *)
Definition strip_requested (req : list Z) (h : heap) (d : cdict) : res heap :=
  foldM (fun h kl => do c <- hget h (snd kl);
                     match c_values c with
                     | (v, _) :: _ => if zmem v req then Ok (hset h (snd kl) (remove_u c)) else Ok h
                     | [] => Err IndexError
                     end) h d.
(** 880-950 _extraction_function.  Ok None: _collect_hash_uni is still running.  The order of the
    materials is that of a Python set; here, of increasing number. *)
Definition extraction (fuel : nat) (h : heap) (a : input) (req : list Z) (keep_u fillers copy : bool)
  : res (option (heap * (cdict * (cdict * matlist material)))) :=
  do o <- collect fuel h (i_cells a) fillers req req;
  match o with
  | None => Ok None
  | Some cset =>
      do sel <- get_cards_by_id (map str_of_Z (sort_set cset)) (i_cells a);
      do '(h1, cells) <- (if copy then copy_dict h sel else Ok (h, sel));
      do cs <- mapM (fun kl => hget h1 (snd kl)) cells;
      do h2 <- (if keep_u then Ok h1 else strip_requested req h1 cells);
      do surfs <- get_cards_by_id (map str_of_Z (sort_set (concat (map surfs_of cs)))) (i_surfs a);
      do ms <- mapM (fun z => ml_get (i_mats a) (mat_key z)) (sort_set (concat (map mats_of cs)));
      Ok (Some (h2, (cells, (surfs, ml_new mt_name ms))))
  end.
(** 759-815 extract_cells: the input that is written *)
Definition extract_cells (fuel : nat) (h : heap) (a : input) (req : list Z) (ren : option (offsets * bool))
  (keep_u fillers : bool) : res (option (heap * input)) :=
  let copy := match ren with Some _ => true | None => negb keep_u end in
  do o <- extraction fuel h a req keep_u fillers copy;
  match o with
  | None => Ok None
  | Some (h1, (cells, (surfs, ms))) =>
      do '(h2, ts) <- copy_dict h1 (i_trans a);
      do '(h3, os) <- copy_dict h2 (i_other a);
      do h4 <- cells_setter h3 cells; do h5 <- surfs_setter h4 surfs;
      let new := mkInp cells surfs ms ts os (i_tallies a) (i_fmesh a) (i_header a) in
      match ren with
      | None => Ok (Some (h5, new))
      | Some (o, uk) => do r <- renumber o uk h5 new; Ok (Some r)
      end
  end.
(** 988-1026 extract_universe *)
Definition universe_cells (h : heap) (a : input) (u : Z) : res (list Z) :=
  do l <- mapM (fun kl => do c <- hget h (snd kl);
                          match get_u c with
                          | Some u' => if (u' =? u)%Z
                                       then match c_values c with (v, _) :: _ => Ok [v] | [] => Err IndexError end
                                       else Ok []
                          | None => Ok []
                          end) (i_cells a);
  Ok (concat l).
Definition extract_universe (fuel : nat) (h : heap) (a : input) (u : Z) (ren : option (offsets * bool)) (keep_u : bool)
  : res (option (heap * input)) :=
  do req <- universe_cells h a u; extract_cells fuel h a req ren keep_u true.

(** 575-614 _to_dict.  A parsed card: whether numjuggler gave it a name, and its lines.  The text of
    a card that has just been parsed is its lines. *)
Record pcard := mkP { p_named : bool; p_lines : list str }.
Definition lines_text (ls : list str) : str := concat ls.
Definition p_key (p : pcard) : res str := key_of_lines (map (fun l => filter (fun c => negb (Ascii.eqb c nl)) l) (p_lines p)).
(* 605: card.card().split()[0].upper() *)
Definition p_first_word (p : pcard) : res str :=
  match split (lines_text (p_lines p)) with w :: _ => Ok (upper w) | [] => Err IndexError end.
Fixpoint to_dict_aux (pending : option (list str)) (acc : list (str * list str)) (cards : list pcard)
  : res (list (str * list str)) :=
  match cards with
  | [] => Ok acc
  | p :: cards' =>
      let store key :=
        if dmem str_eqb key acc then Err KeyError
        else to_dict_aux None (dset str_eqb key (match pending with Some c => c ++ p_lines p | None => p_lines p end) acc) cards' in
      if p_named p then do key <- p_key p; store key
      else match p_lines p with
           | [] => Err IndexError
           | l :: _ => if pat_comment l then to_dict_aux (Some (p_lines p)) acc cards'
                       else do key <- p_first_word p; store key
           end
  end.
Definition to_dict (cards : list pcard) : res (list (str * list str)) := to_dict_aux None [] cards.

(** 1725-1760 check_range *)
Definition strip_marks (key : str) : str :=
  filter (fun c => negb (Ascii.eqb c "+"%char)) (filter (fun c => negb (Ascii.eqb c "*"%char)) key).
Inductive block := BCell | BSurf | BBad.
Definition check_range (a : input) (rng : list Z) (who : block) : res bool :=
  let free keys := negb (existsb (fun i => existsb (fun j => str_eqb (str_of_Z i) (strip_marks j)) keys) rng) in
  match who with
  | BCell => Ok (free (dkeys (i_cells a)))
  | BSurf => Ok (free (dkeys (i_surfs a)))
  | BBad => Err ValueError
  end.

(** 555-561 set_cell_void on a cell card: the warning branch changes nothing *)
Definition set_cell_void (c : card) : res card :=
  match get_m c with
  | None => Err ValueError
  | Some m => if (m =? 0)%Z then Ok c
              else match c_hidden c with
                   | [] => Err IndexError
                   | _ :: hs => Ok (mkCard (c_name c) (set_first Kmat 0 (c_values c)) (c_input c) ([] :: hs))
                   end
  end.

(** row.split() on a template line *)
Definition is_ws_t (i : titem) : bool := match i with Ch c => is_ws c | Hole _ => false end.
Fixpoint tsplit_aux (cur : tline) (s : tline) : list tline :=
  match s with
  | [] => match cur with [] => [] | _ => [rev cur] end
  | c :: s' => if is_ws_t c
               then match cur with [] => tsplit_aux [] s' | _ => rev cur :: tsplit_aux [] s' end
               else tsplit_aux (c :: cur) s'
  end.
Definition tsplit (s : tline) : list tline := tsplit_aux [] s.
(** " ".join *)
Fixpoint tjoin (ws : list tline) : tline :=
  match ws with
  | [] => []
  | [w] => w
  | w :: ws' => w ++ Ch sp :: tjoin ws'
  end.
(** l.insert(n, x) *)
Definition insert_at {A} (n : nat) (x : A) (l : list A) : list A := firstn n l ++ x :: skipn n l.
Definition text (s : str) : tline := map Ch s.

(** 1296-1326 add_material_to_void_cell; [dens] is the text of the density, [q] its value *)
Definition add_material_to_void_cell (mat : Z) (dens : str) (c : card) : res card :=
  do q <- parse_float dens;
  if (qtrunc q =? 0)%Z || (mat <=? 0)%Z then Err ValueError
  else match get_m c with
       | None => Err ValueError
       | Some m =>
           if (m =? 0)%Z then
             match c_input c with
             | [] => Err IndexError
             | row :: rows => Ok (mkCard (c_name c) (set_first Kmat mat (c_values c))
                                   (tjoin (insert_at 2 (text [tilde]) (tsplit row)) :: rows) (dens :: c_hidden c))
             end
           else Ok c
       end.
(** 1281-1293 replace_cell_material; set_d rewrites the first hidden text *)
Definition replace_cell_material (mat : Z) (dens : str) (c : card) : res card :=
  match get_m c with
  | None => Err ValueError
  | Some old =>
      if (old =? 0)%Z then add_material_to_void_cell mat dens c
      else if (mat =? 0)%Z then set_cell_void c
      else match c_hidden c with
           | [] => Err IndexError
           | _ :: hs => Ok (mkCard (c_name c) (set_first Kmat mat (c_values c)) (c_input c) (dens :: hs))
           end
  end.
(** 1242-1267 replace_material: the cells of the universes of [us] (None: all) whose material is [old] *)
Definition in_universe (us : option (list Z)) (c : card) : bool :=
  match us with
  | None => true
  | Some l => match get_u c with Some u => zmem u l | None => false end
  end.
Definition optz_eqb (a : option Z) (b : Z) : bool := match a with Some x => (x =? b)%Z | None => false end.
Definition replace_material (new : Z) (dens : str) (old : Z) (us : option (list Z)) (h : heap) (a : input) : res heap :=
  if (new <? 0)%Z then Err ValueError
  else foldM (fun h kl => do c <- hget h (snd kl);
                          if optz_eqb (get_m c) old && in_universe us c
                          then do c' <- replace_cell_material new dens c; Ok (hset h (snd kl) c')
                          else Ok h) h (i_cells a).
(** 1045-1073 get_cells_by_matID (the keys) *)
Definition cells_by_mat (h : heap) (a : input) (m : Z) : res (list str) :=
  do l <- mapM (fun kl => do c <- hget h (snd kl); Ok (if optz_eqb (get_m c) m then [fst kl] else [])) (i_cells a);
  Ok (concat l).

(** 1535-1586 _add_symbol_to_cell_input on the template lines *)
Definition is_alpha (c : ascii) : bool :=
  let n := N_of_ascii c in ((65 <=? n) && (n <=? 90) || (97 <=? n) && (n <=? 122))%N.
Definition has_alpha (w : tline) : bool := existsb (fun i => match i with Ch c => is_alpha c | Hole _ => false end) w.
Fixpoint find_alpha (ws : list tline) : option nat :=
  match ws with
  | [] => None
  | w :: ws' => if has_alpha w then Some 0 else option_map S (find_alpha ws')
  end.
Fixpoint append_word (n : nat) (suffix : tline) (ws : list tline) : res (list tline) :=
  match ws, n with
  | [], _ => Err IndexError
  | w :: ws', O => Ok ((w ++ suffix) :: ws')
  | w :: ws', S n' => do r <- append_word n' suffix ws'; Ok (w :: r)
  end.
Definition starts5 (l : tline) : bool :=
  match l with
  | Ch a :: Ch b :: Ch c :: Ch d :: Ch e :: _ => forallb (fun x => Ascii.eqb x sp) [a; b; c; d; e]
  | _ => false
  end.
Definition margin : tline := text (repeat sp 5).
Fixpoint add_symbol_rows (first : bool) (addition : tline) (rows : list tline) : list tline :=
  match rows with
  | [] => []
  | row :: rows' =>
      let ws := tsplit row in
      let put n := let l := tjoin (insert_at n addition ws) in
                   if first || starts5 l then l else margin ++ l in
      match find_alpha ws, rows' with
      | Some n, _ => put n :: rows'
      | None, [] => [put (length ws)]
      | None, _ => row :: add_symbol_rows false addition rows'
      end
  end.
Definition add_symbol (addition : tline) (parentheses : bool) (c : card) : res (list tline) :=
  match c_input c with
  | [] => Err IndexError
  | row0 :: rows =>
      let ws := tsplit row0 in
      do ws' <- (if parentheses
                 then (match get_m c with
                       | None => Err ValueError
                       | Some m => append_word (if (m =? 0)%Z then 1 else 2) (text (s2l " (")) ws
                       end)
                 else Ok ws);
      let add := if parentheses then text (s2l ") ") ++ addition else addition in
      Ok (add_symbol_rows true add (tjoin ws' :: rows))
  end.
(** 1431-1437, 1478-1485: the index after the last value of type sur or cel; when there is none,
    the loop ends with k = 0 *)
Fixpoint last_geom (vs : list (Z * kind)) : option nat :=
  match vs with
  | [] => None
  | v :: vs' => match last_geom vs' with
                | Some n => Some (S n)
                | None => if kind_eqb (snd v) Ksur || kind_eqb (snd v) Kcel then Some 0 else None
                end
  end.
Definition insert_value (v : Z * kind) (vs : list (Z * kind)) : list (Z * kind) :=
  insert_at (S (match last_geom vs with Some k => k | None => 0 end)) v vs.
(* 1578-1580 *)
Definition renumbered (num : option Z) (c : card) : card :=
  match num with Some z => rename Kcel z c | None => c end.

Inductive mode := Union | Intersect.
(** constants.py 176 UNION_INTERSECT_SYMBOLS *)
Definition mode_symbol (m : mode) : str := match m with Union => s2l ":" | Intersect => [] end.
(** 1381-1439 add_surface (the card that is returned) *)
Definition add_surface (s : Z) (num : option Z) (m : mode) (c : card) : res card :=
  let sign := if (0 <=? s)%Z then [] else s2l "-" in
  let addition := text (mode_symbol m ++ sign) ++ Hole (length (str_of_Z (Z.abs s))) :: text (s2l " ") in
  do rows <- add_symbol addition true c;
  let c1 := renumbered num (mkCard (c_name c) (c_values c) rows (c_hidden c)) in
  Ok (with_values c1 (insert_value (Z.abs s, Ksur) (c_values c1))).
(** 1442-1472 hash_cell *)
Definition hash_cell (id : Z) (num : option Z) (c : card) : res card :=
  let addition := text (s2l "#") ++ Hole (length (str_of_Z id) - 1) :: text (s2l " ") in
  do rows <- add_symbol addition true c;
  let c1 := renumbered num (mkCard (c_name c) (c_values c) rows (c_hidden c)) in
  Ok (with_values c1 (insert_value (id, Kcel) (c_values c1))).
(** 1328-1379 add_cell_fill_u; [fillp]: the parameter is "fill" *)
Definition add_cell_fill_u (fillp : bool) (v : Z) (c : card) : res card :=
  let truthy o := match o with Some z => negb (z =? 0)%Z | None => false end in
  if (if fillp then truthy (get_f c) else truthy (get_u c)) then Err ValueError
  else
    let addition := text (s2l (if fillp then "fill=" else "u=")) ++ [Hole (length (str_of_Z v))] in
    do rows <- add_symbol addition false c;
    Ok (mkCard (c_name c) (insert_value (v, if fillp then Kfill else Ku) (c_values c)) rows (c_hidden c)).

(** 1489-1533 cells_union is modelled in InpUnionModel (it re-parses the text with numjuggler). *)
