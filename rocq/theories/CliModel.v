(** Model of src/f4enix/input/ww_gvr/cli.py (the f4enix_ww session).
    The session consumes the lines typed by the user; the windows are values of an
    abstract type [W] ([deepcopy] is therefore the identity) and the operations on them
    and on files are the fields of a record [env], about which nothing is assumed.
    Printing and clearing the screen are not modelled. *)
From Verif Require Import PyBase PyStr PyText.
Open Scope nat_scope.

(** What the session calls: weight_window.py 53-75 load_from_ww_file, 77-111
    create_gvr_from_meshtally_file(file_path, tally_num, maximum_splitting_ratio) with
    its defaults, 301 soften, 329 add_particle, 361 remove_particle, 378 mitigate,
    and the commands that only look at a window (info, write, vtk, plot). *)
Record env := mkenv {
  W : Type;
  e_load : str -> res W;
  e_gvr : str -> Q -> Q -> res W;
  e_soften : W -> Q -> res W;
  e_add : W -> Q -> Q -> res W;
  e_remove : W -> res W;
  e_mitigate : W -> Q -> res W;
  e_look : str -> W -> res unit }.

(** A loaded window: the name part of its file_path, and its content. *)
Record lw (E : env) := mklw { l_name : str; l_win : W E }.
Arguments mklw {E}. Arguments l_name {E}. Arguments l_win {E}.
Definition wins (E : env) := list (str * lw E).

(** Path(text).name: what follows the last '/'.  (pathlib also drops trailing slashes;
    not modelled.) *)
Definition slash : ascii := "/"%char.
Fixpoint path_name_aux (cur : str) (s : str) : str :=
  match s with [] => rev cur | c :: s' => if Ascii.eqb c slash then path_name_aux [] s' else path_name_aux (c :: cur) s' end.
Definition path_name (s : str) : str := path_name_aux [] s.
(** PurePath.stem: the name up to its last dot, if that dot is neither its first nor its
    last character *)
Fixpoint rfind_dot (s : str) (i : nat) (best : option nat) : option nat :=
  match s with [] => best | c :: s' => rfind_dot s' (S i) (if Ascii.eqb c dot then Some i else best) end.
Definition stem_of_name (n : str) : str :=
  match rfind_dot n 0 None with
  | Some i => if Nat.ltb 0 i && Nat.ltb (S i) (length n) then firstn i n else n
  | None => n
  end.

(** str.lower() on ASCII *)
Definition lower_str (s : str) : str := map lower s.
(** str.isdigit() *)
Definition isdigit (s : str) : bool := match s with [] => false | _ => forallb is_digit s end.

(** Result of a handler: finished, raised, or blocked in [input] because the user typed
    nothing more.  [inp] is what was not consumed yet. *)
Inductive hres (E : env) (A : Type) :=
| HOk (a : A) (ws : wins E) (inp : list str)
| HErr (e : exn) (ws : wins E) (inp : list str)
| HWait (ws : wins E)
| HExit (ws : wins E).
Arguments HOk {E A}. Arguments HErr {E A}. Arguments HWait {E A}. Arguments HExit {E A}.

Section Session.
  Context (E : env).
  Definition hbind {A B} (m : hres E A) (f : A -> wins E -> list str -> hres E B) : hres E B :=
    match m with HOk a ws i => f a ws i | HErr e ws i => HErr e ws i | HWait ws => HWait ws | HExit ws => HExit ws end.
  Definition hinput (ws : wins E) (inp : list str) : hres E str :=
    match inp with [] => HWait ws | s :: r => HOk s ws r end.
  Definition hlift {A} (r : res A) (ws : wins E) (inp : list str) : hres E A :=
    match r with Ok a => HOk a ws inp | Err e => HErr e ws inp end.
  Definition put (k : str) (w : lw E) (ws : wins E) : wins E := dset str_eqb k w ws.

  (** cli.py 111-123 _handle_open.  When the stem is already loaded the handler calls
      itself, and afterwards goes on with the first path all the same. *)
  Definition load_under (p : str) (r : res (W E)) (ws : wins E) (inp : list str) : hres E unit :=
    match r with
    | Ok w => HOk tt (put (stem_of_name (path_name p)) (mklw (path_name p) w) ws) inp
    | Err FileNotFoundError => HOk tt ws inp
    | Err e => HErr e ws inp
    end.
  Fixpoint handle_open (fuel : nat) (ws : wins E) (inp : list str) : hres E unit :=
    match fuel, inp with
    | O, _ | _, [] => HWait ws
    | S fuel', p :: r =>
        if dmem str_eqb (stem_of_name (path_name p)) ws
        then hbind (handle_open fuel' ws r) (fun _ ws1 r1 => load_under p (e_load E p) ws1 r1)
        else load_under p (e_load E p) ws r
    end.

  (** cli.py 192-204 _ask_gvr_parameters; a text that is no number selects the default *)
  Definition float_or (d : Q) (s : str) : Q := match parse_float s with Ok q => q | Err _ => d end.
  (** cli.py 155-172 _handle_gvr: the typed ratio is the second positional argument of
      create_gvr_from_meshtally_file, tally_num; maximum_splitting_ratio keeps 5 *)
  Fixpoint handle_gvr (fuel : nat) (ws : wins E) (inp : list str) : hres E unit :=
    let rest p ws inp :=
      hbind (hinput ws inp) (fun a ws i1 => hbind (hinput ws i1) (fun b ws i2 =>
        let r := do w <- e_gvr E p (float_or 5 a) 5; e_soften E w (float_or 1 b) in
        load_under p r ws i2)) in
    match fuel, inp with
    | O, _ | _, [] => HWait ws
    | S fuel', p :: r =>
        if dmem str_eqb (stem_of_name (path_name p)) ws
        then hbind (handle_gvr fuel' ws r) (fun _ ws1 r1 => rest p ws1 r1)
        else rest p ws r
    end.

  (** cli.py 174-190 _select_ww_key.  int() of a text of digits never fails. *)
  Fixpoint ask_number (ws : wins E) (inp : list str) : hres E str :=
    match inp with
    | [] => HWait ws
    | s :: r =>
        if isdigit s
        then match num_of s with
             | N0 => ask_number ws r
             | Npos n => match nth_error (dkeys ws) (Pos.to_nat n - 1) with
                         | Some k => HOk k ws r
                         | None => ask_number ws r
                         end
             end
        else ask_number ws r
    end.
  Definition select_key (ws : wins E) (inp : list str) : hres E (option str) :=
    match ws with
    | [] => HOk None ws inp
    | [(k, _)] => HOk (Some k) ws inp
    | _ => hbind (ask_number ws inp) (fun k ws i => HOk (Some k) ws i)
    end.

  (** cli.py 125-153 _handle_info / write / vtk / plot *)
  Definition handle_look (cmd : str) (ws : wins E) (inp : list str) : hres E unit :=
    hbind (select_key ws inp) (fun ok ws i =>
      match ok with
      | None => HOk tt ws i
      | Some k => match dget str_eqb k ws with
                  | None => HErr KeyError ws i
                  | Some w => hlift (e_look E cmd (l_win w)) ws i
                  end
      end).

  (** cli.py 221-264: the common shape of _handle_soft, _handle_add, _handle_remove and
      _handle_mitigate: select, copy, read [n] numbers, operate, with_name, store.
      float() of a wrong text raises ValueError; with_name raises ValueError when the
      window's path has no name. *)
  Fixpoint ask_floats (n : nat) (ws : wins E) (inp : list str) : hres E (list Q) :=
    match n with
    | O => HOk [] ws inp
    | S n' => hbind (hinput ws inp) (fun s ws i =>
                hbind (hlift (parse_float s) ws i) (fun q ws i =>
                  hbind (ask_floats n' ws i) (fun qs ws i => HOk (q :: qs) ws i)))
    end.
  Definition derive (n : nat) (op : list Q -> W E -> res (W E)) (suffix : str) (ws : wins E) (inp : list str) : hres E unit :=
    hbind (select_key ws inp) (fun ok ws i =>
      match ok with
      | None => HOk tt ws i
      | Some k =>
          match dget str_eqb k ws with
          | None => HErr KeyError ws i
          | Some w =>
              hbind (ask_floats n ws i) (fun qs ws i =>
                hbind (hlift (op qs (l_win w)) ws i) (fun w' ws i =>
                  match l_name w with
                  | [] => HErr ValueError ws i
                  | _ => HOk tt (put (stem_of_name (k ++ suffix)) (mklw (k ++ suffix) w') ws) i
                  end))
          end
      end).

  Inductive opcmd := OSoft | OAdd | ORemove | OMitigate.
  Definition op_suffix (o : opcmd) : str :=
    match o with OSoft => s2l "_softened" | OAdd => s2l "_2_particles" | ORemove => s2l "_1_particle" | OMitigate => s2l "_mitigated" end.
  Definition op_args (o : opcmd) : nat := match o with OSoft | OMitigate => 1 | OAdd => 2 | ORemove => 0 end.
  Definition op_run (o : opcmd) (qs : list Q) (w : W E) : res (W E) :=
    match o, qs with
    | OSoft, [s] => e_soften E w s
    | OAdd, [n; s] => e_add E w n s
    | ORemove, [] => e_remove E w
    | OMitigate, [r] => e_mitigate E w r
    | _, _ => Err TypeError
    end.
  Definition handle_op (o : opcmd) := derive (op_args o) (op_run o) (op_suffix o).

  (** cli.py 211-219 _get_operate_command: ValueError from the command or from the
      handler asks again; CommandOperate.EMPTY is not in the map: KeyError. *)
  Definition opcmd_of (s : str) : option opcmd :=
    if str_eqb s (s2l "soft") then Some OSoft else if str_eqb s (s2l "add") then Some OAdd
    else if str_eqb s (s2l "remove") then Some ORemove else if str_eqb s (s2l "mitigate") then Some OMitigate else None.
  Fixpoint operate_loop (fuel : nat) (ws : wins E) (inp : list str) : hres E unit :=
    match fuel with
    | O => HWait ws
    | S fuel' =>
        match inp with
        | [] => HWait ws
        | s :: r =>
            let c := lower_str s in
            if str_eqb c (s2l "empty") then HErr KeyError ws r
            else if str_eqb c (s2l "end") then HOk tt ws r
            else match opcmd_of c with
                 | None => operate_loop fuel' ws r
                 | Some o => match handle_op o ws r with
                             | HErr ValueError ws1 r1 => operate_loop fuel' ws1 r1
                             | x => x
                             end
                 end
        end
    end.

  (** cli.py 59-84, 101-109: one command of the main menu.  [None] handler: not a command *)
  Definition is_look (c : str) : bool :=
    str_eqb c (s2l "info") || str_eqb c (s2l "write") || str_eqb c (s2l "vtk") || str_eqb c (s2l "plot").
  Definition main_command (c : str) (ws : wins E) (inp : list str) : hres E unit :=
    if str_eqb c (s2l "open") then handle_open (length inp) ws inp
    else if is_look c then handle_look c ws inp
    else if str_eqb c (s2l "operate") then operate_loop (length inp) ws inp
    else if str_eqb c (s2l "gvr") then handle_gvr (length inp) ws inp
    else if str_eqb c (s2l "end") then HExit ws
    else if str_eqb c (s2l "empty") then HErr KeyError ws inp
    else HErr ValueError ws inp.
  (** cli.py 86-89 _main_menu_loop and 101-109 _get_command: both loops together read
      commands until the session ends; ValueError only prints a message. *)
  Fixpoint session (fuel : nat) (ws : wins E) (inp : list str) : hres E unit :=
    match fuel with
    | O => HWait ws
    | S fuel' =>
        match inp with
        | [] => HWait ws
        | s :: r =>
            match main_command (lower_str s) ws r with
            | HOk _ ws1 r1 => session fuel' ws1 r1
            | HErr ValueError ws1 r1 => session fuel' ws1 r1
            | x => x
            end
        end
    end.
  (** Menu() *)
  Definition menu (inp : list str) : hres E unit := session (length inp) [] inp.
End Session.
