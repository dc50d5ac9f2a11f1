(** Model of src/f4enix/input/xsdirpyne.py (Xsdir, XsdirTable, SerpentXsdir, OpenMCXsdir) and of the loading of the
    libraries in src/f4enix/input/libmanager.py (LibManager.__init__).  Numbers are exact decimals: nan and inf are
    not modelled.  An AssertionError is OtherError. *)
From Verif Require Import PyBase PyStr PyText D1SModel DataModel MeshModel LibModel.
Open Scope nat_scope.

(** xsdirpyne.py 361-372 the attributes of XsdirTable (None where the entry is too short) *)
Record xtable := mkT { x_name : str; x_awr : Q; x_file : str; x_access : str; x_ftype : Z; x_addr : Z; x_len : Z;
  x_rec : option Z; x_entries : option Z; x_temp : option Q; x_ptable : bool }.
(** the attributes of an Xsdir object that come from the file; datapath is missing if the file has none *)
Record xsfile := mkX { f_datapath : option str; f_awr : list (str * str); f_tables : list xtable }.

(** zip(words[::2], words[1::2]) *)
Fixpoint pairs (ws : list str) : list (str * str) := match ws with a :: b :: r => (a, b) :: pairs r | _ => [] end.
Definition directory : str := s2l "directory".
(** line.index("=") and line[index + 1:] *)
Fixpoint after_equal (s : str) : option str := match s with [] => None | c :: r => if Ascii.eqb c "=" then Some r else after_equal r end.

(** xsdirpyne.py 111-116 the first line *)
Definition read_datapath (l : str) : res (option str) :=
  match split l with
  | [] => Ok None
  | w :: _ => match strip_prefix (s2l "datapath") (map lower w) with
              | Some _ => do r <- of_opt ValueError (after_equal l); Ok (Some (strip r))
              | None => Ok None
              end
  end.
(** xsdirpyne.py 119-124 the title of the second section *)
Definition is_title (l : str) : bool := match split l with
  | [a; b; c] => str_eqb (map lower a) (s2l "atomic") && str_eqb (map lower b) (s2l "weight") && str_eqb (map lower c) (s2l "ratios")
  | _ => false end.
(** xsdirpyne.py 126-135 the weight ratios: a line with an odd number of words, or starting with directory, ends them.
    At the end of the file readline gives "" and words[0] raises. *)
Fixpoint read_awr (d : list (str * str)) (lines : list str) : res (list (str * str) * list str * list str) :=
  match lines with
  | [] => Err IndexError
  | l :: rest => let ws := split l in
      if Nat.odd (length ws) then Ok (d, ws, rest)
      else match ws with
           | [] => Err IndexError
           | w :: _ => if str_eqb w directory then Ok (d, ws, rest)
                       else read_awr (fold_left (fun d p => dset str_eqb (fst p) (snd p) d) (pairs ws) d) rest
           end
  end.
(** xsdirpyne.py 138-139 *)
Fixpoint to_directory (ws : list str) (lines : list str) {struct lines} : res (list str) :=
  match ws with
  | [] => Err IndexError
  | w :: _ => if str_eqb w directory then Ok lines
              else match lines with [] => Err IndexError | l :: rest => to_directory (split l) rest end
  end.
(** xsdirpyne.py 150-172 one entry *)
Definition table_of (ws : list str) : res xtable :=
  match ws with
  | n :: a :: f :: acc :: ft :: ad :: ln :: more =>
      do awr <- parse_float a; do t <- parse_int ft; do d <- parse_int ad; do k <- parse_int ln;
      do r <- (match nth_error more 0 with Some w => do z <- parse_int w; Ok (Some z) | None => Ok None end);
      do e <- (match nth_error more 1 with Some w => do z <- parse_int w; Ok (Some z) | None => Ok None end);
      do q <- (match nth_error more 2 with Some w => do z <- parse_float w; Ok (Some z) | None => Ok None end);
      Ok (mkT n awr f acc t d k r e q (match nth_error more 3 with Some w => str_eqb w (s2l "ptable") | None => false end))
  | _ => Err OtherError
  end.
Definition is_plus (w : str) : bool := str_eqb w [plus].
(** xsdirpyne.py 147-149 at the end of the file: the marks of continuation are dropped (the words are reversed) *)
Fixpoint drop_plus (r : list str) : res (list str) :=
  match r with [] => Err IndexError | w :: r' => if is_plus w then drop_plus r' else Ok (rev r) end.
(** xsdirpyne.py 141-172 the entries; [pend] are the words before the mark of continuation of the line before *)
Fixpoint read_tables (pend : option (list str)) (lines : list str) : res (list xtable) :=
  match lines with
  | [] => match pend with
          | None => Ok []
          | Some p => do ws <- drop_plus (rev p); do t <- table_of ws; Ok [t]
          end
  | l :: rest =>
      let ws := match pend with None => split l | Some p => p ++ split l end in
      match pend, ws with
      | None, [] => Ok []
      | _, _ => match rev ws with
                | [] => Err IndexError
                | w :: r => if is_plus w then read_tables (Some (rev r)) rest
                            else do t <- table_of ws; do ts <- read_tables None rest; Ok (t :: ts)
                end
      end
  end.
Definition readline (lines : list str) : str * list str := match lines with [] => ([], []) | l :: r => (l, r) end.
(** xsdirpyne.py 105-172 Xsdir.read *)
Definition read_xsdir (lines : list str) : res xsfile :=
  let (l1, r1) := readline lines in
  do dp <- read_datapath l1;
  let (l2, r2) := readline r1 in
  if negb (is_title l2) then Err OtherError else
  do x <- read_awr [] r2;
  let '(awr, ws, r3) := x in
  do r4 <- to_directory ws r3;
  do ts <- read_tables None r4;
  Ok (mkX dp awr ts).

(** xsdirpyne.py 93-103 the (zaid, suffix) pairs of the tables *)
Definition tablenames (x : xsfile) : xsdir := map (fun t => table_key (x_name t)) (f_tables x).
(** xsdirpyne.py 245-251 find_table(name, "exact") *)
Definition find_exact (x : xsfile) (name : str) : bool := existsb (fun t => str_eqb name (fst t ++ dot :: snd t)) (tablenames x).
(** xsdirpyne.py 198-212 find_table(name, "default") *)
Definition find_default (x : xsfile) (name : str) : list xtable := filter (fun t => str_eqb name (fst (table_key (x_name t)))) (f_tables x).
(** xsdirpyne.py 253-260 find_table(name, "default-fast") *)
Definition find_fast (x : xsfile) (name : str) : list str := map snd (filter (fun t => str_eqb name (fst t)) (tablenames x)).
(** name.split(".")[-1]: what follows the last dot *)
Definition after_last_dot (s : str) : str := rev (before_dot (rev s)).
(** xsdirpyne.py 263-284 find_zaids *)
Definition find_zaids (x : xsfile) (lib : str) : list xtable := filter (fun t => str_eqb lib (after_last_dot (x_name t))) (f_tables x).
(** xsdirpyne.py 214-235 zaid_has_table *)
Definition has_table (x : xsfile) (zaid lib : str) : bool := zaid_has_table (tablenames x) zaid lib.

Definition ends_with (c : ascii) (s : str) : bool := match last_char s with Some d => Ascii.eqb d c | None => false end.
(** xsdirpyne.py 379-393 serpent_type *)
Definition serpent_type (t : xtable) : option Z :=
  if ends_with "c" (x_name t) then Some 1%Z else if ends_with "y" (x_name t) then Some 2%Z else if ends_with "t" (x_name t) then Some 3%Z else None.
(** xsdirpyne.py 417-420 zaid: name[:name.find(".")], where find gives -1 without a dot *)
Definition table_zaid (t : xtable) : str := if existsb (Ascii.eqb dot) (x_name t) then before_dot (x_name t) else removelast (x_name t).
(** xsdirpyne.py 395-415 metastable (None: not for neutrons) *)
Definition metastable (t : xtable) : res (option Z) :=
  if negb (ends_with "c" (x_name t)) then Ok None
  else if str_eqb (table_zaid t) (s2l "95242") then Ok (Some 1%Z)
  else if str_eqb (table_zaid t) (s2l "95642") then Ok (Some 0%Z)
  else do n <- parse_int (before_dot (x_name t)); Ok (Some (if (600 <? n mod 1000)%Z then 1%Z else 0%Z)).

(** xsdirpyne.py 422-444 to_serpent(); [repr] is str of a float, [sci11] the format .11e.  Without a temperature:
    TypeError. *)
Definition to_serpent (repr sci11 : Q -> str) (t : xtable) : res str :=
  do m <- metastable t;
  do q <- of_opt TypeError (x_temp t);
  Ok (x_name t ++ sp :: x_name t ++ sp :: (match serpent_type t with Some z => str_of_Z z | None => s2l "None" end) ++ sp :: table_zaid t ++ sp ::
      (match m with Some z => if (z =? 0)%Z then s2l "0" else s2l "1" | None => s2l "0" end) ++ sp :: repr (x_awr t) ++ sp ::
      sci11 (q / (86173423 # 1000000000000000000))%Q ++ sp :: str_of_Z (x_ftype t - 1) ++ sp :: x_file t).
(** xsdirpyne.py 288-301 to_xsdata: the lines written, and the exception that stops them *)
Fixpoint to_xsdata (repr sci11 : Q -> str) (ts : list xtable) : list str * option exn :=
  match ts with
  | [] => ([], None)
  | t :: r => match serpent_type t with
              | Some 1%Z => match to_serpent repr sci11 t with
                            | Ok s => let (ls, e) := to_xsdata repr sci11 r in (s :: ls, e)
                            | Err e => ([], Some e)
                            end
              | _ => to_xsdata repr sci11 r
              end
  end.

(** xsdirpyne.py 494-505 SerpentXsdir.read with the table names of 93-103: every second line is a table; a blank one has no
    name, and name[:-4] raises *)
Definition serpent_line (l : str) : res (option str) :=
  match split l with
  | [] => Ok None
  | n :: ws => do a <- of_opt IndexError (nth_error ws 4); do q <- parse_float a; do f <- of_opt IndexError (nth_error ws 7);
               do t <- of_opt IndexError (nth_error ws 5); do q2 <- parse_float t; Ok (Some n)
  end.
Fixpoint serpent_lines (lines : list str) : list str := match lines with a :: _ :: r => a :: serpent_lines r | [a] => [a] | [] => [] end.
Definition read_serpent (lines : list str) : res xsdir :=
  do ns <- mapM serpent_line (serpent_lines lines);
  mapM (fun n => match n with Some n => Ok (table_key n) | None => Err TypeError end) ns.

(** the pieces of a text between the characters '=' *)
Fixpoint on_equal (s : str) : list str := match s with
  | [] => [[]]
  | c :: r => if Ascii.eqb c "=" then [] :: on_equal r else match on_equal r with p :: ps => (c :: p) :: ps | [] => [[c]] end
  end.
Definition quote : ascii := "034"%char.
(** xsdirpyne.py 535-551 OpenMCXsdir.read; [zaid_of] is libmanager.get_formulazaid.  The table made of each line is not kept. *)
Definition openmc_line (zaid_of : str -> res str) (l : str) : res unit :=
  if has "<library" l then
    let parts := split (filter (fun c => negb (Ascii.eqb c quote)) l) in
    let data := fold_left (fun d p => match on_equal p with k :: v :: _ => dset str_eqb k v d | _ => d end) parts [] in
    do t <- of_opt KeyError (dget str_eqb (s2l "type") data);
    if str_eqb t (s2l "neutron") then
      do m <- of_opt KeyError (dget str_eqb (s2l "materials") data);
      do z <- zaid_of m;
      do p <- of_opt KeyError (dget str_eqb (s2l "path") data); Ok tt
    else Ok tt
  else Ok tt.
(** xsdirpyne.py 513-533 the tables are those of the list that read never fills *)
Definition read_openmc (zaid_of : str -> res str) (lines : list str) : res xsdir :=
  do u <- mapM (openmc_line zaid_of) lines; Ok [].

(** ** LibManager.__init__ *)
(** a row of the configuration: suffix, default, and the path of each code (columns are lower case, libmanager.py 180-184);
    an empty path for none.  A missing value (NaN) is not modelled. *)
Record crow := mkC { c_lib : str; c_default : str; c_paths : list (str * str) }.
Definition mcnp_type (code : str) : bool := memb str_eqb code [s2l "mcnp"; s2l "d1s"; s2l "serpent"].
(** libmanager.py 186-194 *)
Definition default_lib (given : option str) (rows : list crow) : str :=
  match given with Some d => d | None => match find (fun r => str_eqb (c_default r) (s2l "yes")) rows with Some r => c_lib r | None => s2l "81c" end end.
(** the variables prev_path and xsdir of the loop; before the first file is read xsdir is unbound *)
Definition lstate := (str * option xsdir)%type.
(** libmanager.py 213-251 the body of the loop for a library; [open_ code path] reads the file for the code.
    np.array(tablenames)[:, 1] raises without tables (line 240). *)
Definition load_row (open_ : str -> str -> res xsdir) (code : str) (s : lstate * list (str * xsdir)) (r : crow) : res (lstate * list (str * xsdir)) :=
  let '((prev, cur), d) := s in
  do path <- of_opt KeyError (dget str_eqb code (c_paths r));
  if str_eqb path [] then Ok s
  else if mcnp_type code then
    do pc <- (if str_eqb prev path then do x <- of_opt UnboundLocalError cur; Ok (prev, x)
              else do x <- open_ code path; match x with [] => Err IndexError | _ => Ok (path, x) end);
    let '(p, x) := pc in
    Ok ((p, Some x), if memb str_eqb (c_lib r) (map snd x) then dset str_eqb (c_lib r) x d else d)
  else if str_eqb code (s2l "openmc") then do x <- open_ code path; Ok ((prev, cur), dset str_eqb (c_lib r) x d)
  else Err ValueError.
(** libmanager.py 213-216 the loop over the codes *)
Definition load_code (open_ : str -> str -> res xsdir) (rows : list crow) (s : lstate * list (str * list (str * xsdir))) (code : str)
  : res (lstate * list (str * list (str * xsdir))) :=
  let '(st, data) := s in
  do x <- foldM (load_row open_ code) (st, []) rows;
  Ok (fst x, dset str_eqb code (snd x) data).
(** libmanager.py 197-251 self.data *)
Definition load_data (open_ : str -> str -> res xsdir) (codes : list str) (rows : list crow) : res (list (str * list (str * xsdir))) :=
  do x <- foldM (load_code open_ rows) ((s2l "dummy", None), []) codes; Ok (snd x).
(** libmanager.py 153-171 from a single xsdir file: a row per suffix, each once, in an order that is not specified: here
    that of the file *)
Definition suffixes (x : xsdir) : list str := dedup (map snd x).
Definition rows_of (x : xsdir) (path : str) : list crow := map (fun l => mkC l [] [(s2l "mcnp", path)]) (suffixes x).
