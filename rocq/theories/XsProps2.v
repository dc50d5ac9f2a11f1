(** C85-C86, continued: Serpent and OpenMC files line by line, codes that are not known. *)
From Coq Require Import Lia ZArith.
From Verif Require Import PyBase PyStr PyText LibModel XsModel XsSpec XsProofs3.
Open Scope nat_scope.

(** C85.  A Serpent file is read two lines at a time: table number i is that of line 2i, which has at least nine words, the first of
    them its name: the zaid, one more character and a suffix of three. *)
Theorem C85_serpent_reads_every_other_line : forall lines x, read_serpent lines = Ok x -> length x = (length lines + 1) / 2 /\
  forall i k, nth_error x i = Some k -> exists line n ws, nth_error lines (2 * i) = Some line /\ split line = n :: ws /\ 8 <= length ws /\
    (4 <= length n -> exists c, n = fst k ++ c :: snd k /\ length (snd k) = 3).
Proof. exact serpent_read. Qed.
Print Assumptions C85_serpent_reads_every_other_line.
Example C85_serpent_case : read_serpent (map s2l ["1001.31c 1001.31c 1 1001 0 1.007 293.6 0 h"; "not read"; "8016.31c 8016.31c 1 8016 0 15.99 293.6 0 o"]%string) = Ok [(s2l "1001", s2l "31c"); (s2l "8016", s2l "31c")].
Proof. vm_compute. reflexivity. Qed.

(** C86.  A line of an OpenMC file is a problem only if it has no type, or its type is neutron and it has no material or one whose
    zaid is not found; lines of other types and other lines are passed over. *)
Theorem C86_openmc_lines : forall attrs zaid_of, Forall (fun kv => plain_word (fst kv) /\ plain_word (snd kv)) attrs -> NoDup (map fst attrs) ->
  (forall t, In (s2l "type", t) attrs -> t <> s2l "neutron" -> openmc_line zaid_of (library_line attrs) = Ok tt) /\
  (forall m p, In (s2l "type", s2l "neutron") attrs -> In (s2l "materials", m) attrs -> In (s2l "path", p) attrs ->
     openmc_line zaid_of (library_line attrs) = match zaid_of m with Ok _ => Ok tt | Err e => Err e end) /\
  (~ In (s2l "type") (map fst attrs) -> openmc_line zaid_of (library_line attrs) = Err KeyError) /\
  (In (s2l "type", s2l "neutron") attrs -> ~ In (s2l "materials") (map fst attrs) -> openmc_line zaid_of (library_line attrs) = Err KeyError).
Proof. exact openmc_attr. Qed.
Print Assumptions C86_openmc_lines.
Example C86_openmc_case : let attrs := [(s2l "materials", s2l "H1"); (s2l "path", s2l "h.h5"); (s2l "type", s2l "neutron")] in
  Forall (fun kv => plain_word (fst kv) /\ plain_word (snd kv)) attrs /\ NoDup (map fst attrs) /\ openmc_line (fun m => Ok m) (library_line attrs) = Ok tt /\ openmc_line (fun _ => Err KeyError) (library_line attrs) = Err KeyError.
Proof. split; [|split; [|split; vm_compute; reflexivity]].
  - repeat (apply Forall_cons; [split; repeat (apply Forall_cons; [split; [reflexivity|split; discriminate]|]); apply Forall_nil|]). apply Forall_nil.
  - repeat constructor; cbn [map fst In]; intuition discriminate. Qed.

(** C86.  A code that is none of mcnp, d1s, serpent and openmc stops the loading with ValueError at its first row with a path. *)
Theorem C86_unknown_code : forall open_ code before rows, ~ In code (map (fun c => s2l c) ["mcnp"; "d1s"; "serpent"; "openmc"]%string) ->
  Forall (fun r => exists p, dget str_eqb code (c_paths r) = Some p) rows -> (exists r p, In r rows /\ dget str_eqb code (c_paths r) = Some p /\ p <> []) ->
  (exists s, foldM (load_code open_ rows) ((s2l "dummy", None), []) before = Ok s) -> forall after, load_data open_ (before ++ code :: after) rows = Err ValueError.
Proof. exact unknown_code. Qed.
Print Assumptions C86_unknown_code.

(** C86.  For the code openmc every library with a path has what is read from the file of that path, and no other library. *)
Theorem C86_openmc_libraries : forall open_ rows, NoDup (map c_lib rows) ->
  (forall r, In r rows -> exists p, Path (s2l "openmc") r p /\ (p = [] \/ exists x, open_ (s2l "openmc") p = Ok x)) ->
  exists d, load_data open_ [s2l "openmc"] rows = Ok [(s2l "openmc", d)]
    /\ forall l x, dget str_eqb l d = Some x <-> exists r p, In r rows /\ c_lib r = l /\ Path (s2l "openmc") r p /\ p <> [] /\ open_ (s2l "openmc") p = Ok x.
Proof. exact openmc_libraries. Qed.
Print Assumptions C86_openmc_libraries.
Example C86_openmc_libraries_case : load_data (fun _ p => read_openmc (fun z => Ok z) []) [s2l "openmc"] [mkC (s2l "31c") (s2l "yes") [(s2l "openmc", s2l "x.xml")]; mkC (s2l "21c") [] [(s2l "openmc", [])]]
  = Ok [(s2l "openmc", [(s2l "31c", [])])].
Proof. vm_compute. reflexivity. Qed.
