(** C13, continued: what each command does with what the user types. *)
From Verif Require Import PyBase PyLemmas PyStr PyText CliModel CliSpec D1SProofs2 CliProofs CliProofs2 CliProps.
Open Scope nat_scope.

(** With two or more windows loaded, "operate", the operation's word, the number n + 1 and the
    numbers asked for apply that operation, with those numbers in that order, to the window
    listed at position n, and store the result under its name with the documented suffix. *)
Theorem C13_operation_as_typed : forall E (ws : wins E) n k w word args suffix rest w',
  NoDup (dkeys ws) -> 2 <= length ws -> nth_error ws n = Some (k, w) -> l_name w <> [] ->
  typed_op E word args suffix (l_win w) w' ->
  main_command E (s2l "operate") ws (word :: str_of_N (N.of_nat (S n)) :: args ++ rest) =
    HOk tt (dset str_eqb (stem_of_name (k ++ suffix)) (mklw (k ++ suffix) w') ws) rest.
Proof. exact operate_typed. Qed.
Print Assumptions C13_operation_as_typed.
(** "open" loads the file under its name without directory and extension *)
Theorem C13_open_stores_under_the_stem : forall E (ws : wins E) dir name ext w rest,
  name <> [] -> ext <> [] -> ~ In dot ext -> ~ In "/"%char (name ++ dot :: ext) ->
  dget str_eqb name ws = None -> e_load E (dir ++ "/"%char :: name ++ dot :: ext) = Ok w ->
  main_command E (s2l "open") ws ((dir ++ "/"%char :: name ++ dot :: ext) :: rest) =
    HOk tt (dset str_eqb name (mklw (name ++ dot :: ext) w) ws) rest.
Proof. intros E ws dir name ext w rest Hn He Hd Hs Hg Hl. pose proof (path_name_dir dir (name ++ dot :: ext) Hs) as P.
  pose proof (stem_ext name ext Hn He Hd) as S. pose proof (open_loads E ws (dir ++ slash :: name ++ dot :: ext) w rest) as O. rewrite P, S in O. now apply O. Qed.
Print Assumptions C13_open_stores_under_the_stem.
(** a leading or final dot is part of the name *)
Theorem C13_open_hidden_file : forall E (ws : wins E) s w rest, ~ In dot s -> ~ In "/"%char s -> forall p, p = dot :: s \/ p = s ++ [dot] ->
  dget str_eqb p ws = None -> e_load E p = Ok w ->
  main_command E (s2l "open") ws (p :: rest) = HOk tt (dset str_eqb p (mklw p w) ws) rest.
Proof. intros E ws s w rest Hd Hs p Hp Hg Hl. assert (Np : ~ In slash p).
  { intros Q. apply Hs. destruct Hp as [->| ->]; [destruct Q as [Q|Q]; [discriminate|exact Q]|]. apply in_app_or in Q. destruct Q as [Q|[Q|[]]]; [exact Q|discriminate]. }
  pose proof (path_name_plain p Np) as P. assert (S : stem_of_name p = p) by (destruct Hp as [->| ->]; now apply stem_edge).
  pose proof (open_loads E ws p w rest) as O. rewrite P, S in O. now apply O. Qed.
Print Assumptions C13_open_hidden_file.

Example C13_typed_witness : exists ws : wins log_env,
  ws = [(s2l "a", lwin (s2l "a") [(s2l "a", [])]); (s2l "b", lwin (s2l "b") [(s2l "b", [])])] /\
  NoDup (dkeys ws) /\ typed_op log_env (s2l "add") [s2l "2"; s2l "0.5"] (s2l "_2_particles") [(s2l "b", [])] [(s2l "add", [2%Q; (inject_Z 5 * p10 (-1))%Q]); (s2l "b", [])].
Proof. eexists. split; [reflexivity|]. split.
  - repeat constructor; [intros [Q|[]]; discriminate|intros []].
  - eapply typed_add; vm_compute; reflexivity. Qed.
