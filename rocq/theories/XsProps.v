(** C83-C86: reading xsdir files, looking up tables, Serpent data, loading libraries. *)
From Coq Require Import Lia ZArith.
From Verif Require Import PyBase PyLemmas PyStr PyText DataModel D1SModel D1SProofs2 MeshSpec OutSpec OutProofs MatProofs LibModel XsModel XsSpec XsProofs XsProofs2.
Open Scope nat_scope.

(** C83.  A file is read as it is: every table with its own entries, in order, also over several lines; every zaid with
    its last weight ratio.  Lines after one with an odd number of words (up to the directory), and after a blank line of
    the directory, are left out without notice. *)
Theorem C83_file_is_read : forall dp ps ts lines, XsdirText dp ps ts lines ->
  exists awr, read_xsdir lines = Ok (mkX dp awr ts) /\ NoDup (map fst awr) /\ (forall zaid w, In (zaid, w) awr <-> LastOf ps zaid w).
Proof. exact xsdir_read. Qed.
(** C83.  Without the title of the weight ratios, or without a directory, nothing is read; nor with an entry of less
    than seven words. *)
Theorem C83_what_is_read_has_its_parts : forall lines x, read_xsdir lines = Ok x -> exists l1 l2 mid ld rest, lines = l1 :: l2 :: mid ++ ld :: rest /\ SecondLine l2 /\ starts_directory ld.
Proof. exact read_has_parts. Qed.
Theorem C83_short_entries_are_refused : forall l1 l2 als gap ld ts ess ws ls rest dp pss, FirstLine dp l1 -> SecondLine l2 -> Forall2 PairLine pss als -> Gap gap -> starts_directory ld ->
  Forall2 Entry ts ess -> EntryText ws ls -> length ws < 7 -> read_xsdir (l1 :: l2 :: als ++ gap ++ ld :: concat ess ++ ls ++ rest) = Err OtherError.
Proof. exact short_file_refused. Qed.

(** C84.  With suffixes of three characters: the exact search finds the names of the tables and no other; the default
    search gives the tables of the zaid, all and in order, and the fast one their suffixes; zaid_has_table tells whether
    there is such a table; find_zaids gives the tables of a library. *)
Theorem C84_exact : forall x name, Forall short (f_tables x) -> find_exact x name = true <-> exists t, In t (f_tables x) /\ x_name t = name.
Proof. exact exact_ok. Qed.
Theorem C84_default : forall x zaid, Forall short (f_tables x) -> Selected (fun t => exists s, Table zaid s t /\ length s = 3) (f_tables x) (find_default x zaid).
Proof. exact default_ok. Qed.
Theorem C84_fast : forall x zaid, Forall short (f_tables x) -> Forall2 (fun s t => Table zaid s t) (find_fast x zaid) (find_default x zaid).
Proof.
  intros x zaid H. rewrite fast_ok. generalize (default_ok x zaid H). generalize (f_tables x), (find_default x zaid). intros l r S.
  induction S as [|t l r (s & T & L) _ IH|t l r N _ IH]; cbn [map]; [constructor| |exact IH]. constructor; [unfold Table in *; rewrite T, (key_of zaid s L); reflexivity|exact IH].
Qed.
Theorem C84_has_table : forall x zaid lib, Forall short (f_tables x) -> length lib = 3 -> has_table x zaid lib = true <-> exists t, In t (f_tables x) /\ Table zaid lib t.
Proof. exact has_table_ok. Qed.
Theorem C84_tables_of_a_library : forall x lib, Forall (fun t => exists z l, Table z l t /\ ~ In dot l) (f_tables x) -> ~ In dot lib -> Selected (fun t => exists z, Table z lib t) (f_tables x) (find_zaids x lib).
Proof. exact zaids_ok. Qed.
(** C84.  Longer suffixes (1001.710nc, MCNP6): the table is found under another zaid and suffix. *)
Theorem C84_long_suffix_refuted : exists x t, f_tables x = [t] /\ Table (s2l "1001") (s2l "710nc") t
  /\ has_table x (s2l "1001") (s2l "710nc") = false /\ find_default x (s2l "1001") = [] /\ find_exact x (x_name t) = false /\ has_table x (s2l "1001.7") (s2l "0nc") = true.
Proof. exists (mkX None [] [mkT (s2l "1001.710nc") 1 [] [] 1 1 1 None None None false]). eexists. split; [reflexivity|]. repeat split; reflexivity. Qed.

(** C85.  metastable is 1 for neutron tables with A over 600, with Am-242 the other way round; None for other tables. *)
Theorem C85_metastable : forall t zaid lib, Table zaid lib t -> all_digits zaid ->
  ((exists a, lib = a ++ ["c"%char]) -> metastable t = Ok (Some (if str_eqb zaid (s2l "95242") then 1 else if str_eqb zaid (s2l "95642") then 0 else if (600 <? Z.of_N (num_of zaid) mod 1000) then 1 else 0)%Z))
  /\ (lib <> [] -> ~ (exists a, lib = a ++ ["c"%char]) -> metastable t = Ok None).
Proof. exact metastable_ok. Qed.
(** C85.  The file for Serpent has one line per neutron table, in order, as long as every one has a temperature; the
    first that has none stops it, with the lines before it already written. *)
Theorem C85_serpent_file : forall repr sci11 ts, Forall (fun t => exists z l, Table z l t /\ all_digits z /\ l <> []) ts ->
  exists sel ls, Selected neutron ts sel
    /\ ((Forall (fun t => x_temp t <> None) sel /\ to_xsdata repr sci11 ts = (ls, None) /\ Forall2 (SerpentLine repr sci11) sel ls)
       \/ exists a t b, sel = a ++ t :: b /\ Forall (fun t => x_temp t <> None) a /\ x_temp t = None /\ to_xsdata repr sci11 ts = (ls, Some TypeError) /\ Forall2 (SerpentLine repr sci11) a ls).
Proof.
  intros repr sci11 ts H. induction H as [|t ts (z & l & T & D & N) _ (sel & ls & S & IH)].
  - exists [], []. split; [constructor|]. left. repeat split; constructor.
  - cbn [to_xsdata]. destruct (ends_with "c" (x_name t)) eqn:E.
    + assert (C : neutron t) by (apply ends_iff; exact E).
      assert (L : exists a, l = a ++ ["c"%char]). { destruct C as [a C]. unfold Table in T. destruct (@exists_last _ l N) as (l0 & c & ->). exists l0. rewrite T in C. change (z ++ dot :: l0 ++ [c]) with (z ++ (dot :: l0) ++ [c]) in C. rewrite app_assoc in C. apply app_inj_tail in C as [_ ->]. reflexivity. }
      pose proof (proj1 (metastable_ok t z l T D) L) as M. set (m := (if str_eqb z _ then 1 else _)%Z) in M.
      assert (ST : serpent_type t = Some 1%Z) by (unfold serpent_type; rewrite E; reflexivity). rewrite ST. unfold to_serpent. rewrite M, ST. cbn [bind]. destruct (x_temp t) as [q|] eqn:Q; cbn [of_opt bind].
      * assert (Line : SerpentLine repr sci11 t (x_name t ++ sp :: x_name t ++ sp :: str_of_Z 1 ++ sp :: table_zaid t ++ sp :: (if (m =? 0)%Z then s2l "0" else s2l "1") ++ sp :: repr (x_awr t) ++ sp ::
              sci11 (q / (86173423 # 1000000000000000000))%Q ++ sp :: str_of_Z (x_ftype t - 1) ++ sp :: x_file t)).
        { exists z, l, q, m. split; [exact T|]. split; [exact D|]. split; [exact Q|]. split; [exact M|]. rewrite (zaid_ok t z l T (digits_no_dot z D)). reflexivity. }
        destruct IH as [(A & B & F)|(a & t' & b & -> & A & B & X & F)].
        -- rewrite B. eexists (t :: sel), (_ :: ls). split; [apply SelTake; [exact C|exact S]|]. left. split; [constructor; [congruence|exact A]|]. split; [reflexivity|]. constructor; [exact Line|exact F].
        -- rewrite X. eexists (t :: a ++ t' :: b), (_ :: ls). split; [apply SelTake; [exact C|exact S]|]. right. exists (t :: a), t', b. split; [reflexivity|]. split; [constructor; [congruence|exact A]|]. split; [exact B|]. split; [reflexivity|]. constructor; [exact Line|exact F].
      * exists (t :: sel), []. split; [apply SelTake; [exact C|exact S]|]. right. exists [], t, sel. repeat split; auto; constructor.
    + assert (C : ~ neutron t) by (intros X; apply ends_iff in X; congruence). exists sel, ls. split; [apply SelSkip; [exact C|exact S]|].
      replace (match serpent_type t with Some 1%Z => match to_serpent repr sci11 t with Ok s => let (ls0, e) := to_xsdata repr sci11 ts in (s :: ls0, e) | Err e => ([], Some e) end | _ => to_xsdata repr sci11 ts end) with (to_xsdata repr sci11 ts); [exact IH|].
      unfold serpent_type. rewrite E. destruct (ends_with "y" (x_name t)); [reflexivity|]. destruct (ends_with "t" (x_name t)); reflexivity.
Qed.

(** C86.  For codes that read their files in the same way (mcnp, d1s), a library is available for a code exactly when its
    row has a path for it and the file there has a table with that suffix; and what is looked up is that file, whatever
    the other rows. *)
Theorem C86_libraries_of_each_code : forall open_ codes rows, NoDup codes -> NoDup (map c_lib rows) -> Forall (fun c => mcnp_type c = true) codes ->
  (forall a b p, In a codes -> In b codes -> open_ a p = open_ b p) ->
  (forall c r, In c codes -> In r rows -> exists p, Path c r p /\ p <> s2l "dummy" /\ (p = [] \/ exists x, open_ c p = Ok x /\ x <> [])) ->
  (forall c r p, In r rows -> Path c r p -> p <> s2l "dummy") ->
  exists data, load_data open_ codes rows = Ok data /\ map fst data = codes
    /\ forall c d, In (c, d) data -> forall l x, dget str_eqb l d = Some x <-> exists r p, In r rows /\ c_lib r = l /\ Path c r p /\ p <> [] /\ open_ c p = Ok x /\ has_suffix x l.
Proof.
  intros open_ codes rows NC NR HM HK H HP. unfold load_data.
  assert (HR : Forall (fun r => forall c p, Path c r p -> p <> s2l "dummy") rows) by (apply Forall_forall; intros r Hr c p; apply HP; exact Hr).
  pose proof (codes_fresh open_ codes rows HK HR codes (s2l "dummy", None) [] (fun x h => h) HM eq_refl NC (fun c _ h => h)) as F.
  assert (All : exists ds, mapM (fun c => foldM (fresh_row open_ c) [] rows) codes = Ok ds /\ Forall2 (fun c d => forall l x, dget str_eqb l d = Some x <-> exists r p, In r rows /\ c_lib r = l /\ Path c r p /\ p <> [] /\ open_ c p = Ok x /\ has_suffix x l) codes ds).
  { clear F HM HK NC HP HR. induction codes as [|c codes IH]; [exists []; split; [reflexivity|constructor]|]. cbn [mapM].
    destruct (fresh_ok open_ c rows [] NR (fun l _ h => h)) as (d & E & G).
    { apply Forall_forall. intros r Hr. destruct (H c r (or_introl eq_refl) Hr) as (p & P & _ & Q). exists p. auto. }
    rewrite E. cbn [bind]. destruct (IH (fun c' r Hc Hr => H c' r (or_intror Hc) Hr)) as (ds & E' & G'). rewrite E'. exists (d :: ds). split; [reflexivity|]. constructor; [|exact G'].
    intros l x. rewrite G. cbn [dget]. split; [intros [X|X]; [discriminate X|exact X]|auto]. }
  destruct All as (ds & E & G). rewrite E in F. destruct (foldM (load_code open_ rows) _ codes) as [[st data]|e]; [|discriminate F]. destruct F as (ds' & F & ->). injection F as <-. cbn [bind snd app]. eexists. split; [reflexivity|].
  assert (Len : length codes = length ds) by (clear -G; induction G; cbn [length]; congruence). split.
  - clear -Len. revert ds Len. induction codes as [|c codes IH]; intros [|d ds] L; try discriminate; [reflexivity|]. cbn [combine map fst]. f_equal. apply IH. cbn [length] in L. lia.
  - clear -G. intros c d Hi. induction G as [|c' d' codes ds Hg _ IH]; [destruct Hi|]. cbn [combine] in Hi. destruct Hi as [X|X]; [injection X as <- <-; exact Hg|apply IH; exact X].
Qed.
(** C86.  The default library is the one given, else the first row marked so, else 81c. *)
Theorem C86_default_library : forall given rows, (forall d, given = Some d -> default_lib given rows = d)
  /\ (given = None -> forall a r b, rows = a ++ r :: b -> c_default r = s2l "yes" -> Forall (fun x => c_default x <> s2l "yes") a -> default_lib given rows = c_lib r)
  /\ (given = None -> Forall (fun x => c_default x <> s2l "yes") rows -> default_lib given rows = s2l "81c").
Proof.
  intros given rows. split; [intros d ->; reflexivity|]. split.
  - intros -> a r b -> E H. unfold default_lib. assert (F : find (fun r0 => str_eqb (c_default r0) (s2l "yes")) (a ++ r :: b) = Some r); [|rewrite F; reflexivity].
    induction H as [|x a Hx _ IH]; cbn [app find]; [rewrite E, str_eqb_refl; reflexivity|]. destruct (str_eqb (c_default x) (s2l "yes")) eqn:X; [apply str_eqb_eq in X; congruence|exact IH].
  - intros -> H. unfold default_lib. assert (F : find (fun r0 => str_eqb (c_default r0) (s2l "yes")) rows = None); [|rewrite F; reflexivity].
    induction H as [|x a Hx _ IH]; cbn [find]; [reflexivity|]. destruct (str_eqb (c_default x) (s2l "yes")) eqn:X; [apply str_eqb_eq in X; congruence|exact IH].
Qed.
(** C86.  A file given for two codes that read it in different ways (d1s and serpent) is read only the first way. *)
Theorem C86_one_file_for_two_kinds_refuted : exists open_ codes rows data x y, NoDup codes /\ Forall (fun c => mcnp_type c = true) codes /\ x <> y
  /\ load_data open_ codes rows = Ok data /\ open_ (s2l "serpent") (s2l "f") = Ok y /\ In (s2l "serpent", [(s2l "31c", x)]) data /\ In (mkC (s2l "31c") [] [(s2l "d1s", s2l "f"); (s2l "serpent", s2l "f")]) rows.
Proof.
  exists (fun c _ => if str_eqb c (s2l "serpent") then Ok [(s2l "2003", s2l "31c")] else Ok [(s2l "1001", s2l "31c")]), [s2l "d1s"; s2l "serpent"], [mkC (s2l "31c") [] [(s2l "d1s", s2l "f"); (s2l "serpent", s2l "f")]].
  eexists. exists [(s2l "1001", s2l "31c")], [(s2l "2003", s2l "31c")]. split; [constructor; [intros [X|X]; [discriminate X|exact X]|constructor; [intros X; exact X|constructor]]|]. split; [repeat constructor|]. split; [discriminate|]. split; [vm_compute; reflexivity|].
  split; [reflexivity|]. split; [right; left; reflexivity|left; reflexivity].
Qed.
(** C86.  Whatever an OpenMC file lists, no table of it is kept. *)
Theorem C86_openmc_has_no_tables_refuted : forall zaid_of lines x, read_openmc zaid_of lines = Ok x -> x = [].
Proof. intros zaid_of lines x. unfold read_openmc. destruct (mapM _ lines); [intros E; injection E as <-; reflexivity|discriminate]. Qed.

(** ** a file that meets the hypotheses *)
Definition w_xs : list str := map s2l ["datapath = /data/xs "; "Atomic Weight Ratios"; " 1001 0.9991 1002 1.9968"; " 1001 0.99916733"; " three odd words"; "skipped 2.0"; "directory";
  "1001.31c 0.999170 h1.ace 0 1 1 12 0 0 2.5301E-08"; "95642.31c 239.98 am.ace 0 1 4 99 +"; " 0 0 +"; " 2.5301E-08 ptable"; "8000.24y 15.9 o.ace 0 1 -2 7"; ""; "1002.31c 1 x"]%string.
Definition val (t : string) : Q := match parse_float (s2l t) with Ok q => q | Err _ => 0%Q end.
Definition w_ts : list xtable := [mkT (s2l "1001.31c") (val "0.999170") (s2l "h1.ace") (s2l "0") 1 1 12 (Some 0%Z) (Some 0%Z) (Some (val "2.5301E-08")) false;
  mkT (s2l "95642.31c") (val "239.98") (s2l "am.ace") (s2l "0") 1 4 99 (Some 0%Z) (Some 0%Z) (Some (val "2.5301E-08")) true; mkT (s2l "8000.24y") (val "15.9") (s2l "o.ace") (s2l "0") 1 (-2) 7 None None None false].
Definition w_ps : list (str * str) := [(s2l "1001", s2l "0.9991"); (s2l "1002", s2l "1.9968"); (s2l "1001", s2l "0.99916733")].
Ltac digits := split; [discriminate|repeat constructor].
Ltac int d := exists (s2l d); split; [digits|first [left; split; [reflexivity|reflexivity]|right; right; split; reflexivity]].
Ltac nodir := let X := fresh in intros [? X]; vm_compute in X; discriminate X.
Example C83_witness : XsdirText (Some (s2l "/data/xs")) w_ps w_ts w_xs.
Proof.
  exists (s2l "datapath = /data/xs "), (s2l "Atomic Weight Ratios"), (firstn 2 (skipn 2 w_xs)), (firstn 2 (skipn 4 w_xs)), (s2l "directory"),
    [firstn 1 (skipn 7 w_xs); firstn 3 (skipn 8 w_xs); firstn 1 (skipn 11 w_xs)], (skipn 12 w_xs), [firstn 2 w_ps; skipn 2 w_ps].
  split; [reflexivity|]. split.
  { split; [exists (s2l "datapath"), [s2l "="; s2l "/data/xs"], []; split; reflexivity|]. exists (s2l "datapath "), (s2l " /data/xs "). split; [reflexivity|]. split; [|reflexivity].
    intros X. cbn in X. repeat (destruct X as [X|X]; [discriminate X|]). exact X. }
  split; [exists (s2l "Atomic"), (s2l "Weight"), (s2l "Ratios"); repeat split; reflexivity|]. split.
  { constructor; [split; [reflexivity|split; [discriminate|nodir]]|]. constructor; [split; [reflexivity|split; [discriminate|nodir]]|constructor]. }
  split; [reflexivity|]. split; [split; [constructor; [split; [discriminate|nodir]|constructor; [split; [discriminate|nodir]|constructor]]|reflexivity]|]. split; [exists []; reflexivity|]. split.
  - constructor; [|constructor; [|constructor; [|constructor]]].
    + eexists. split; [eapply (EntryLast _ (map s2l ["1001.31c"; "0.999170"; "h1.ace"; "0"; "1"; "1"; "12"; "0"; "0"]%string) (s2l "2.5301E-08")); [reflexivity|discriminate]|].
      exists (s2l "0.999170"), (s2l "1"), (s2l "1"), (s2l "12"), (map s2l ["0"; "0"; "2.5301E-08"]%string). split; [reflexivity|]. split; [reflexivity|]. split; [int "1"%string|]. split; [int "1"%string|]. split; [int "12"%string|].
      split; [int "0"%string|]. split; [int "0"%string|]. split; [reflexivity|]. split; discriminate.
    + exists (map s2l ["95642.31c"; "239.98"; "am.ace"; "0"; "1"; "4"; "99"; "0"; "0"; "2.5301E-08"; "ptable"]%string). split.
      * apply (EntryMore _ (map s2l ["95642.31c"; "239.98"; "am.ace"; "0"; "1"; "4"; "99"]%string) (map s2l ["0"; "0"; "2.5301E-08"; "ptable"]%string)); [reflexivity|].
        apply (EntryMore _ (map s2l ["0"; "0"]%string) (map s2l ["2.5301E-08"; "ptable"]%string)); [reflexivity|]. apply (EntryLast _ [s2l "2.5301E-08"] (s2l "ptable")); [reflexivity|discriminate].
      * exists (s2l "239.98"), (s2l "1"), (s2l "4"), (s2l "99"), (map s2l ["0"; "0"; "2.5301E-08"; "ptable"]%string). split; [reflexivity|]. split; [reflexivity|]. split; [int "1"%string|]. split; [int "4"%string|]. split; [int "99"%string|].
        split; [int "0"%string|]. split; [int "0"%string|]. split; [reflexivity|]. split; reflexivity.
    + eexists. split; [eapply (EntryLast _ (map s2l ["8000.24y"; "15.9"; "o.ace"; "0"; "1"; "-2"]%string) (s2l "7")); [reflexivity|discriminate]|].
      exists (s2l "15.9"), (s2l "1"), (s2l "-2"), (s2l "7"), []. split; [reflexivity|]. split; [reflexivity|]. split; [int "1"%string|]. split; [int "2"%string|]. split; [int "7"%string|].
      split; [exact I|]. split; [exact I|]. split; [exact I|]. split; discriminate.
  - right. exists [], [s2l "1002.31c 1 x"]. split; reflexivity.
Qed.
Example C83_read_witness : exists x, read_xsdir w_xs = Ok x /\ f_awr x = [(s2l "1001", s2l "0.99916733"); (s2l "1002", s2l "1.9968")] /\ f_tables x = w_ts.
Proof. eexists. split; [vm_compute; reflexivity|]. split; reflexivity. Qed.
Example C83_short_witness : EntryText [s2l "1002.31c"; s2l "1"; s2l "x"] [s2l "1002.31c 1 x"].
Proof. apply (EntryLast _ [s2l "1002.31c"; s2l "1"] (s2l "x")); [reflexivity|discriminate]. Qed.
Example C84_witness : Forall short w_ts /\ find_fast (mkX None [] w_ts) (s2l "1001") = [s2l "31c"] /\ find_exact (mkX None [] w_ts) (s2l "8000.24y") = true.
Proof.
  split; [|split; reflexivity]. constructor; [exists (s2l "1001"), (s2l "31c")|constructor; [exists (s2l "95642"), (s2l "31c")|constructor; [exists (s2l "8000"), (s2l "24y")|constructor]]];
  (split; [reflexivity|split; [reflexivity|intros X; cbn in X; repeat (destruct X as [X|X]; [discriminate X|]); exact X]]).
Qed.
Example C85_witness : Forall (fun t => exists z l, Table z l t /\ all_digits z /\ l <> []) w_ts /\ map metastable w_ts = [Ok (Some 0%Z); Ok (Some 0%Z); Ok None].
Proof.
  split; [|reflexivity]. constructor; [exists (s2l "1001"), (s2l "31c")|constructor; [exists (s2l "95642"), (s2l "31c")|constructor; [exists (s2l "8000"), (s2l "24y")|constructor]]]; (split; [reflexivity|split; [digits|discriminate]]).
Qed.
Example C86_witness : load_data (fun _ p => if str_eqb p (s2l "a") then Ok [(s2l "1001", s2l "31c"); (s2l "1001", s2l "99c")] else Ok [(s2l "1001", s2l "24y")]) [s2l "mcnp"; s2l "d1s"]
    [mkC (s2l "31c") (s2l "yes") [(s2l "mcnp", s2l "a"); (s2l "d1s", [])]; mkC (s2l "24y") [] [(s2l "mcnp", s2l "a"); (s2l "d1s", s2l "b")]]
  = Ok [(s2l "mcnp", [(s2l "31c", [(s2l "1001", s2l "31c"); (s2l "1001", s2l "99c")])]); (s2l "d1s", [(s2l "24y", [(s2l "1001", s2l "24y")])])].
Proof. reflexivity. Qed.

Print Assumptions C83_file_is_read.
Print Assumptions C83_what_is_read_has_its_parts.
Print Assumptions C83_short_entries_are_refused.
Print Assumptions C84_exact.
Print Assumptions C84_default.
Print Assumptions C84_fast.
Print Assumptions C84_has_table.
Print Assumptions C84_tables_of_a_library.
Print Assumptions C84_long_suffix_refuted.
Print Assumptions C85_metastable.
Print Assumptions C85_serpent_file.
Print Assumptions C86_libraries_of_each_code.
Print Assumptions C86_default_library.
Print Assumptions C86_one_file_for_two_kinds_refuted.
Print Assumptions C86_openmc_has_no_tables_refuted.
