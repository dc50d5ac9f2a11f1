(** C70-C77: what is read from MCNP output files. *)
From Coq Require Import Lia ZArith Permutation Sorted.
From Verif Require Import PyBase PyStr PyText DataModel D1SModel MeshModel MeshSpec MeshProofs OutModel OutSpec OutProofs OutProofs2 OutProofs3 OutProofs4 OutProofs5.
Open Scope nat_scope.
Definition out (ls : list string) : list str := map (fun s => s2l s ++ [nl]) ls.
Ltac says := apply has_iff; vm_compute; reflexivity.
Ltac says_not := let X := fresh in intros X; apply has_iff in X; vm_compute in X; discriminate X.
Ltac finish := repeat first [apply Forall_nil | apply Forall_cons | apply Forall2_nil | apply Forall2_cons]; try (vm_compute; reflexivity).

(** ** C70: lost particles *)
Definition one_lost (sf cell pos dir : string) : list string :=
  (["1  lost particle no."; (" the neutron currently being tracked has reached surface " ++ sf)%string; (" there appears to be no cell on the other side of the surface from cell " ++ cell ++ " at that point")%string;
    ""; " the neutron is in cell"; ""; ""; (" x,y,z coordinates:   " ++ pos)%string; (" u,v,w direction cosines:   " ++ dir)%string; ""]%string).
Definition lost3 : list str := out (one_lost "12." "7" "-1.43121E-01  2.00000E+00 3.50000E+01" "1.00000E+00 0.00000E+00 0.00000E+00"
  ++ one_lost "12." "7" "1.00000E+00  2.00000E+00 3.00000E+00" "0.00000E+00 1.00000E+00 0.00000E+00"
  ++ one_lost "13." "8" "1.00000E+00  -2.00000E+00 3.00000E+00" "0.00000E+00 0.00000E+00 1.00000E+00" ++ [" 3 particles got lost."]%string).
Definition universe_of (c : str) : res (option Z) := if str_eqb c (s2l "7") then Ok (Some 100%Z) else Ok None.
(** For every output file in which every lost particle has its report, there is one row per lost particle, in the order of the
    file: with the surface and the cell of its own report, its position and (if asked) its direction. *)
Theorem C70_one_row_per_lost_particle : forall cosines univ lines is rows,
  Places (lost_at lines) is -> Forall2 (ReportAt cosines univ lines) is rows -> get_lp_debug_df cosines univ lines = Ok rows.
Proof. exact lost_ok. Qed.
Print Assumptions C70_one_row_per_lost_particle.
(** No row is ever missing or added, whatever the file. *)
Theorem C70_as_many_rows_as_lost_particles : forall cosines univ lines is rows,
  Places (lost_at lines) is -> get_lp_debug_df cosines univ lines = Ok rows -> length rows = length is.
Proof. exact lost_count. Qed.
Print Assumptions C70_as_many_rows_as_lost_particles.
(** A file that ends within the report of a lost particle is refused. *)
Theorem C70_a_cut_report_is_refused : forall cosines univ lines i, lost_at lines i -> length lines <= i + 7 -> exists e, get_lp_debug_df cosines univ lines = Err e.
Proof. exact lost_cut. Qed.
Print Assumptions C70_a_cut_report_is_refused.
(** The report has every pair of cell and surface once, with the number of particles lost there, the most frequent first; the
    csv file has the position (and direction) of each. *)
Theorem C70_the_report_counts_every_particle : forall cosines univ lines rows, get_lp_debug_df cosines univ lines = Ok rows -> univ = None \/ rows <> [] ->
  exists rep, print_lp_debug cosines univ lines = Ok rep
  /\ (forall c s n, In ((c, s), n) (rp_global rep) <-> n = length (filter (fun r => str_eqb c (l_cell r) && str_eqb s (l_surface r)) rows) /\ n <> 0)
  /\ NoDup (map fst (rp_global rep)) /\ list_sum (map snd (rp_global rep)) = length rows /\ StronglySorted more_first (rp_global rep)
  /\ Forall2 (fun r v => exists x y z, l_xyz r = (x, y, z) /\ match l_uvw r with Some (a, b, c) => v = [x; y; z; a; b; c] | None => v = [x; y; z] end) rows (rp_csv rep).
Proof.
  intros cosines univ lines rows H HU. destruct (report_ok _ _ _ _ H HU) as (rep & E & G & C & _). exists rep. rewrite G, C. destruct (global_ok rows) as (A1 & A2 & A3 & A4). repeat (split; [assumption|]).
  clear. induction rows as [|r rows IH]; constructor; [|exact IH]. unfold csv_row. destruct (l_xyz r) as [[x y] z]. exists x, y, z. split; [reflexivity|]. destruct (l_uvw r) as [[[a b] c]|]; reflexivity.
Qed.
Print Assumptions C70_the_report_counts_every_particle.
(** With an input, the sheet by universe counts the particles lost in the cells that have a universe number. *)
Theorem C70_the_report_by_universe : forall cosines g lines rows, get_lp_debug_df cosines (Some g) lines = Ok rows -> rows <> [] ->
  exists rep sheet, print_lp_debug cosines (Some g) lines = Ok rep /\ rp_univ rep = Some sheet
  /\ (forall u c s n, In ((u, (c, s)), n) sheet <-> n = length (filter (fun r => match l_univ r with Some (Some x) => (u =? x)%Z | _ => false end && (str_eqb c (l_cell r) && str_eqb s (l_surface r))) rows) /\ n <> 0)
  /\ NoDup (map fst sheet) /\ list_sum (map snd sheet) = length (filter (fun r => match l_univ r with Some (Some _) => true | _ => false end) rows).
Proof.
  intros cosines g lines rows H HN. destruct (report_ok _ _ _ _ H (or_intror HN)) as (rep & E & _ & _ & (sheet & E1 & E2)). destruct (universes_ok rows HN) as (sheet' & E3 & A1 & A2 & A3 & _).
  rewrite E1 in E3. injection E3 as <-. exists rep, sheet. auto.
Qed.
Print Assumptions C70_the_report_by_universe.
(** It is not true that the report always works: with an input, and no particle lost, it fails. *)
Theorem C70_no_lost_particle_with_an_input_refuted : forall cosines g lines, (forall i, ~ lost_at lines i) -> print_lp_debug cosines (Some g) lines = Err KeyError.
Proof. exact report_none. Qed.
Print Assumptions C70_no_lost_particle_with_an_input_refuted.
(** And the particles lost in cells without universe are in no line of the sheet by universe. *)
Theorem C70_cells_without_universe_refuted : exists rep sheet, print_lp_debug true (Some universe_of) lost3 = Ok rep /\ rp_univ rep = Some sheet
  /\ list_sum (map snd sheet) = 2 /\ list_sum (map snd (rp_global rep)) = 3.
Proof. do 2 eexists. split; [vm_compute; reflexivity|]. split; [reflexivity|]. split; reflexivity. Qed.
Print Assumptions C70_cells_without_universe_refuted.
Definition lost3_rows : list lp := Eval vm_compute in match get_lp_debug_df true (Some universe_of) lost3 with Ok r => r | Err _ => [] end.
Ltac firstnum a d b := exists a, b; split; [reflexivity|split; [finish|split; [split; [discriminate|finish]|intros ? ? X; injection X as <- <-; reflexivity]]].
Ltac sci sg d ds g xs := exists sg, d, ds, g, xs; split; [reflexivity|split; [auto|split; [reflexivity|split; [split; [discriminate|finish]|split; [auto|split; [discriminate|finish]]]]]].
Ltac fill := repeat (apply Forall_cons; [repeat split; try reflexivity; discriminate|]); apply Forall_nil.
Example C70_witness : Places (lost_at lost3) [1; 11; 21] /\ ReportAt true (Some universe_of) lost3 1 (nth 0 lost3_rows (mkLp [] [] (0, 0, 0)%Q None None))
  /\ map snd (match print_lp_debug true (Some universe_of) lost3 with Ok r => rp_global r | Err _ => [] end) = [2; 1].
Proof.
  split; [|split].
  - split; [repeat (apply SSorted_cons; [|finish; lia]); apply SSorted_nil|]. intros i. unfold lost_at. split.
    + intros H. repeat (destruct H as [<-|H]); [..|destruct H]; (eexists; split; [reflexivity|says]).
    + intros (l & E & M). apply has_iff in M.
      do 31 (destruct i as [|i]; [injection E as <-; first [vm_compute in M; discriminate M|cbn; tauto]|]). destruct i; discriminate E.
  - do 4 eexists. do 8 eexists. split; [reflexivity|]. split; [reflexivity|]. split; [reflexivity|]. split; [reflexivity|].
    split; [firstnum (s2l " the neutron currently being tracked has reached surface ") (s2l "12") (s2l "." ++ [nl])|].
    split; [firstnum (s2l " there appears to be no cell on the other side of the surface from cell ") (s2l "7") (s2l " at that point" ++ [nl])|].
    split.
    { exists (s2l " x,y,z coordinates:   "), [(s2l "-1.43121E-01", s2l "  "); (s2l "2.00000E+00", s2l " "); (s2l "3.50000E+01", [nl])]. split; [reflexivity|]. split; [fill|].
      apply Forall2_cons; [|apply Forall2_cons; [|apply Forall2_cons; [|apply Forall2_nil]]]; cbn [fst snd].
      - split; [sci (s2l "-") "1"%char (s2l "43121") minus (s2l "01")|]. split; [fill|]. split; [discriminate|]. vm_compute. reflexivity.
      - split; [sci (@nil ascii) "2"%char (s2l "00000") plus (s2l "00")|]. split; [fill|]. split; [discriminate|]. vm_compute. reflexivity.
      - split; [sci (@nil ascii) "3"%char (s2l "50000") plus (s2l "01")|]. split; [fill|]. split; [discriminate|]. vm_compute. reflexivity. }
    split; [reflexivity|]. split.
    { exists (s2l " u,v,w direction cosines:   "), [(s2l "1.00000E+00", s2l " "); (s2l "0.00000E+00", s2l " "); (s2l "0.00000E+00", [nl])]. split; [reflexivity|]. split; [fill|].
      apply Forall2_cons; [|apply Forall2_cons; [|apply Forall2_cons; [|apply Forall2_nil]]]; cbn [fst snd].
      - split; [sci (@nil ascii) "1"%char (s2l "00000") plus (s2l "00")|]. split; [fill|]. split; [discriminate|]. vm_compute. reflexivity.
      - split; [sci (@nil ascii) "0"%char (s2l "00000") plus (s2l "00")|]. split; [fill|]. split; [discriminate|]. vm_compute. reflexivity.
      - split; [sci (@nil ascii) "0"%char (s2l "00000") plus (s2l "00")|]. split; [fill|]. split; [discriminate|]. vm_compute. reflexivity. }
    split; [reflexivity|]. eexists. split; [vm_compute; reflexivity|reflexivity].
  - reflexivity.
Qed.

(** ** C71: number of lost particles and of histories *)
(** The total is the first whole number of the last line that says that particles got lost. *)
Theorem C71_lost_particles : forall a l b, mentions "particles got lost" l -> Forall (fun x => ~ mentions "particles got lost" x) b ->
  (forall z, FirstInt z l -> get_tot_lp (a ++ l :: b) = Some z) /\ (digit_free l -> get_tot_lp (a ++ l :: b) = None).
Proof. exact tot_ok. Qed.
Print Assumptions C71_lost_particles.
Theorem C71_no_lost_particles : forall lines, Forall (fun x => ~ mentions "particles got lost" x) lines -> get_tot_lp lines = None.
Proof. exact tot_none. Qed.
Print Assumptions C71_no_lost_particles.
(** The number of histories is the first whole number three lines below the first heading of the table of the particle; a file
    without such table, number or line is refused. *)
Theorem C71_histories : forall particle a l b, Mentions (particle ++ s2l " creation") l -> Forall (fun x => ~ Mentions (particle ++ s2l " creation") x) a ->
  (forall l3 z, nth_error b 2 = Some l3 -> FirstInt z l3 -> get_NPS particle (a ++ l :: b) = Ok z)
  /\ (forall l3, nth_error b 2 = Some l3 -> digit_free l3 -> get_NPS particle (a ++ l :: b) = Err AttributeError)
  /\ (length b < 3 -> get_NPS particle (a ++ l :: b) = Err IndexError).
Proof. exact nps_ok. Qed.
Print Assumptions C71_histories.
Theorem C71_no_histories : forall particle lines, Forall (fun x => ~ Mentions (particle ++ s2l " creation") x) lines -> get_NPS particle lines = Err ValueError.
Proof. exact nps_none. Qed.
Print Assumptions C71_no_histories.
(** The ratio is the one number divided by the other. *)
Theorem C71_ratio : forall lines lp nps, get_tot_lp lines = Some lp -> get_NPS (s2l "neutron") lines = Ok nps -> nps <> 0%Z ->
  get_LPR lines = Ok (inject_Z lp / inject_Z nps)%Q.
Proof. intros lines lp nps H1 H2 H3. unfold get_LPR. rewrite H2, H1. cbn [bind]. destruct (Z.eqb_spec nps 0); [congruence|reflexivity]. Qed.
Print Assumptions C71_ratio.
Theorem C71_no_neutrons : forall lines lp, get_tot_lp lines = Some lp -> get_NPS (s2l "neutron") lines = Ok 0%Z -> get_LPR lines = Err ZeroDivisionError.
Proof. intros lines lp H1 H2. unfold get_LPR. rewrite H2, H1. reflexivity. Qed.
Print Assumptions C71_no_neutrons.
(** It is not zero when no particle got lost: it fails. *)
Theorem C71_ratio_without_lost_particles_refuted : forall lines nps, Forall (fun x => ~ mentions "particles got lost" x) lines ->
  get_NPS (s2l "neutron") lines = Ok nps -> get_LPR lines = Err TypeError.
Proof. intros lines nps H1 H2. unfold get_LPR. rewrite H2, (tot_none _ H1). reflexivity. Qed.
Print Assumptions C71_ratio_without_lost_particles_refuted.
Definition counted : list str := out [" title"; " neutron creation     tracks"; "  (per source particle)"; ""; "  source          1000    1.0000E+00"; " neutron creation     tracks"; ""; ""; " source 2000"; " 5 particles got lost."; "8"]%string.
Example C71_witness : get_tot_lp counted = Some 5%Z /\ get_NPS (s2l "neutron") counted = Ok 1000%Z /\ get_LPR counted = Ok (5 # 1000)%Q
  /\ FirstInt 5 (s2l " 5 particles got lost." ++ [nl]) /\ get_LPR (firstn 9 counted) = Err TypeError.
Proof.
  split; [reflexivity|]. split; [reflexivity|]. split; [reflexivity|]. split; [|reflexivity]. exists (s2l "5"). split; [|reflexivity]. firstnum (s2l " ") (s2l "5") (s2l " particles got lost." ++ [nl]).
Qed.

(** ** C72: the summary of the statistical checks *)
(** Each tally of the (first) summary has the last result given for it there, and no other tally has one. *)
Theorem C72_every_tally_has_its_result : forall es lines, SummaryText es lines ->
  exists d, get_checks lines = Ok d /\ (forall t v, dget Z.eqb t d = Some v <-> last_of (fun x => x = t) es v) /\ (NoDup (map fst es) -> d = es).
Proof. intros es lines H. exists (fold_checks es []). split; [apply summary_read; exact H|]. split; [intros; apply summary_last|apply summary_distinct]. Qed.
Print Assumptions C72_every_tally_has_its_result.
Theorem C72_no_summary : forall lines, Forall no_title lines -> get_checks lines = Ok [].
Proof. exact summary_none. Qed.
Print Assumptions C72_no_summary.
(** A tally line that shows no known result is not left out (as the code says it is): the tally gets the result of the one
    before it, *)
Theorem C72_an_unclear_result_is_that_of_the_previous_tally_refuted : forall a t b l c es k v, Forall no_title a -> mentions "result of statistical checks" t -> Body es b ->
  last es (0%Z, Missed) = (k, v) -> es <> [] -> no_title l -> forall n, Numbered n l -> Unclear l -> Ending c ->
  get_checks (a ++ t :: b ++ l :: c) = Ok (dset Z.eqb n v (fold_left (fun d kv => dset Z.eqb (fst kv) (snd kv) d) es [])).
Proof. exact unclear_next. Qed.
Print Assumptions C72_an_unclear_result_is_that_of_the_previous_tally_refuted.
(** and if there is none before it, reading fails. *)
Theorem C72_an_unclear_first_result_fails_refuted : forall a t b l c, Forall no_title a -> mentions "result of statistical checks" t -> Body [] b ->
  no_title l -> forall n, Numbered n l -> Unclear l -> get_checks (a ++ t :: b ++ l :: c) = Err UnboundLocalError.
Proof. exact unclear_first. Qed.
Print Assumptions C72_an_unclear_first_result_fails_refuted.
Definition summary1 : list string := [" 1tally fluctuation"; " result of statistical checks for the tfc bin"; ""; "  tally   result"; "   4      passed the 10 checks";
  "  14      missed 3 of 10 checks"; "  24      the tally has no nonzero values"; " the 10 statistical checks are only a guide"; "  34   passed"]%string.
Ltac not_numbered := let t := fresh in let X := fresh in intros t X; apply tally_iff in X; vm_compute in X; discriminate X.
Example C72_witness : SummaryText [(4, Passed); (14, Missed); (24, AllZeros)]%Z (out summary1)
  /\ get_checks (out summary1) = Ok [(4, Passed); (14, Missed); (24, AllZeros)]%Z.
Proof.
  split; [|vm_compute; reflexivity]. exists (out [" 1tally fluctuation"]%string), (s2l " result of statistical checks for the tfc bin" ++ [nl]), (out [""; "  tally   result"; "   4      passed the 10 checks";
  "  14      missed 3 of 10 checks"; "  24      the tally has no nonzero values"]%string), (out [" the 10 statistical checks are only a guide"; "  34   passed"]%string).
  split; [reflexivity|]. split; [finish; says_not|]. split; [says|]. split.
  - apply body_other; [right; split; [not_numbered|says_not]|]. apply body_other; [right; split; [not_numbered|says_not]|].
    apply body_tally; [says_not|apply tally_iff; reflexivity|split; [says_not|says]|]. apply body_tally; [says_not|apply tally_iff; reflexivity|says|].
    apply body_tally; [says_not|apply tally_iff; reflexivity|split; [says_not|split; [says_not|says]]|]. apply body_nil.
  - right. do 2 eexists. split; [reflexivity|]. split; [says_not|]. split; [not_numbered|says].
Qed.
Example C72_unclear_witness : get_checks (out [" result of statistical checks"; "  4  missed"; "  14  not computed"]%string) = Ok [(4, Missed); (14, Missed)]%Z
  /\ get_checks (out [" result of statistical checks"; "  14  not computed"]%string) = Err UnboundLocalError.
Proof. split; reflexivity. Qed.

(** ** C73: the tables of the statistical checks *)
(** The table of a tally has the three rows of the (first) table with its number, each word in its own column; a row whose two
    columns for the figure of merit are blank has them empty (for the row of results: "yes"), its other words in their columns. *)
Theorem C73_the_table_of_a_tally : forall t lines dw of_ o7 os pf p7 ps, TableAt t lines dw of_ o7 os pf p7 ps ->
  get_tally_stat_checks t lines = Ok [(Some (s2l "desired"), map Some dw); (Some (s2l "observed"), ten None of_ o7 os); (Some (s2l "passed?"), ten (Some (s2l "yes")) pf p7 ps)].
Proof. exact table_read. Qed.
Print Assumptions C73_the_table_of_a_tally.
Theorem C73_a_tally_without_table_is_refused : forall t lines, (forall l, In l lines -> ~ TitleOf t l) -> get_tally_stat_checks t lines = Err ValueError.
Proof. exact no_table. Qed.
Print Assumptions C73_a_tally_without_table_is_refused.
(** The table of all tallies has a row per tally of the summary, in increasing order, with the results of its own table (nothing
    for a tally of zeros without table) and its result of the summary. *)
Theorem C73_every_tally_has_its_row : forall lines es rows, SummaryText es lines -> NoDup (map fst es) -> es <> [] -> Forall2 (RowFor lines) es rows ->
  exists tab, get_stat_checks_table lines = Ok tab /\ Permutation tab rows /\ StronglySorted (fun a b => (tr_tally a <= tr_tally b)%Z) tab.
Proof. exact all_checks. Qed.
Print Assumptions C73_every_tally_has_its_row.
Theorem C73_a_missing_table_is_refused : forall lines es t v, SummaryText es lines -> NoDup (map fst es) -> In (t, v) es -> v <> AllZeros -> (forall l, In l lines -> ~ TitleOf t l) ->
  exists e, get_stat_checks_table lines = Err e.
Proof. exact all_checks_missing. Qed.
Print Assumptions C73_a_missing_table_is_refused.
(** A file without tallies gives an error rather than an empty table. *)
Theorem C73_no_tallies_refuted : forall lines, Forall no_title lines -> get_stat_checks_table lines = Err ValueError.
Proof. intros lines H. unfold get_stat_checks_table. rewrite (summary_none _ H). reflexivity. Qed.
Print Assumptions C73_no_tallies_refuted.
Definition checks_of (t : string) (obs res : string) : list string :=
  [("           results of 10 statistical checks for the estimated answer for the tally fluctuation chart (tfc) bin of tally " ++ t)%string; ""; " tfc bin     --mean--"; " behavior    behavior"; "";
   " desired  random <0.10 yes 1/sqrt(nps) <0.10 yes 1/nps constant random >3.00"; obs; res; ""]%string.
Definition tables (obs res : string) : list str := out (checks_of "14" obs res ++ checks_of "4" " observed random 0.02 yes yes 0.00 yes yes constant random 10.00" " passed? yes yes yes yes yes yes yes yes yes yes" ++
  [" result of statistical checks"; "   14  missed"; "    4  passed"; "   24 no nonzero"]%string).
Definition table14 (obs res : string) : list (option str) := match (do df <- get_tally_stat_checks 14 (tables obs res); loc (s2l "passed?") df) with Ok c => c | Err _ => [] end.
(** And a row in which only one word is missing (here the last) is taken for one with a blank figure of merit: the "no" and "yes" of
    the figure of merit become "yes" and "yes", and the "no" appears as the result of the slope. *)
Theorem C73_a_short_row_hides_a_failed_check_refuted : exists obs res,
  split (s2l res) = map s2l ["passed?"; "yes"; "yes"; "yes"; "yes"; "yes"; "yes"; "yes"; "no"; "yes"]%string
  /\ table14 obs res = map Some (map s2l ["yes"; "yes"; "yes"; "yes"; "yes"; "yes"; "yes"; "yes"; "yes"; "no"]%string).
Proof.
  exists " observed random 0.02 yes yes 0.00 yes yes constant random"%string, " passed? yes yes yes yes yes yes yes no yes"%string. split; vm_compute; reflexivity.
Qed.
Print Assumptions C73_a_short_row_hides_a_failed_check_refuted.
Definition blank_fom : list str := tables " observed random 0.02 yes yes 0.00 yes yes 10.00" " passed? yes no yes yes yes yes yes no".
Ltac titled x := exists x, sp; split; [reflexivity|split; [discriminate|reflexivity]].
Ltac not_titled := let X := fresh in intros X; apply title_iff in X; vm_compute in X; discriminate X.
Example C73_witness : TableAt 14 blank_fom (map s2l ["random"; "<0.10"; "yes"; "1/sqrt(nps)"; "<0.10"; "yes"; "1/nps"; "constant"; "random"; ">3.00"]%string)
    None (map s2l ["random"; "0.02"; "yes"; "yes"; "0.00"; "yes"; "yes"]%string) (s2l "10.00") None (map s2l ["yes"; "no"; "yes"; "yes"; "yes"; "yes"; "yes"]%string) (s2l "no")
  /\ (exists tab, get_stat_checks_table blank_fom = Ok tab /\ map tr_tally tab = [4; 14; 24]%Z /\ map tr_verdict tab = [Passed; Missed; AllZeros]
      /\ nth 1 (map tr_cells tab) [] = map Some (map s2l ["yes"; "no"; "yes"; "yes"; "yes"; "yes"; "yes"; "yes"; "yes"; "no"]%string)).
Proof.
  split.
  - exists 0. do 3 eexists. split; [eexists; split; [reflexivity|titled (s2l "checks for the estimated answer for the tally fluctuation chart (tfc) bin of tally")]|].
    split; [intros j l Hj; lia|]. split; [reflexivity|]. split; [split; reflexivity|]. split; [reflexivity|]. split; [split; reflexivity|]. split; [reflexivity|]. split; reflexivity.
  - eexists. split; [vm_compute; reflexivity|]. split; [reflexivity|]. split; reflexivity.
Qed.

(** ** C74: descriptions of the tallies *)
(** Each result is kept under the description of its own tally (its first comment line, nothing without comments) and its number. *)
Theorem C74_every_result_under_its_description : forall tallies s, NoDup (map fst s) -> Forall (fun p => exists c, last_of (fun x => x = fst p) tallies c) s ->
  exists names, Forall2 (fun p n => exists c, last_of (fun x => x = fst p) tallies c /\ n = (named (first_comment c) (fst p), snd p)) s names
    /\ assign_tally_description tallies s = Ok names.
Proof. exact assign_ok. Qed.
Print Assumptions C74_every_result_under_its_description.
(** A tally that is not in the list gets the description of the tally before it, *)
Theorem C74_unknown_tally_gets_another_description_refuted : forall tallies t v t' v' c, t <> t' -> last_of (fun x => x = t) tallies c -> (forall k x, In (k, x) tallies -> k <> t') ->
  assign_tally_description tallies [(t, v); (t', v')] = Ok [(named (first_comment c) t, v); (named (first_comment c) t', v')].
Proof. exact assign_stale. Qed.
Print Assumptions C74_unknown_tally_gets_another_description_refuted.
(** or makes it fail, if it comes first. *)
Theorem C74_unknown_first_tally_fails_refuted : forall tallies t v s, (forall k x, In (k, x) tallies -> k <> t) -> assign_tally_description tallies ((t, v) :: s) = Err UnboundLocalError.
Proof. exact assign_unknown. Qed.
Print Assumptions C74_unknown_first_tally_fails_refuted.
Example C74_witness : assign_tally_description [(4%Z, [s2l "flux"; s2l "more"]); (14%Z, [])] [(14%Z, Missed); (4%Z, Passed)] = Ok [(s2l " [14]", Missed); (s2l "flux [4]", Passed)]
  /\ last_of (fun x => x = 4%Z) [(4%Z, [s2l "flux"; s2l "more"]); (14%Z, [])] [s2l "flux"; s2l "more"]
  /\ assign_tally_description [(4%Z, [s2l "flux"])] [(4%Z, Missed); (14%Z, Passed)] = Ok [(s2l "flux [4]", Missed); (s2l "flux [14]", Passed)].
Proof. split; [reflexivity|]. split; [|reflexivity]. exists [], 4%Z, [(14%Z, [])]. split; [reflexivity|]. split; [reflexivity|]. intros k v [E|[]]. injection E as <- _. discriminate. Qed.

(** ** C75: printed tables *)
(** Of a table printed several times, each between its title and its line of totals, the rows read for instance n (counted from the
    first, or from the last for negative numbers) start after the title of the n-th one and are two less than the lines up to its totals; the
    widths are those shown by the row before the last of the last one. *)
Theorem C75_the_rows_of_the_table : forall num xs tail n x y, Forall (Instance (s2l "table " ++ str_of_Z num)) xs -> Forall (quiet (s2l "table " ++ str_of_Z num)) tail ->
  nth_error xs n = Some x -> nth_error xs (length xs - 1) = Some y ->
  get_table_plan num (Z.of_nat n) (concat (map lines_of_instance xs) ++ tail) = Ok (first_row xs n, (Z.of_nat (length (i_body x)) - 2)%Z, fwf_widths (model_line y))
  /\ get_table_plan num (Z.of_nat n - Z.of_nat (length xs)) (concat (map lines_of_instance xs) ++ tail) = Ok (first_row xs n, (Z.of_nat (length (i_body x)) - 2)%Z, fwf_widths (model_line y)).
Proof. exact tables_found. Qed.
Print Assumptions C75_the_rows_of_the_table.
Theorem C75_no_table_is_refused : forall num idx lines, Forall (quiet (s2l "table " ++ str_of_Z num)) lines -> get_table_plan num idx lines = Err ValueError.
Proof. exact no_tables. Qed.
Print Assumptions C75_no_table_is_refused.
(** For a line of words without blanks, each with blanks before it, the columns end where its words end. *)
Theorem C75_the_columns_end_where_the_words_end : forall ws l, columns ws l -> fwf_widths l = map (fun p => S (fst p) + length (snd p)) ws.
Proof. exact widths_ok. Qed.
Print Assumptions C75_the_columns_end_where_the_words_end.
(** A line that starts with a word has the same widths as without it: its columns are not where its words are. *)
Theorem C75_a_line_without_leading_blank_refuted : forall w ws l, word w -> columns ws l -> fwf_widths (w ++ l) = fwf_widths l.
Proof. exact widths_first. Qed.
Print Assumptions C75_a_line_without_leading_blank_refuted.
Definition table126 (rows : list string) : list string := (["1neutron activity in each cell       print table 126"; "        cell  tracks"; ""]%string ++ rows ++ [""; " total  100"; ""]%string).
Definition twice : list str := out (table126 ["  1    10"; "  2    20"]%string ++ table126 ["  1    10   0.5"; "  2    20   0.7"; "  3    20   0.7"]%string).
(** The widths of an earlier instance are not its own when a later one has other columns, and the title is looked for as a plain
    text: table 12 is found in a file with table 126 only. *)
Theorem C75_widths_of_another_instance_refuted : exists w, get_table_plan 126 0 twice = Ok (1, 3%Z, w) /\ w = fwf_widths (s2l "  3    20   0.7" ++ [nl]) /\ w <> fwf_widths (s2l "  2    20" ++ [nl])
  /\ get_table_plan 12 0 twice = get_table_plan 126 0 twice.
Proof. eexists. split; [vm_compute; reflexivity|]. split; [reflexivity|]. split; [discriminate|reflexivity]. Qed.
Print Assumptions C75_widths_of_another_instance_refuted.
Definition inst1 : instance := mkInst [] (nth 0 twice []) (firstn 5 (skipn 1 twice)) (nth 6 twice []).
Definition inst2 : instance := mkInst [nth 7 twice []] (nth 8 twice []) (firstn 6 (skipn 9 twice)) (nth 15 twice []).
Ltac contains_it := apply contains_iff; vm_compute; reflexivity.
Ltac contains_not_it := let X := fresh in intros X; apply contains_iff in X; vm_compute in X; discriminate X.
Example C75_witness : Forall (Instance (s2l "table " ++ str_of_Z 126)) [inst1; inst2] /\ twice = concat (map lines_of_instance [inst1; inst2]) ++ skipn 16 twice
  /\ get_table_plan 126 (-1) twice = Ok (first_row [inst1; inst2] 1, 4%Z, fwf_widths (model_line inst2)) /\ first_row [inst1; inst2] 1 = 9
  /\ columns [(1, s2l "3"); (3, s2l "20"); (2, s2l "0.7" ++ [nl])] (model_line inst2) /\ fwf_widths (model_line inst2) = [3; 6; 7].
Proof.
  split; [|split; [reflexivity|split; [reflexivity|split; [reflexivity|split; [|reflexivity]]]]].
  - apply Forall_cons; [|apply Forall_cons; [|apply Forall_nil]]; (split; [finish; contains_not_it|split; [contains_it|split; [vm_compute; lia|split; [cbn [i_body inst1 inst2]|split; [says|contains_not_it]]]]]);
    match goal with |- Forall _ ?ls => let x := eval vm_compute in ls in change ls with x end; repeat (apply Forall_cons; [split; [contains_not_it|says_not]|]); apply Forall_nil.
  - split; [reflexivity|]. finish; (split; [discriminate|finish; discriminate]).
Qed.

(** ** C76: the version of the code *)
(** A D1SUNED version in the first 34 lines is given, whatever the other lines and files say; *)
Theorem C76_d1suned_version : forall a l b others v, length a < 34 -> Forall no_d1s a -> D1SLine v l -> get_code_version (a ++ l :: b) others = Ok (s2l "d1suned" ++ v).
Proof. exact version_d1s. Qed.
Print Assumptions C76_d1suned_version.
(** otherwise the MCNP version of the first line, without the zeros around it. *)
Theorem C76_mcnp_version : forall l b others v r, Forall no_d1s (firstn 34 (l :: b)) -> MCNPLine v l -> r <> [] -> trimmed0 v r -> get_code_version (l :: b) others = Ok r.
Proof. exact version_mcnp. Qed.
Print Assumptions C76_mcnp_version.
Theorem C76_no_version_is_refused : forall lines, Forall no_d1s (firstn 34 lines) -> (forall l r, lines = l :: r -> ~ Mentions (s2l "MCNP_") l) -> get_code_version lines [] = Err ValueError.
Proof. exact version_none. Qed.
Print Assumptions C76_no_version_is_refused.
(** The MCNP version is not found in the second, third or fourth line (although four lines are meant to be looked at); and 6.10
    and 6.0 are shown as 6.1 and "6.". *)
Theorem C76_only_the_first_line_refuted : get_code_version (out ["1mcnp"; "Code Name & Version = MCNP_6.20, 6.2.0"]%string) [] = Err ValueError
  /\ get_code_version (out ["Code Name & Version = MCNP_6.20, 6.2.0"]%string) [] = Ok (s2l "6.2")
  /\ get_code_version (out ["Code Name & Version = MCNP_6.10"]%string) [] = get_code_version (out ["Code Name & Version = MCNP_6.1"]%string) []
  /\ get_code_version (out ["Code Name & Version = MCNP_6.0"]%string) [] = Ok (s2l "6.").
Proof. repeat split; vm_compute; reflexivity. Qed.
Print Assumptions C76_only_the_first_line_refuted.
Example C76_witness : D1SLine (s2l "4") (s2l " d1suned  version  4 ld=01" ++ [nl]) /\ get_code_version (out ["1mcnp"; " d1suned  version  4 ld=01"]%string) [] = Ok (s2l "d1suned4")
  /\ MCNPLine (s2l "6.20") (s2l "Version = MCNP_6.20, x") /\ trimmed0 (s2l "6.20") (s2l "6.2").
Proof.
  split; [|split; [reflexivity|split]].
  - exists (s2l " "), (s2l "  "), (s2l "  "), (s2l " ld=01" ++ [nl]). split; [reflexivity|]. split; [contains_not_it|]. split; [split; [discriminate|finish]|]. split; [split; [discriminate|finish]|]. split; [split; [discriminate|finish]|].
    intros c r E. injection E as <- <-. reflexivity.
  - exists (s2l "Version = "), (s2l ", x"). split; [reflexivity|]. split; [contains_not_it|]. split; [discriminate|]. split; [finish|]. intros c r E. injection E as <- <-. reflexivity.
  - exists 0, 1. split; [reflexivity|]. split; intros c r E; injection E as <- <-; discriminate.
Qed.

(** ** C77: warnings and fatal errors *)
(** Every text of a warning is listed once, in alphabetical order, with the number of lines with a warning that give it; all
    lines with a warning are counted. *)
Theorem C77_every_warning_is_counted : forall collapse lines, let ws := filter (has "warning.") lines in
  (forall m n, In (m, n) (get_warnings collapse lines) <-> n = length (filter (fun l => str_eqb m (warning_of collapse l)) ws) /\ n <> 0)
  /\ NoDup (map fst (get_warnings collapse lines)) /\ list_sum (map snd (get_warnings collapse lines)) = length ws
  /\ StronglySorted (fun a b => str_leb a b = true) (map fst (get_warnings collapse lines)).
Proof. exact warnings_ok. Qed.
Print Assumptions C77_every_warning_is_counted.
(** The text of a warning is its line without "warning." and without blanks around it; if asked, warnings on unused and on
    replaced surfaces are put together. *)
Theorem C77_the_text_of_a_warning : forall m l, Warning m l -> warning_of false l = m
  /\ (~ mentions "not used for anything" l -> ~ mentions "this surface has been replaced" l -> warning_of true l = m)
  /\ (mentions "not used for anything" l -> warning_of true l = s2l "unused surfaces")
  /\ (~ mentions "not used for anything" l -> mentions "this surface has been replaced" l -> warning_of true l = s2l "replaced surfaces").
Proof.
  intros m l H. split; [exact (warning_text m l H)|]. split; [intros H1 H2; rewrite (warning_plain l H1 H2); exact (warning_text m l H)|]. split; [exact (warning_unused l)|exact (warning_replaced l)].
Qed.
Print Assumptions C77_the_text_of_a_warning.
(** The warnings that the code names as not interesting are listed too. *)
Theorem C77_warnings_to_leave_out_refuted : get_warnings true (out [" warning.  1 particles got lost so far"; " warning.  the tally in the tally fluctuation chart bin did not pass"; " warning.  surface 1 is not used for anything."; " warning.  surface 2 is not used for anything."]%string)
  = [(s2l "1 particles got lost so far", 1); (s2l "the tally in the tally fluctuation chart bin did not pass", 1); (s2l "unused surfaces", 2)].
Proof. vm_compute. reflexivity. Qed.
Print Assumptions C77_warnings_to_leave_out_refuted.
(** Every line that starts (after blanks) with a fatal error gives what follows the words "fatal error.", in order, and no other line does. *)
Theorem C77_every_fatal_error : forall lines ms, (forall l, is_fatal l = true <-> fatal_line l) /\ (Forall2 Fatal ms (filter is_fatal lines) -> get_fatal_errors lines = ms).
Proof. intros lines ms. split; [exact fatal_iff|apply fatal_ok]. Qed.
Print Assumptions C77_every_fatal_error.
Example C77_witness : Warning (s2l "material 1 is missing") (s2l " warning.  material 1 is missing" ++ [nl]) /\ Fatal (s2l "no source") (s2l "  fatal error. no source" ++ [nl])
  /\ get_fatal_errors (out ["  fatal error. no source"; "fatal error. at the margin"; " fatal error.  bad card"]%string) = [s2l "no source"; s2l "bad card"].
Proof.
  split; [|split; [|reflexivity]].
  - exists (s2l " "), (s2l "  material 1 is missing" ++ [nl]). split; [reflexivity|]. split; [contains_not_it|]. split; [contains_not_it|reflexivity].
  - exists (s2l "  "), (s2l " no source" ++ [nl]). split; [reflexivity|]. split; [contains_not_it|reflexivity].
Qed.
