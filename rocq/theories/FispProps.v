(** C78-C79: the pathways of FISPACT legacy outputs. *)
From Coq Require Import Lia ZArith Permutation Sorted.
From Verif Require Import PyBase PyStr PyText D1SModel DataModel MeshModel MeshSpec MeshProofs LibModel LibSpec IsoData OutModel OutSpec FispModel FispSpec FispProofs FispProofs2.
Open Scope nat_scope.
Definition out (ls : list string) : list str := map (fun s => s2l s ++ [nl]) ls.

(** ** C78: reading the pathways *)
(** The pathways are those of the section of the file between the last line on loops and the last title of generic pathways. *)
Theorem C78_the_section_is_read : forall sec lines, Section_of sec lines -> from_file lines = read_paths sec.
Proof. exact file_section. Qed.
Print Assumptions C78_the_section_is_read.
(** For every section whose paths have the row of their reactions in the next line, there is one pathway per path, in order, with its own
    parent, intermediate nuclides, daughter, percentage and reactions. *)
Theorem C78_every_path_is_read : forall sec lines is ps, Section_of sec lines -> Places (path_at sec) is -> Forall2 (PathAt sec) is ps -> from_file lines = Ok ps.
Proof.
  intros sec lines is ps H1 H2 H3. rewrite (file_section _ _ H1). apply (section_read sec is ps H2). clear - H3. induction H3 as [|i p is ps H HF IH]; constructor; [left; exact H|exact IH].
Qed.
Print Assumptions C78_every_path_is_read.
(** No pathway is ever missing or added. *)
Theorem C78_as_many_as_paths : forall sec lines is ps, Section_of sec lines -> Places (path_at sec) is -> from_file lines = Ok ps -> length ps = length is.
Proof. intros sec lines is ps H1 H2 H3. rewrite (file_section _ _ H1) in H3. exact (section_count _ _ _ H2 H3). Qed.
Print Assumptions C78_as_many_as_paths.
(** A file without the one or the other line is refused. *)
Theorem C78_no_section_is_refused : forall lines, Forall (fun l => ~ starts l) lines \/ Forall (fun l => ~ ends l) lines -> from_file lines = Err UnboundLocalError.
Proof. exact no_section. Qed.
Print Assumptions C78_no_section_is_refused.
(** A path with intermediate nuclides and another number of reactions than steps, that is not continued four lines below, is refused. *)
Theorem C78_a_misfit_is_refused : forall sec lines i l q par mids dau l1 rs, Section_of sec lines -> nth_error sec i = Some l -> PathLine q (par :: mids ++ [dau]) l ->
  nth_error sec (i + 1) = Some l1 -> ReactionRow rs l1 -> mids <> [] -> length rs <> length mids + 1 ->
  (forall l4, nth_error sec (i + 4) = Some l4 -> ~ mentions "path continued" l4) -> exists e, from_file lines = Err e.
Proof.
  intros sec lines i l q par mids dau l1 rs HS Hl HP E1 HR Hm HL H4. rewrite (file_section _ _ HS). apply (section_fails sec i l Hl); [apply (path_line_read _ _ _ HP)|].
  exact (misfit sec i l _ q par mids dau l1 rs Hl eq_refl HP E1 HR Hm HL H4).
Qed.
Print Assumptions C78_a_misfit_is_refused.
(** A long path is continued on a second line that starts with the last nuclide of the first one and repeats the reaction after it.  What is
    read is not the path: this nuclide and this reaction appear twice. *)
Theorem C78_long_path_doubles_a_nuclide_refuted : forall sec i l q zs z mid2 dau par mids rs rs2, nth_error sec i = Some l ->
  LongPathAt sec i q zs z (mid2 ++ [dau]) rs rs2 -> zs = par :: mids -> mids <> [] ->
  read_path l (skipn (S i) sec) = Ok (mkPw par dau q (rs ++ rs2) (Some (mids ++ [z] ++ z :: mid2))).
Proof.
  intros sec i l q zs z mid2 dau par mids rs rs2 Hl HL -> Hm. apply (long_read sec i l _ q (par :: mids) z (mid2 ++ [dau]) rs rs2 _ Hl eq_refl HL).
  - destruct mids; [congruence|cbn [length]; lia].
  - exists par, mids, mid2, dau. auto.
Qed.
Print Assumptions C78_long_path_doubles_a_nuclide_refuted.
Definition file_of (ls : list string) : list str := out ([" header"; " Significant loops are displayed directly after their path"; ""]%string ++ ls ++ ["      G E N E R I C   P A T H W A Y S"; " path  1  10.0% Fe 56 ---(R)--- Mn 56 ---(S)---"; " (n,p)"]%string).
(** A direct path (two nuclides) is accepted with any number of reactions, also none; its text then fails or hides the others. *)
Theorem C78_direct_path_with_other_reactions_refuted : exists p p2,
  from_file (file_of [" path  1  10.0% Fe 56 ---(R)--- Mn 56 ---(S)---"; "   nothing here"]%string) = Ok [p] /\ p_reactions p = [] /\ show_path p = Err IndexError
  /\ from_file (file_of [" path  1  10.0% Fe 56 ---(R)--- Mn 56 ---(S)---"; "   10%(n,p)  90%(n,d)"]%string) = Ok [p2] /\ length (p_reactions p2) = 2.
Proof. do 2 eexists. split; [vm_compute; reflexivity|]. split; [reflexivity|]. split; [reflexivity|]. split; [vm_compute; reflexivity|reflexivity]. Qed.
Print Assumptions C78_direct_path_with_other_reactions_refuted.

Definition sample : list string := [" Target nuclide Co 58     99.273% of inventory given by  2 paths"; " --------------------"; ""; " path  1  54.559% Ni 58 ---(R)--- Co 58 ---(S)--- ";
  "                    100.00%(n,p)                   "; ""; " path  2  44.714% Ni 58 ---(R)--- Co 58m---(b)--- Co 58 ---(S)--- "; "                    100.00%(n,p)    100.00%(IT)                    ";
  "                                      0.00%(n,n)                   "; ""]%string.
Definition sec0 : list str := out (""%string :: sample).
Definition ni58 := mkNuc (s2l "Ni") (s2l "58") false.
Definition co58 := mkNuc (s2l "Co") (s2l "58") false.
Definition co58m := mkNuc (s2l "Co") (s2l "58") true.
Definition path2 := mkPw ni58 co58 (Qmake 44714 1000) [s2l "(n,p)"; s2l "(IT)"] (Some [co58m]).
Ltac says := apply has_iff; vm_compute; reflexivity.
Ltac says_not := let X := fresh in intros X; apply has_iff in X; vm_compute in X; discriminate X.
Ltac finish := repeat first [apply Forall_nil | apply Forall_cons | apply Forall2_nil | apply Forall2_cons]; try (vm_compute; reflexivity).
Ltac blank := split; [discriminate|finish].
Ltac nuc w u lo := exists w; split; [reflexivity|split; [exists u, lo; split; [reflexivity|split; [reflexivity|finish]]|split; [finish|split; [discriminate|finish]]]].
Ltac edge w1 x w2 := exists w1, x, w2; split; [reflexivity|split; finish].
Example C78_witness : Section_of sec0 (file_of sample) /\ Places (path_at sec0) [4; 7] /\ PathAt sec0 7 path2
  /\ (exists p1, from_file (file_of sample) = Ok [p1; path2]).
Proof.
  split; [|split; [|split]].
  - exists (out [" header"]%string), (s2l " Significant loops are displayed directly after their path" ++ [nl]), (s2l "      G E N E R I C   P A T H W A Y S" ++ [nl]), (out [" path  1  10.0% Fe 56 ---(R)--- Mn 56 ---(S)---"; " (n,p)"]%string).
    split; [reflexivity|]. split; [says|]. split; [split; [says_not|says]|]. split; [finish; says_not|]. finish; (split; [says_not|intros [_ X]; apply has_iff in X; vm_compute in X; discriminate X]).
  - split; [repeat (apply SSorted_cons; [|finish; lia]); apply SSorted_nil|]. intros i. unfold path_at. split.
    + intros H. repeat (destruct H as [<-|H]); [..|destruct H]; (eexists; split; [reflexivity|apply path_iff; vm_compute; reflexivity]).
    + intros (l & E & M). apply path_iff in M. do 11 (destruct i as [|i]; [injection E as <-; first [vm_compute in M; discriminate M|cbn; tauto]|]). destruct i; discriminate E.
  - do 2 eexists. exists [co58m]. split; [reflexivity|]. split; [reflexivity|]. split.
    { exists (s2l " "), (s2l "  "), (s2l "2"), (s2l "  "), (s2l "44.714"), (s2l " "), (s2l "Ni 58 ---(R)--- Co 58m---(b)--- Co 58 ---(S)--- " ++ [nl]). split; [reflexivity|]. split; [blank|]. split; [blank|]. split; [blank|]. split; [blank|].
      split. { exists (s2l "44"), (s2l "714"). split; [right; reflexivity|]. split; [blank|]. split; [finish|vm_compute; reflexivity]. }
      split; [blank|]. exists [(s2l "Ni 58", s2l " ---(R)--- "); (s2l "Co 58m", s2l "---(b)--- "); (s2l "Co 58", s2l " ---(S)--- " ++ [nl])]. split; [reflexivity|].
      apply Forall2_cons; [|apply Forall2_cons; [|apply Forall2_cons; [|apply Forall2_nil]]].
      - split; [nuc (s2l " ") "N"%char (s2l "i")|edge (s2l " ") "R"%char (s2l " ")].
      - split; [nuc (s2l " ") "C"%char (s2l "o")|edge (@nil ascii) "b"%char (s2l " ")].
      - split; [nuc (s2l " ") "C"%char (s2l "o")|edge (s2l " ") "S"%char (s2l " " ++ [nl])]. }
    split.
    { exists [s2l "                    100.00%"; s2l "    100.00%"], (s2l "                    " ++ [nl]). split; [reflexivity|]. split; [reflexivity|]. split; [unfold no_paren; finish; discriminate|]. split; [unfold no_paren; finish; discriminate|].
      apply Forall_cons; [exists (s2l "n,p"); split; [reflexivity|split; [discriminate|finish; vm_compute; tauto]]|]. apply Forall_cons; [exists (s2l "IT"); split; [reflexivity|split; [discriminate|finish; vm_compute; tauto]]|]. apply Forall_nil. }
    split; [intros _; reflexivity|reflexivity].
  - eexists. vm_compute. reflexivity.
Qed.
(* the long path of the file that comes with the tests of the code *)
Definition long : list string := [" path  1  99.837% Th232 ---(B)--- Ra228 ---(d)--- Pb212 ---(d)--- "; "                     99.99%(a)      100.00%(b-)     100.00%(b-)    "; "                      0.01%(n,na)       "; "";
   " path continued   Pb212 ---(d)--- Bi212 ---(S)---"; "                    100.00%(b-)"]%string.
Example C78_long_witness : exists p, from_file (file_of long) = Ok [p] /\ map get_str (match p_inter p with Some l => l | None => [] end) = map s2l ["Ra228"; "Pb212"; "Pb212"]%string
  /\ p_reactions p = map s2l ["(a)"; "(b-)"; "(b-)"; "(b-)"]%string /\ get_str (p_daughter p) = s2l "Bi212".
Proof. eexists. split; [vm_compute; reflexivity|]. split; [reflexivity|]. split; reflexivity. Qed.

(** ** C79: the table and the text of the pathways *)
(** The table has one row per pathway, with its parent, intermediate nuclides, reactions, daughter and percentage; the rows are in the
    alphabetical order of the text of the number (ZZZAAA) of the daughter. *)
Theorem C79_every_pathway_has_its_row : forall t ps ks, ps <> [] -> Forall2 (fun p k => NumberText t (p_daughter p) k) ps ks ->
  exists rows keyed, to_dataframe t ps = Ok (map snd keyed) /\ Forall2 RowFor ps rows /\ Permutation keyed (combine ks rows) /\ StronglySorted (fun a b => str_leb (fst a) (fst b) = true) keyed.
Proof. exact table_ok. Qed.
Print Assumptions C79_every_pathway_has_its_row.
Theorem C79_unknown_element_is_refused : forall t ps p, In p ps -> Forall (fun c => LibModel.is_letter c = true) (n_el (p_daughter p)) -> n_el (p_daughter p) <> [] -> all_digits (n_iso (p_daughter p)) ->
  (forall r, In r t -> r_E r <> n_el (p_daughter p)) -> exists e, to_dataframe t ps = Err e.
Proof. exact table_unknown. Qed.
Print Assumptions C79_unknown_element_is_refused.
(** The order is that of texts, not of isotopes: with the shipped table of isotopes, manganese 56 comes before fluorine 20. *)
Theorem C79_the_order_is_not_that_of_isotopes_refuted : exists df,
  to_dataframe shipped [mkPw ni58 (mkNuc (s2l "F") (s2l "20") false) 1 [s2l "(n,p)"] None; mkPw ni58 (mkNuc (s2l "Mn") (s2l "56") false) 1 [s2l "(n,p)"] None] = Ok df
  /\ map pr_daughter df = [s2l "Mn56"; s2l "F20"].
Proof. eexists. split; [vm_compute; reflexivity|reflexivity]. Qed.
Print Assumptions C79_the_order_is_not_that_of_isotopes_refuted.
(** And no pathways give an error rather than an empty table. *)
Theorem C79_no_pathways_refuted : forall t, to_dataframe t [] = Err ValueError.
Proof. reflexivity. Qed.
Print Assumptions C79_no_pathways_refuted.
(** The text of a pathway shows each nuclide after the reaction that makes it. *)
Theorem C79_the_text_of_a_pathway : forall par dau q mids r rs, length rs = length mids ->
  show_path (mkPw par dau q (rs ++ [r]) (Some mids)) = Ok (get_str par ++ s2l " " ++ concat (map (fun x => s2l "-" ++ snd x ++ s2l "-> " ++ get_str (fst x) ++ s2l " ") (combine mids rs)) ++ s2l "-" ++ r ++ s2l "->  " ++ get_str dau)
  /\ show_path (mkPw par dau q [r] None) = Ok (get_str par ++ s2l " -" ++ r ++ s2l "-> " ++ get_str dau).
Proof. intros par dau q mids r rs H. split; [exact (show_ok par dau q mids r rs H)|reflexivity]. Qed.
Print Assumptions C79_the_text_of_a_pathway.
Example C79_witness : NumberText [mkrow 27 (s2l "Co") (s2l "cobalt") 59 1 (s2l "27059") 59] co58m (s2l "27058")
  /\ show_path path2 = Ok (s2l "Ni58 -(n,p)-> Co58m -(IT)->  Co58")
  /\ (exists df, to_dataframe shipped [path2; mkPw ni58 (mkNuc (s2l "Mn") (s2l "56") false) 1 [s2l "(n,p)"] None] = Ok df /\ map pr_daughter df = [s2l "Mn56"; s2l "Co58"]).
Proof.
  split; [|split; [reflexivity|eexists; split; [vm_compute; reflexivity|reflexivity]]]. exists 27%N. split.
  - split; [exists (mkrow 27 (s2l "Co") (s2l "cobalt") 59 1 (s2l "27059") 59); split; [left; reflexivity|split; reflexivity]|]. intros r [<-|[]]. split; reflexivity.
  - split; [split; [discriminate|finish]|]. split; [split; [discriminate|finish]|]. split; [reflexivity|]. exists 0%N, 5%N, 8%N. split; [reflexivity|]. repeat split.
Qed.
