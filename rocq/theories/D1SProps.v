(** C14-C18, C46: D1S-UNED irradiation and reaction files. *)
From Coq Require Import Sorted.
From Verif Require Import PyBase PyStr WWTextModel PyText D1SModel D1SSpec D1SProofs D1SProofs2.
Open Scope nat_scope.

(** C14.  Writing does not raise, and reading the written text gives the same number of
    schedules, the same irradiations (daughter, decay constant, times, comment) in order and
    the same header (an absent header becomes an empty one). *)
Theorem C14_irradiation_file_round_trip : forall f, carryable f ->
  exists text, iwrite f = (text, None) /\
    exists f', iread text = Ok f' /\ f_nsc f' = f_nsc f /\ f_scheds f' = f_scheds f /\
      f_header f' = Some (match f_header f with Some h => h | None => [] end).
Proof. intros f H. destruct (iread_iwrite f H) as [t [W R]]. exists t. split; [exact W|]. eexists. split; [exact R|]. auto. Qed.
Print Assumptions C14_irradiation_file_round_trip.

Definition ex_irr : ifile := mkifile 2
  [mkirr (s2l "24051") (s2l "2.896e-07") [s2l "5.982e+00"; s2l "5.697e+00"] (Some (s2l "Cr51"));
   mkirr (s2l "25054") (s2l "2.570e-08") [s2l "5.881e+00"; s2l "1.829e+00"] (Some (s2l ""))]
  (Some (s2l "C a header line
")) default_fmt.
Lemma token_ex s : (match s with [] => false | _ => true end) && forallb (fun c => negb (is_ws c)) s = true -> token s.
Proof. intros H. apply andb_true_iff in H. destruct H as [A B]. split; [destruct s; [discriminate|discriminate]|].
  rewrite forallb_forall in B. apply Forall_forall. intros c Hc. apply negb_true_iff. now apply B. Qed.
Lemma tag_ex c s : In c s -> c <> "c"%char -> c <> "C"%char -> real_tag s.
Proof. intros. exists c. auto. Qed.
Example C14_witness : carryable ex_irr.
Proof. unfold carryable, ex_irr, default_fmt. cbn [f_fmt f_nsc f_header f_scheds]. split; [lia|]. split.
  - exists [s2l "C a header line
"]. split; [reflexivity|]. constructor; [|constructor]. exists (s2l "C a header line"). split; [reflexivity|]. split; [|reflexivity].
    simpl. intros X. repeat (destruct X as [X|X]; [discriminate|]). exact X.
  - repeat (apply Forall_cons); try apply Forall_nil; cbn [i_daughter i_lambda i_times i_comment]; repeat match goal with |- _ /\ _ => split end;
      try (apply token_ex; reflexivity); try reflexivity; try (simpl; lia); try (apply (tag_ex "2"%char); [left; reflexivity|discriminate|discriminate]);
      try (repeat (apply Forall_cons; [split; [apply token_ex; reflexivity|simpl; lia]|]); apply Forall_nil).
    + exists (s2l "Cr51"). split; [reflexivity|]. split; [exists [s2l "Cr51"]; split; [repeat constructor; discriminate|reflexivity]|simpl; lia].
    + exists (s2l ""). split; [reflexivity|]. split; [exists []; split; [constructor|reflexivity]|simpl; lia]. Qed.

(** The width condition is sharp: a comment of exactly the 9 characters of its column is
    glued to the last time and comes back as part of it. *)
Theorem C14_full_width_comment_glued_refuted : exists f text f',
  f_nsc f = 1%Z /\ f_scheds f = [mkirr (s2l "A") (s2l "1.0") [s2l "2.0"] (Some (s2l "123456789"))] /\
  iwrite f = (text, None) /\ iread text = Ok f' /\
  f_scheds f' = [mkirr (s2l "A") (s2l "1.0") [s2l "2.0123456789"] (Some [])].
Proof. exists (mkifile 1 [mkirr (s2l "A") (s2l "1.0") [s2l "2.0"] (Some (s2l "123456789"))] None default_fmt). eexists _, _.
  split; [reflexivity|]. split; [reflexivity|]. split; [vm_compute; reflexivity|]. split; [vm_compute; reflexivity|reflexivity]. Qed.
Print Assumptions C14_full_width_comment_glued_refuted.

(** A file whose last line lacks the newline is read with a comment that is None, and
    writing it raises TypeError after the title was written: the output is truncated. *)
Theorem C14_reading_unterminated_file_blocks_writing_refuted : exists text f text',
  iread text = Ok f /\ iwrite f = (text', Some TypeError) /\ iread text' = Ok (mkifile (f_nsc f) [] (Some []) default_fmt) /\ length (f_scheds f) = 1.
Proof. exists (s2l "nsc 1
A 1.0 2.0"). eexists _, _. split; [vm_compute; reflexivity|]. split; [vm_compute; reflexivity|]. split; vm_compute; reflexivity. Qed.
Print Assumptions C14_reading_unterminated_file_blocks_writing_refuted.

(** C15.  Reading a written reaction file gives the same reactions in order (an absent
    comment becomes the empty one). *)
Theorem C15_reaction_file_round_trip : forall l, Forall carryable_reac l ->
  exists l', rread (rwrite l) = Ok l' /\
    Forall2 (fun r r' => x_parent r' = x_parent r /\ x_mt r' = x_mt r /\ x_daughter r' = x_daughter r /\
                         x_comment r' = Some (match x_comment r with Some c => c | None => [] end)) l l'.
Proof. intros l H. exists (map norm_reac l). split; [now apply rread_rwrite|]. clear. induction l; simpl; constructor; auto; repeat split. Qed.
Print Assumptions C15_reaction_file_round_trip.
Example C15_witness : Forall carryable_reac
  [mkreac (s2l "26054.99c") (s2l "102") (s2l "26055") (Some (s2l "Fe55 from Fe")); mkreac (s2l "26056.99c") (s2l "-5") (s2l "25056") None].
Proof. repeat (apply Forall_cons); try apply Forall_nil; unfold carryable_reac; cbn [x_parent x_mt x_daughter x_comment]; repeat match goal with |- _ /\ _ => split end;
  try (apply token_ex; reflexivity); try (simpl; lia); try exact I.
  - exists 102%Z. reflexivity.
  - exists [s2l "Fe55"; s2l "from"; s2l "Fe"]. split; [repeat (apply Forall_cons; [apply token_ex; reflexivity|]); apply Forall_nil|reflexivity].
  - exists (-5)%Z. reflexivity. Qed.
(** A 12-character daughter is glued to the MT number, and the comment becomes the daughter. *)
Theorem C15_full_width_daughter_glued_refuted : exists r r',
  x_mt r = s2l "102" /\ x_daughter r = s2l "000000026055" /\ rread (rwrite [r]) = Ok [r'] /\
  x_mt r' = s2l "102000000026055" /\ x_daughter r' = s2l "Fe".
Proof. exists (mkreac (s2l "26054.99c") (s2l "102") (s2l "000000026055") (Some (s2l "Fe"))). eexists.
  split; [reflexivity|]. split; [reflexivity|]. split; [vm_compute; reflexivity|]. split; reflexivity. Qed.
Print Assumptions C15_full_width_daughter_glued_refuted.

(** C16. *)
Theorem C16_rectangular_after_any_history : forall f ops, rectangular f -> rectangular (fold_left istep ops f).
Proof. intros f ops. apply steps_rect. Qed.
Print Assumptions C16_rectangular_after_any_history.
(** what each accepted call does *)
Theorem C16_add_appends_to_every_irradiation : forall f td f', rectangular f -> (0 <= f_nsc f)%Z -> add_times f td = (f', None) ->
  exists k, f_nsc f' = (f_nsc f + Z.of_nat k)%Z /\ f_header f' = f_header f /\
    Forall2 (fun i j => i_daughter j = i_daughter i /\ i_lambda j = i_lambda i /\ i_comment j = i_comment i /\
       exists ts, dget str_eqb (i_daughter i) td = Some ts /\ length ts = k /\ i_times j = i_times i ++ ts)
      (f_scheds f) (f_scheds f').
Proof. intros f td f' HR Hn HA. destruct (add_times_spec f td HR Hn) as [[X _]|[_ [k [A [B [_ D]]]]]]; [rewrite HA in X; contradiction|].
  rewrite HA in *. exists k. auto. Qed.
Print Assumptions C16_add_appends_to_every_irradiation.
Theorem C16_rejected_call_changes_nothing : forall f o e, rectangular f ->
  (exists td, o = OpAdd td /\ snd (add_times f td) = Some e) \/ (exists ix, o = OpRemove ix /\ snd (remove_time f ix) = Some e) \/
  (exists k i ix t, o = OpModify k ix t /\ nth_error (f_scheds f) k = Some i /\ snd (modify_time i ix t) = Some e) ->
  istep f o = f.
Proof. exact rejected. Qed.
Print Assumptions C16_rejected_call_changes_nothing.
Theorem C16_remove_accepted_iff_in_range : forall f ix, rectangular f -> f_scheds f <> [] ->
  (snd (remove_time f ix) = None <-> (0 <= ix < f_nsc f)%Z).
Proof. intros f ix HR HN. destruct (remove_time_spec f ix HR) as [(X & _ & _ & B)|(X & _ & B & _)].
  - split; intros H; [contradiction|contradiction].
  - rewrite X. split; auto. Qed.
Print Assumptions C16_remove_accepted_iff_in_range.
Theorem C16_add_then_remove_restores : forall f td f1, rectangular f -> add_times f td = (f1, None) ->
  exists k, f_nsc f1 = (f_nsc f + Z.of_nat k)%Z /\ repeat_remove k (f_nsc f) f1 = Some f.
Proof. exact add_then_remove'. Qed.
Print Assumptions C16_add_then_remove_restores.
Theorem C16_files_read_are_rectangular : forall text f,
  length (filter pat_nsc (lines_of text)) = 1 -> iread text = Ok f -> rectangular f.
Proof. exact iread_rect. Qed.
Print Assumptions C16_files_read_are_rectangular.
Example C16_witness : rectangular ex_irr /\ snd (add_times ex_irr [(s2l "25054", [s2l "1"; s2l "2"]); (s2l "24051", [s2l "3"; s2l "4"])]) = None /\
  snd (add_times ex_irr [(s2l "25054", [s2l "1"])]) = Some KeyError /\
  length (filter pat_nsc (lines_of (fst (iwrite ex_irr)))) = 1.
Proof. split; [repeat constructor|]. repeat split; vm_compute; reflexivity. Qed.

(** C17. *)
Theorem C17_selection_keeps_exactly_the_requested : forall f ds, let (f', ok) := select_daughters f ds in
  subseq (f_scheds f') (f_scheds f) /\ (forall i, In i (f_scheds f') <-> In i (f_scheds f) /\ In (i_daughter i) ds) /\
  f_nsc f' = f_nsc f /\ f_header f' = f_header f /\
  (NoDup (get_daughters f) -> NoDup ds -> (ok = true <-> forall d, In d ds -> In d (get_daughters f))).
Proof. exact select_spec. Qed.
Print Assumptions C17_selection_keeps_exactly_the_requested.
(** With repeated daughters the report is wrong: "B" is missing and success is reported. *)
Theorem C17_report_with_repeated_daughters_refuted : exists f ds, In (s2l "B") ds /\ ~ In (s2l "B") (get_daughters f) /\ snd (select_daughters f ds) = true.
Proof. exists (mkifile 0 [mkirr (s2l "A") [] [] None; mkirr (s2l "A") [] [] None] None default_fmt), [s2l "A"; s2l "B"].
  split; [right; left; reflexivity|]. split; [|reflexivity]. simpl. intros [X|[X|[]]]; discriminate. Qed.
Print Assumptions C17_report_with_repeated_daughters_refuted.
Theorem C17_lookup_returns_first_match : forall f d, match get_irrad f d with
  | Some i => exists a b, f_scheds f = a ++ i :: b /\ i_daughter i = d /\ ~ In d (map i_daughter a)
  | None => ~ In d (get_daughters f)
  end.
Proof. exact get_irrad_spec. Qed.
Print Assumptions C17_lookup_returns_first_match.

(** C18.  A plain library name: each parent gets the suffix, the rest of each reaction and
    the order stay; with a library manager exactly the parents available in it change. *)
Theorem C18_plain_name_changes_every_parent : forall lib l, lib <> [] -> hd_error lib <> Some "{"%char ->
  exists l', change_lib lib None l = Ok l' /\
    Forall2 (fun r r' => x_parent r' = before_dot (x_parent r) ++ s2l "." ++ lib /\
                         x_mt r' = x_mt r /\ x_daughter r' = x_daughter r /\ x_comment r' = x_comment r) l l'.
Proof. intros lib l H1 H2. exists (map (reac_change_lib lib) l). split; [now apply change_lib_plain|]. clear. induction l; simpl; constructor; auto; repeat split. Qed.
Print Assumptions C18_plain_name_changes_every_parent.
Theorem C18_with_manager_changes_exactly_the_available : forall lib av l, lib <> [] -> hd_error lib <> Some "{"%char ->
  exists l', change_lib lib (Some av) l = Ok l' /\
    Forall2 (fun r r' => (In lib (av (before_dot (x_parent r))) -> x_parent r' = before_dot (x_parent r) ++ s2l "." ++ lib /\
                              x_mt r' = x_mt r /\ x_daughter r' = x_daughter r /\ x_comment r' = x_comment r) /\
                         (~ In lib (av (before_dot (x_parent r))) -> r' = r)) l l'.
Proof. intros lib av l H1 H2. eexists. split; [now apply change_lib_avail|]. clear. induction l as [|r l IH]; simpl; constructor; auto.
  pose proof (memb_str lib (av (before_dot (x_parent r)))) as M. destruct (memb _ _ _); split; intros H; try reflexivity; try (repeat split; reflexivity).
  - exfalso. apply H. now apply M.
  - apply M in H. discriminate. Qed.
Print Assumptions C18_with_manager_changes_exactly_the_available.
(** A dictionary {"old": "new", ...} given as text stands for its first value. *)
Theorem C18_dictionary_means_its_first_value : forall pre old mid new rest l,
  lib_name old -> lib_name new -> ~ In quote pre -> ~ In quote mid ->
  change_lib ("{"%char :: pre ++ quote :: old ++ quote :: mid ++ quote :: new ++ quote :: rest) None l = change_lib new None l.
Proof. intros pre old mid new rest l Ho Hn Hp Hm. unfold change_lib. rewrite (parse_lib_dict pre old mid new rest Ho Hn Hp Hm).
  destruct Hn as [a [b [c [-> [Ha _]]]]]. unfold parse_lib. destruct (Ascii.eqb_spec a "{"); [subst; discriminate|reflexivity]. Qed.
Print Assumptions C18_dictionary_means_its_first_value.
(** With a dictionary and a library manager nothing is ever translated, although the
    parents are available in the new library. *)
Theorem C18_dictionary_with_manager_refuted : forall newlib av l lib, parse_lib newlib = Ok lib -> hd_error newlib = Some "{"%char ->
  (forall z x, In x (av z) -> lib_name x) -> change_lib newlib (Some av) l = Ok l.
Proof. exact change_lib_dict_manager. Qed.
Print Assumptions C18_dictionary_with_manager_refuted.
Example C18_witness : let d := s2l "{" ++ [quote] ++ s2l "31c" ++ [quote] ++ s2l ": " ++ [quote] ++ s2l "00c" ++ [quote] ++ s2l "}" in
  change_lib d None [mkreac (s2l "26054.99c") [] [] None] = Ok [mkreac (s2l "26054.00c") [] [] None] /\
  change_lib d (Some (fun _ => [s2l "00c"])) [mkreac (s2l "26054.99c") [] [] None] = Ok [mkreac (s2l "26054.99c") [] [] None] /\
  change_lib (s2l "00c") (Some (fun z => if str_eqb z (s2l "26054") then [s2l "00c"] else []))
    [mkreac (s2l "26054.99c") [] [] None; mkreac (s2l "1001.99c") [] [] None] =
    Ok [mkreac (s2l "26054.00c") [] [] None; mkreac (s2l "1001.99c") [] [] None].
Proof. repeat split; vm_compute; reflexivity. Qed.

(** C46.  get_parents: sorted, without repetition, exactly the zaids of the parents. *)
Theorem C46_parents_sorted_unique_exact : forall l, StronglySorted (fun a b => str_leb a b = true) (get_parents l) /\ NoDup (get_parents l) /\
  forall z, In z (get_parents l) <-> exists r, In r l /\ before_dot (x_parent r) = z.
Proof. exact get_parents_spec. Qed.
Print Assumptions C46_parents_sorted_unique_exact.
Example C46_witness : get_parents [mkreac (s2l "26054.99c") [] [] None; mkreac (s2l "1001.99c") [] [] None; mkreac (s2l "26054.31c") [] [] None] = [s2l "1001"; s2l "26054"].
Proof. reflexivity. Qed.
