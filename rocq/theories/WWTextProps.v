(** C10, C11: weight window files on disk. *)
From Verif Require Import PyBase PyStr WWTextModel WWTextSpec WWTextProofs WWTextProofs2.
From Coq Require Import Qabs Lqa.
Open Scope nat_scope.

(** C10.  Every saveable window is written without error; the file is read back (with
    as many loop iterations per block as it has lines, or more) as a window with
    the same counts and all numbers equal to 5 significant digits; and saving that one
    again writes the same file. *)
Theorem C10_saved_file_loads_back : forall p, saveable p ->
  exists lines p', write p = Ok lines /\
    (forall fuel, length lines <= fuel -> parse fuel lines = Done (Ok p')) /\
    same5 p p' /\ write p' = Ok lines.
Proof. exact saved_file_loads. Qed.
Print Assumptions C10_saved_file_loads_back.

(** A concrete cylindrical window with two particles. *)
Definition ex_window : parsed := mkparsed
  (build_header 2 [1; 2] 2 1 1 [0; 0; (-35 # 1)]%Q 1 1 1 (Some ([0; 0; 1]%Q, [1; 0; 0]%Q)))
  [0; 2; (123456 # 1000); 1]%Q [0; 1; 1; 1]%Q [0; 1; 7; 1]%Q
  [[20]; [(1 # 3); 20]]%Q [[(1 # 7); (2 # 300000)]; [0; 1; 2; 3]]%Q.
Lemma in_range_ex q : Qle_bool (p10 (-20)) (Qabs q) && negb (Qle_bool (p10 20) (Qabs q)) || Qeq_bool q 0 = true -> in_range q.
Proof. intros H. apply orb_true_iff in H. destruct H as [H|H]; [right|left; now apply Qeq_bool_iff].
  apply andb_true_iff in H. destruct H as [A B]. apply Qle_bool_iff in A. apply negb_true_iff in B. split.
  - apply Qle_trans with (p10 (-20)); [|exact A]. now apply Qle_bool_iff.
  - apply Qlt_le_trans with (p10 20).
    + apply Qnot_le_lt. intros C. apply Qle_bool_iff in C. congruence.
    + now apply Qle_bool_iff. Qed.
Ltac rng := repeat (apply Forall_cons; [apply in_range_ex; reflexivity|]); try apply Forall_nil.
Example C10_saveable_witness : saveable ex_window.
Proof. unfold saveable, small, int9. simpl. repeat match goal with |- _ /\ _ => split end; try reflexivity; try lia; try (rng; fail).
  - repeat constructor; lia.
  - repeat constructor.
  - right. split; [reflexivity|]. eexists _, _. split; [reflexivity|]. split; [reflexivity|]. split; [reflexivity|]. split; rng.
  - repeat (apply Forall_cons; [rng|]); apply Forall_nil.
  - repeat (apply Forall_cons; [rng|]); apply Forall_nil. Qed.

(** The bound on the counts is needed: 100001 fine intervals are printed as
    1.0000e+05 and read back as 100000. *)
Theorem C10_count_above_99999_refuted : exists h lines h',
  h_nfx h = 100001%Z /\ write_header h = Ok lines /\ parse_header lines = Ok (h', []) /\ h_nfx h' = 100000%Z.
Proof. exists (mkheader 1 1 1 10 (s2l "Created by f4enix_ww") [1%Z] 100001 1 1 [0; 0; 0]%Q 1 1 1 None). eexists _, _.
  split; [reflexivity|]. split; [reflexivity|]. split; [vm_compute; reflexivity|reflexivity]. Qed.
Print Assumptions C10_count_above_99999_refuted.

(** Energies that differ only after the fifth digit are read back equal. *)
Definition ex_close : parsed := mkparsed
  (build_header 1 [2] 1 1 1 [0; 0; 0]%Q 1 1 1 None) [0; 1; 1; 1]%Q [0; 1; 1; 1]%Q [0; 1; 1; 1]%Q
  [[(100001 # 100000); (100002 # 100000)]]%Q [[1; 2]]%Q.
Theorem C10_distinct_energies_kept_refuted : exists p lines p' e,
  saveable p /\ p_energies p = [[(100001 # 100000); (100002 # 100000)]]%Q /\ write p = Ok lines /\
  (forall fuel, length lines <= fuel -> parse fuel lines = Done (Ok p')) /\ p_energies p' = [[e; e]].
Proof. exists ex_close. assert (S : saveable ex_close).
  { unfold saveable, small, int9. simpl. repeat match goal with |- _ /\ _ => split end; try reflexivity; try lia; try (rng; fail).
    - repeat constructor; lia.
    - repeat constructor.
    - left. split; reflexivity.
    - repeat (apply Forall_cons; [rng|]); apply Forall_nil.
    - repeat (apply Forall_cons; [rng|]); apply Forall_nil. }
  destruct (file_roundtrip ex_close S) as [lines [W [_ [P _]]]]. exists lines, (round_parsed ex_close), (round5 (100001 # 100000)).
  split; [exact S|]. split; [reflexivity|]. split; [exact W|]. split; [exact P|]. vm_compute. reflexivity. Qed.
Print Assumptions C10_distinct_energies_kept_refuted.

(** C11 as stated is false: a saved file cut at ANY line after the header makes the
    loader run forever, whatever the number of loop iterations allowed. *)
Theorem C11_truncated_file_hangs_refuted : forall p lines n,
  saveable p -> write p = Ok lines -> header_lines (p_header p) <= n < length lines ->
  forall fuel, parse fuel (firstn n lines) = Running.
Proof. exact truncated_never_loads. Qed.
Print Assumptions C11_truncated_file_hangs_refuted.
Example C11_truncation_witness : exists lines, write ex_window = Ok lines /\ header_lines (p_header ex_window) <= 7 < length lines.
Proof. eexists. split; [vm_compute; reflexivity|]. split; apply Nat.leb_le; vm_compute; reflexivity. Qed.

(** What does hold, for every text file: the loader either finishes (with a window or an
    exception) after at most one iteration per line, plus one, in each loop, always with
    the same answer, or it never finishes. *)
Theorem C11_loading_finishes_or_hangs : forall f,
  (exists r, forall fuel, length f < fuel -> parse fuel f = Done r) \/ (forall fuel, parse fuel f = Running).
Proof. exact loading_decided. Qed.
Print Assumptions C11_loading_finishes_or_hangs.
Example C11_bad_number_is_an_error : exists fuel, parse fuel (map s2l ["1 1 1 10 x"; "1"; "1 1 1 0 0 0"; "1 1 1 1"; "0 1 zzz 1"])%string = Done (Err ValueError).
Proof. exists 3. vm_compute. reflexivity. Qed.
Example C11_empty_file_is_an_error : forall fuel, parse fuel [] = Done (Err IndexError).
Proof. reflexivity. Qed.
