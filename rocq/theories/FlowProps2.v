(** C130: the files of the work flow on disk. *)
From Coq Require Import Lia ZArith.
From Verif Require Import PyBase PyLemmas PyStr PyStrLemmas PyText D1SModel D1SSpec D1SProofs2 D1SProps LibModel LibSpec LibProofs LibProofs2 LibProofs3 IsoData LibProps MatModel MatSpec MatProofs MatProps PathsModel PathsSpec PathsProofs PathsProps FlowSpec FlowProofs FlowProofs2 FlowProps.
Open Scope nat_scope.

(** The reaction file made from the materials, written and read back, is the same file: all its
    fields fit their columns (library names of at most five characters). *)
Theorem C130_generated_file_is_read_back : forall D lib f ms rs, tidy D lib -> numbered ms -> token lib -> length lib <= 5 ->
  get_reaction_file D lib (Some f) ms = Ok rs -> rread (rwrite rs) = Ok rs.
Proof.
  intros D lib f ms rs T N TL LL H. destruct (generated_carryable _ _ _ _ _ T N TL LL H) as [C S0]. rewrite rread_rwrite by exact C. f_equal. clear C H. induction S0 as [|r rs (c & E) _ IH]; [reflexivity|]. cbn [map]. rewrite IH. f_equal. destruct r. cbn in *. unfold norm_reac. cbn. now rewrite E.
Qed.
Print Assumptions C130_generated_file_is_read_back.
(** An irradiation file that was written and read back gives the same reaction file. *)
Theorem C130_irradiation_file_from_disk : forall f, carryable f -> exists text f', iwrite f = (text, None) /\ iread text = Ok f' /\
  forall D lib ms, get_reaction_file D lib (Some f') ms = get_reaction_file D lib (Some f) ms.
Proof.
  intros f C. destruct (C14_irradiation_file_round_trip f C) as (text & W & f' & R & _ & E & _). exists text, f'. split; [exact W|]. split; [exact R|]. intros D lib ms. unfold get_reaction_file, get_daughters. rewrite E. reflexivity.
Qed.
Print Assumptions C130_irradiation_file_from_disk.
(** Selecting daughters in the irradiation file selects the reactions with these daughters, in
    their order. *)
Theorem C130_selected_daughters : forall D lib f ds ms rs, get_reaction_file D lib (Some f) ms = Ok rs ->
  exists rs', get_reaction_file D lib (Some (fst (select_daughters f ds))) ms = Ok rs' /\ subseq rs' rs /\
    forall r, In r rs' <-> In r rs /\ In (x_daughter r) ds.
Proof.
  intros D lib f ds ms rs H. unfold get_reaction_file in *. destruct (get_potential_paths D lib ms) as [l|]; cbn [bind] in *; [|discriminate]. injection H as <-. eexists. split; [reflexivity|].
  assert (M : forall d, memb str_eqb d (get_daughters (fst (select_daughters f ds))) = memb str_eqb d (get_daughters f) && memb str_eqb d ds).
  { intros d. apply Bool.eq_true_iff_eq. rewrite Bool.andb_true_iff, !memb_str. unfold get_daughters, select_daughters. cbn [fst f_scheds]. rewrite !in_map_iff. split.
    - intros (i & E & I). apply filter_In in I as [I J]. apply memb_str in J. rewrite E in J. split; [eauto|exact J].
    - intros [(i & E & I) J]. exists i. split; [exact E|]. apply filter_In. split; [exact I|]. apply memb_str. now rewrite E. }
  split.
  - induction l as [|r l IH]; [constructor|]. cbn [filter]. rewrite M. destruct (memb str_eqb (x_daughter r) (get_daughters f)); cbn [andb]; [|exact IH]. destruct (memb str_eqb (x_daughter r) ds); [now apply subseq_keep|now apply subseq_drop].
  - intros r. rewrite !filter_In, M, Bool.andb_true_iff, memb_str. rewrite (memb_str (x_daughter r) ds). tauto.
Qed.
Print Assumptions C130_selected_daughters.
(** The whole work flow through files: the translation with the reaction file that was written and
    read back is the translation with the one in memory. *)
Theorem C130_translation_through_files : forall D E act trans natural f ms rs data, tidy D act -> numbered ms -> token act -> length act <= 5 ->
  get_reaction_file D act (Some f) ms = Ok rs ->
  exists rs', rread (rwrite rs) = Ok rs' /\ smart_translate E act trans natural (mkd1s ms (Some rs') data) = smart_translate E act trans natural (mkd1s ms (Some rs) data).
Proof. intros. exists rs. split; [eapply C130_generated_file_is_read_back; eauto|reflexivity]. Qed.
Print Assumptions C130_translation_through_files.
Lemma x_tidy : tidy x_act (s2l "99c").
Proof.
  split; [exact C21_rows_are_well_formed|]. split.
  - intros r I. assert (B : forallb (fun r => N.ltb (r_Z r) 1000 && Nat.leb (length (r_E r)) 3) shipped = true) by (vm_compute; reflexivity). rewrite forallb_forall in B. apply B in I. apply Bool.andb_true_iff in I as [I1 I2]. split; [now apply N.ltb_lt|now apply Nat.leb_le].
  - assert (R : forall e, existsb (fun r => str_eqb (r_E r) e) shipped = true -> exists r, In r shipped /\ r_E r = e). { intros e H. apply existsb_exists in H as (r & I & Q). apply str_eqb_eq in Q. eauto. }
    intros df row [Q|[]] I. injection Q as <-. destruct I as [<-|[<-|[<-|[]]]]; (split; [cbn; lia|]).
    + destruct (R (s2l "Mn") ltac:(vm_compute; reflexivity)) as (r & I & Q). exists r, 56%N, false. split; [exact I|]. rewrite Q. split; [reflexivity|lia].
    + destruct (R (s2l "Fe") ltac:(vm_compute; reflexivity)) as (r & I & Q). exists r, 57%N, false. split; [exact I|]. rewrite Q. split; [reflexivity|lia].
    + destruct (R (s2l "Co") ltac:(vm_compute; reflexivity)) as (r & I & Q). exists r, 60%N, true. split; [exact I|]. rewrite Q. split; [reflexivity|lia].
Qed.
Example C130_witness : tidy x_act (s2l "99c") /\ numbered x_mats /\ token (s2l "99c") /\ get_reaction_file x_act (s2l "99c") (Some x_irr) x_mats = Ok f_rs /\
  rread (rwrite f_rs) = Ok f_rs /\ exists rs', get_reaction_file x_act (s2l "99c") (Some (fst (select_daughters x_irr [s2l "25056"]))) x_mats = Ok rs' /\ length rs' = 1.
Proof.
  split; [exact x_tidy|]. split.
  { intros z Z. destruct (f_zaids z Z) as [->|[->| ->]]; [exists 27%N, 59%N, 0%N, 5%N, 9%N|exists 26%N, 56%N, 0%N, 5%N, 6%N|exists 8%N, 16%N, 0%N, 1%N, 6%N]; (split; [reflexivity|]; lia). }
  split; [split; [discriminate|repeat constructor]|]. split; [vm_compute; reflexivity|]. split; [vm_compute; reflexivity|]. eexists. split; [vm_compute; reflexivity|reflexivity].
Qed.
