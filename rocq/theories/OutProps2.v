(** C73, C76: tables that are refused, and the version from the other files of the folder. *)
From Coq Require Import Lia.
From Verif Require Import PyBase PyLemmas PyStr PyText D1SModel D1SProofs2 DataModel MeshModel MeshSpec MeshProofs OutModel OutSpec OutProofs OutProofs2 OutProofs4 OutSpec2 OutProofs6.
Open Scope nat_scope.

(** C73.  The table of a tally is read only when its longest row has eleven words; otherwise ValueError. *)
Theorem C73_eleven_columns : forall t lines a b c, RowsAt t lines a b c ->
  (Forall (fun x => length (split x) < 11) [a; b; c] \/ Exists (fun x => 11 < length (split x)) [a; b; c]) -> get_tally_stat_checks t lines = Err ValueError.
Proof.
  intros t lines a b c (i & (l & Hl & Ht) & Hf & Ea & Eb & Ec) H. rewrite (find_table t lines i l Hl Ht Hf), Ea, Eb, Ec. cbn [of_opt bind]. unfold checked, frame_of.
  replace (list_max (map (@length str) [split a; split b; split c]) =? 11) with false; [reflexivity|]. symmetry. apply Nat.eqb_neq. cbn [map list_max fold_right]. intros E.
  destruct H as [H|H].
  - inversion H as [|? ? A H1]; subst. inversion H1 as [|? ? B H2]; subst. inversion H2 as [|? ? C _]; subst. lia.
  - inversion H as [? ? A|? ? H1]; subst; [lia|]. inversion H1 as [? ? B|? ? H2]; subst; [lia|]. inversion H2 as [? ? C|? ? H3]; subst; [lia|]. inversion H3.
Qed.
Print Assumptions C73_eleven_columns.

(** C76.  An output file that does not say its version gets that of the first .out or .dump file of the folder with one in its
    first four lines, from the first such line: D1SUNED rather than MCNP when the line has both. *)
Theorem C76_other_files : forall lines fs f gs a l b, no_version lines -> Forall (fun f => Forall silent (firstn 4 f)) fs -> f = a ++ l :: b -> length a < 4 -> Forall silent a ->
  (forall v, D1SVer v l -> get_code_version lines (fs ++ f :: gs) = Ok (s2l "d1suned" ++ v))
  /\ (forall v r, ~ Mentions (s2l "d1suned  ver=") l -> MCNPLine v l -> r <> [] -> trimmed0 v r -> get_code_version lines (fs ++ f :: gs) = Ok r).
Proof.
  intros lines fs f gs a l b N F E L S. rewrite (no_version_code _ _ N). split.
  - intros v V. apply (found_in fs f gs a l b); auto. cbn [file_version]. rewrite (ver_line _ _ V). reflexivity.
  - intros v r D V R T. apply (found_in fs f gs a l b); auto. cbn [file_version]. rewrite (no_ver _ D), (mcnp_line _ _ V), (strip0_ok _ _ R T). reflexivity.
Qed.
Print Assumptions C76_other_files.

(** When no file has a version in its first four lines the version is refused, whatever the lines after them say. *)
Theorem C76_only_four_lines : forall lines others, no_version lines -> Forall (fun f => Forall silent (firstn 4 f)) others -> get_code_version lines others = Err ValueError.
Proof. intros lines others N F. rewrite (no_version_code _ _ N), <- (app_nil_r others), (others_skip _ _ F). reflexivity. Qed.
Print Assumptions C76_only_four_lines.

Example C76_other_files_case :
  get_code_version [s2l "1mcnp"] [[s2l "nothing"]; [s2l "a"; s2l " d1suned  ver=3141 MCNP_6.2"]; [s2l "MCNP_6.2"]] = Ok (s2l "d1suned3141")
  /\ get_code_version [s2l "1mcnp"] [[s2l "a"; s2l "b"; s2l "c"; s2l "d"; s2l "MCNP_6.2"]] = Err ValueError
  /\ get_code_version [s2l "1mcnp"] [[s2l "a"; s2l "b"; s2l "c"; s2l "Version MCNP_6.2"]] = Ok (s2l "6.2").
Proof. repeat split; vm_compute; reflexivity. Qed.
