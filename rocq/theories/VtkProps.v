(** C125: the VTK file of a weight window. *)
From Coq Require Import Lia.
From Verif Require Import PyBase PyStr PyText D1SProofs2 LibModel CliModel CliProofs2 VtkModel VtkProofs.
Open Scope nat_scope.

(** The file is in the folder that was asked for, or in that of the weight window, and its name ends with .vts. *)
Theorem C125_a_vts_file : forall own given p, vtk_file own given = Ok p -> fst p = fst (match given with Some g => g | None => own end) /\ exists s, snd p = s ++ s2l ".vts".
Proof.
  intros own given p H. unfold vtk_file in H. destruct given as [[d n]|]; cbn [fst snd] in H.
  - destruct (grid_file n) as [r|] eqn:G; cbn [bind] in H; [|discriminate]. injection H as <-. split; [reflexivity|]. exact (grid_ends _ _ G).
  - destruct (grid_file (stem_of_name (snd own))) as [r|] eqn:G; cbn [bind] in H; [|discriminate]. injection H as <-. split; [reflexivity|]. exact (grid_ends _ _ G).
Qed.
(** A given name keeps its text up to the last dot; .vts is not added twice. *)
Theorem C125_given : forall own d a e, a <> [] -> e <> [] -> ~ In "."%char e -> vtk_file own (Some (d, a ++ s2l "." ++ e)) = Ok (d, a ++ s2l ".vts").
Proof. intros own d a e A E D. unfold vtk_file. cbn [fst snd]. change (s2l "." ++ e) with (dot :: e). rewrite grid_ext by assumption. reflexivity. Qed.
Theorem C125_given_plain : forall own d a, a <> [] -> ~ In "."%char a -> vtk_file own (Some (d, a)) = Ok (d, a ++ s2l ".vts").
Proof. intros own d a A D. unfold vtk_file. cbn [fst snd]. rewrite grid_nodot by assumption. reflexivity. Qed.
(** Without a name: that of the weight window, with .vts for its ending; weight windows of one folder whose names differ before the dot
    are exported to different files. *)
Theorem C125_default : forall d a e, a <> [] -> ~ In "."%char a -> ~ In "."%char e -> e <> [] ->
  vtk_file (d, a) None = Ok (d, a ++ s2l ".vts") /\ vtk_file (d, a ++ s2l "." ++ e) None = Ok (d, a ++ s2l ".vts").
Proof.
  intros d a e A D De E. unfold vtk_file. cbn [fst snd]. rewrite stem_nodot by exact D. rewrite grid_nodot by assumption. split; [reflexivity|]. change (s2l "." ++ e) with (dot :: e). rewrite stem_ext by assumption. rewrite grid_nodot by assumption. reflexivity.
Qed.
(** With two dots both endings go: the names are shortened, and weight windows that differ between the dots are written over one another. *)
Theorem C125_two_dots_refuted : forall d a b e, a <> [] -> b <> [] -> e <> [] -> ~ In "."%char b -> ~ In "."%char e ->
  vtk_file (d, a ++ s2l "." ++ b ++ s2l "." ++ e) None = Ok (d, a ++ s2l ".vts").
Proof.
  intros d a b e A B E Db De. unfold vtk_file. cbn [fst snd]. change (s2l "." ++ b ++ s2l "." ++ e) with (dot :: b ++ dot :: e).
  replace (a ++ dot :: b ++ dot :: e) with ((a ++ dot :: b) ++ dot :: e) by (rewrite <- app_assoc; reflexivity). rewrite stem_ext; [|destruct a; [congruence|discriminate]|exact E|exact De]. rewrite grid_ext by assumption. reflexivity.
Qed.
Example C125_witness : vtk_file (s2l "out", s2l "ww.1.inp") None = Ok (s2l "out", s2l "ww.vts") /\ vtk_file (s2l "out", s2l "ww.2.inp") None = Ok (s2l "out", s2l "ww.vts")
  /\ vtk_file (s2l "out", s2l "ww") (Some (s2l "pics", s2l "a.vts")) = Ok (s2l "pics", s2l "a.vts") /\ vtk_file (s2l "out", s2l "ww.inp") None = Ok (s2l "out", s2l "ww.vts").
Proof. repeat split; vm_compute; reflexivity. Qed.
Print Assumptions C125_a_vts_file.
Print Assumptions C125_given.
Print Assumptions C125_given_plain.
Print Assumptions C125_default.
Print Assumptions C125_two_dots_refuted.
