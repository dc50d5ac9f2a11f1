(** Theorems about the text of an input file (C97). *)
From Verif Require Import PyBase PyStr PyText MatTextModel MatTextSpec InpWriteModel InpWriteSpec InpWriteProofs.
Open Scope nat_scope.

Theorem C97_written_file : forall wrap b, Writable wrap b ->
  let hs := header_lines (bl_header b) in let cs := kept_cards wrap (bl_cells b) in let ss := kept_cards wrap (bl_surfs b) in
  let ds := kept_opt false (bl_trans b) ++ mats_lines (bl_mats b) ++ kept_opt wrap (bl_other b) in
  lines_of (write_blocks wrap b) = hs ++ cs ++ [nl] :: ss ++ [nl] :: ds /\ Forall (fun l => blank l = false) (hs ++ cs ++ ss ++ ds).
Proof.
  intros wrap b H hs cs ss ds. destruct (written_lines wrap b H) as (h & c & s & d & E & -> & -> & -> & -> & F). split; [exact E|]. eapply Forall_impl; [|exact F]. intros l [_ X]. exact X.
Qed.
Print Assumptions C97_written_file.
(** so that the file has exactly two blank lines *)
Theorem C97_two_blank_lines : forall wrap b, Writable wrap b -> filter blank (lines_of (write_blocks wrap b)) = [[nl]; [nl]].
Proof.
  intros wrap b H. destruct (written_lines wrap b H) as (h & c & s & d & E & _ & _ & _ & _ & F). rewrite E. rewrite !Forall_app in F. destruct F as (F1 & F2 & F3 & F4).
  assert (G : forall ls, Forall full ls -> filter blank ls = []) by (induction 1 as [|l ls [_ B] _ IH]; [reflexivity|]; cbn [filter]; rewrite B; exact IH).
  pose proof (G h F1) as E1. pose proof (G c F2) as E2. pose proof (G s F3) as E3. pose proof (G d F4) as E4. unfold str in *. rewrite filter_app, E1, filter_app, E2. cbn [app filter]. change (blank [nl]) with true. cbn iota. rewrite filter_app, E3. cbn [app filter]. change (blank [nl]) with true. cbn iota. rewrite E4. reflexivity.
Qed.
Print Assumptions C97_two_blank_lines.
(** a card that starts with a line of blanks puts a third blank line in the file *)
Theorem C97_blank_first_line_refuted : exists b, filter blank (lines_of (write_blocks false b)) = [sp :: [nl]; [nl]; [nl]] /\ length (bl_cells b) = 1.
Proof. exists (mkBl None [fun _ => s2l " " ++ nl :: s2l "1 0 -1"] [] None None None). split; vm_compute; reflexivity. Qed.
Print Assumptions C97_blank_first_line_refuted.
Definition tx (ls : list string) : str := concat (map (fun s => s2l s ++ [nl]) ls).
Definition ex_blocks : blocks := mkBl (Some [s2l "title" ++ [cr; nl]; s2l "c header" ++ [nl]]) [fun _ => tx ["1 0 -1"; "  "; "     imp:n=1"; ""]%string; fun _ => s2l "2 0 1"] [fun _ => tx ["1 so 5"]%string]
  (Some [fun _ => s2l "TR1 0 0 1"]) (Some (s2l "M1")) (Some [fun w : bool => if w then s2l "wrapped" else s2l "SDEF POS=0 0 0"]).
Example C97_case : Writable false ex_blocks /\ write_blocks false ex_blocks = tx ["title"; "c header"; "1 0 -1"; "     imp:n=1"; "2 0 1"; ""; "1 so 5"; ""; "TR1 0 0 1"; "M1"; "SDEF POS=0 0 0"]%string.
Proof.
  assert (P : forall b r, ~ In nl (s2l b) -> existsb (fun c => negb (is_ws c)) (s2l b) = true -> Printable (s2l b ++ r)).
  { intros b r H E. exists 0, (s2l b), r. split; [reflexivity|]. split; [exact H|]. apply existsb_exists in E. destruct E as (c & Hc & N). exists c. split; [exact Hc|]. now apply Bool.negb_true_iff. }
  assert (P0 : forall b, ~ In nl (s2l b) -> existsb (fun c => negb (is_ws c)) (s2l b) = true -> Printable (s2l b)) by (intros b H E; rewrite <- (app_nil_r (s2l b)); now apply P).
  split; [|vm_compute; reflexivity]. unfold Writable, ex_blocks. cbn [bl_header bl_cells bl_surfs bl_trans bl_mats bl_other]. repeat split.
  - constructor; [|constructor; [|constructor]]; (split; [|vm_compute; reflexivity]).
    + exists (s2l "title" ++ [cr]). split; [reflexivity|]. cbn. intuition discriminate.
    + exists (s2l "c header"). split; [reflexivity|]. cbn. intuition discriminate.
  - constructor; [|constructor; [|constructor]]; [apply (P "1 0 -1"%string); [cbn; intuition discriminate|reflexivity]|apply P0; [cbn; intuition discriminate|reflexivity]].
  - constructor; [|constructor]. apply (P "1 so 5"%string); [cbn; intuition discriminate|reflexivity].
  - constructor; [|constructor]. apply P0; [cbn; intuition discriminate|reflexivity].
  - vm_compute. repeat constructor.
  - constructor; [|constructor]. apply P0; [cbn; intuition discriminate|reflexivity].
Qed.
