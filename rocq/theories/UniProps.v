(** C120: the report of the bytes of a file that are not UTF-8. *)
From Coq Require Import Lia ZArith Sorted.
From Verif Require Import PyBase PyStr RssaModel RssaSpec UniModel UniSpec UniProofs UniProofs2.
Open Scope nat_scope.

(* C120: every file is read in exactly one way, as characters and bytes that belong to none *)
Theorem C120_decoding : forall file, is_bytes file -> exists items, Decoding file items /\ forall items', Decoding file items' -> items' = items.
Proof. intros file B. destruct (decoding_exists _ file (le_n _) B) as (items & D). exists items. split; [exact D|]. intros items' D'. exact (decoding_unique items' items file D' D). Qed.
Print Assumptions C120_decoding.

(* C120: the report names exactly the bytes that belong to no character, each with its line and column, in order *)
Theorem C120_report : forall file items, Decoding file items -> Report (bad_bytes (1, 0, false) items) (debug_file_unicode file).
Proof. exact report_thm. Qed.
Print Assumptions C120_report.

(* C120: the report is empty exactly for the files that are UTF-8 *)
Theorem C120_empty : forall file, is_bytes file -> (debug_file_unicode file = [] <-> exists cps, Forall scalar cps /\ file = concat (map encode cps)).
Proof. exact empty_thm. Qed.
Print Assumptions C120_empty.

(* m, e acute in Latin-1, newline; a sign in UTF-8, a lone continuation byte, \r\n, and 0xFF on the third line *)
Definition f1 : bytes := [109; 233; 10; 194; 176; 128; 13; 10; 255]%Z.
Definition i1 : list item := [Good 109; Bad 233; Good 10; Good 176; Bad 128; Good 13; Good 10; Bad 255]%Z.
Example C120_witness : is_bytes f1 /\ Decoding f1 i1 /\ bad_bytes (1, 0, false) i1 = [(1, (1, 233%Z)); (2, (1, 128%Z)); (3, (0, 255%Z))]
  /\ debug_file_unicode f1 = s2l "Found errors on line 1:  2: e9" ++ [nl] ++ s2l "Found errors on line 2:  2: 80" ++ [nl] ++ s2l "Found errors on line 3:  1: ff" ++ [nl].
Proof.
  assert (B : is_bytes f1) by (unfold is_bytes, f1; repeat constructor; lia).
  split; [exact B|]. split; [|split; vm_compute; reflexivity].
  split; [vm_compute; reflexivity|]. split; [unfold i1; repeat constructor; cbn; lia|].
  intros l1 b l2 E c r Sc X. assert (K : char_at (concat (map item_bytes (Bad b :: l2))) = Some (c, r)) by (rewrite X; apply char_at_encode; exact Sc). clear X.
  unfold i1 in E. do 8 (destruct l1 as [|? l1]; [cbn [app] in E; try discriminate E; injection E as <- <-; vm_compute in K; discriminate K|cbn [app] in E; apply (f_equal (@tl item)) in E; cbn [tl] in E]). destruct l1; discriminate E.
Qed.
