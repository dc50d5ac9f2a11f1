(** C134: from the text of a mctal file to the tables of its tallies. *)
From Coq Require Import Lia ZArith.
From Verif Require Import PyBase PyStr PyText MeshModel MeshSpec MctalModel MctalSpec MctalProofs2 MctalProofs4 MctalProofs5 MctalProofs6 MctalProofs7 MctalProofs8 MctalProofs9 MctalProps MctalAllSpec MctalAllProofs.
Open Scope nat_scope.

(** C134: for every file with the text of some tallies of different numbers, whose values are numbers, the tables are made, one per
    tally in the order of the file.  The table of a tally has a row for every combination of cell and bins, which shows the value and
    the error at the place of that combination in the list of values of the file, a row for the total of every cell when the tally has
    a total, with the value and the error at its place, and no other rows. *)
Theorem C134_from_text_to_tables : forall junk h ts f, MctalText h ts f -> ts <> [] -> NoDup (map (fun tv => t_number (fst tv)) ts) ->
  Forall (fun tv => 0 < nth 2 (sizes (fst tv)) 0 /\ AllNumbers (snd tv)) ts ->
  exists rs l, read_mctal junk false f = Ok (h, rs) /\ (forall info x, read_mctal junk info f = Ok x -> x = (h, rs))
    /\ get_dfs rs = Ok l /\ map fst l = map (fun tv => t_number (fst tv)) ts
    /\ forall i t vs, nth_error ts i = Some (t, vs) -> exists D T, nth_error l i = Some (t_number t, (D, T))
       /\ (forall f idx, Comb t f idx -> exists v e ir, nth_error vs (place (shape t) (f :: idx)) = Some (Some v, Some e) /\ In ir (d_rows D) /\ ShowsBin t D (snd ir) f idx v e)
       /\ (forall f n, f < size (t_cells t) -> total_name t = Some n -> exists v e ir, nth_error vs (place (shape t) (last_bin t f)) = Some (Some v, Some e) /\ In ir (d_rows D) /\ ShowsTotal t D (snd ir) f n v e)
       /\ (forall ir, In ir (d_rows D) ->
            (exists f idx v e, Comb t f idx /\ nth_error vs (place (shape t) (f :: idx)) = Some (Some v, Some e) /\ ShowsBin t D (snd ir) f idx v e)
            \/ (exists f n v e, f < size (t_cells t) /\ total_name t = Some n /\ nth_error vs (place (shape t) (last_bin t f)) = Some (Some v, Some e) /\ ShowsTotal t D (snd ir) f n v e)).
Proof. exact text_to_tables. Qed.
Print Assumptions C134_from_text_to_tables.
(* the file with an ordinary tally (two cells, two energy bins and their total) and a mesh tally *)
Example C134_witness : MctalText head0 [(without_values tally4, values tally4); (without_values tally14, values tally14)] sample
  /\ NoDup (map (fun tv => t_number (fst tv)) [(without_values tally4, values tally4); (without_values tally14, values tally14)])
  /\ Forall (fun tv : tally * list (fl * fl) => 0 < nth 2 (sizes (fst tv)) 0 /\ AllNumbers (snd tv)) [(without_values tally4, values tally4); (without_values tally14, values tally14)]
  /\ Comb (without_values tally4) 1 [0; 0; 0; 0; 0; 1; 0; 0; 0; 0] /\ total_name (without_values tally4) = Some "Energy"%string
  /\ nth_error (values tally4) (place (shape (without_values tally4)) [1; 0; 0; 0; 0; 0; 1; 0; 0; 0; 0]) = Some (Some 5.0%Q, Some 0.25%Q).
Proof.
  split; [exact (proj1 C62_witness_file)|]. split; [vm_compute; repeat constructor; cbn [In]; intuition discriminate|].
  split; [|split; [|split; [vm_compute; reflexivity|vm_compute; reflexivity]]].
  - apply Forall_cons; [|apply Forall_cons; [|apply Forall_nil]].
    + split; [apply Nat.ltb_lt; vm_compute; reflexivity|]. cbv [AllNumbers snd values map t_vals tally4]. repeat (apply Forall_cons; [split; discriminate|]). apply Forall_nil.
    + split; [apply Nat.ltb_lt; vm_compute; reflexivity|]. cbv [AllNumbers snd values map t_vals tally14]. repeat (apply Forall_cons; [split; discriminate|]). apply Forall_nil.
  - split; [apply Nat.ltb_lt; vm_compute; reflexivity|]. unfold in_shape.
    repeat (apply Forall2_cons; [apply Nat.ltb_lt; vm_compute; reflexivity|]). apply Forall2_nil.
Qed.
