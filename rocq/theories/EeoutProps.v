(** C80-C82: reading .eeout files, what is refused, and export. *)
From Coq Require Import Lia ZArith.
From Verif Require Import PyBase PyStr PyText D1SModel D1SProofs2 MeshModel MeshSpec MeshProofs OutModel OutSpec FispModel EeoutModel EeoutSpec EeoutProofs2 EeoutProofs3 EeoutProofs5.
Open Scope nat_scope.

(** C80.  A file whose counts agree with its content is read as it is: node i of the file is point i; element i
    has the nodes of the file counted from 0; the material is the name with the number of the file; densities and
    volumes are those of the file; every edit gives the values of its last block of results and the errors of its
    last block of errors, without the number for the whole mesh. *)
Theorem C80_file_is_read : forall c lines, FileText c lines -> Consistent c ->
  exists g fs, read_eeout lines = Ok g /\ g_info g = k_counts c /\ g_particles g = k_particles c
    /\ (forall i, nth_error (g_points g) i = match nth_error (k_x c) i, nth_error (k_y c) i, nth_error (k_z c) i with Some x, Some y, Some z => Some (x, y, z) | _, _, _ => None end)
    /\ length (g_points g) = length (k_x c)
    /\ g_second g = k_second c /\ g_cells g = map (map (fun z => (z - 1)%Z)) (k_elements c)
    /\ g_material g = map (material_of c) (k_ids c) /\ g_density g = k_density c /\ g_volume g = k_volume c
    /\ Forall2 Arrays (k_edits c) fs /\ g_fields g = concat fs.
Proof.
  intros c lines H C. destruct (file_read c lines H C) as (fs & F & E). rewrite E. eexists. exists fs. split; [reflexivity|].
  cbn [g_info g_particles g_points g_second g_cells g_material g_density g_volume g_fields].
  destruct C as (_ & _ & Ly & Lz & _). repeat split; auto.
  - intros i. revert Ly Lz. generalize (k_x c), (k_y c), (k_z c). clear. intros x. revert i. induction x as [|a x IH]; intros i [|b y] [|d z] Hy Hz; try discriminate; destruct i; try reflexivity. cbn [combine nth_error].
    apply IH; cbn [length] in *; lia.
  - rewrite !combine_length. lia.
Qed.

(** C80.  Every element of a file with second order elements has ten nodes, and yet the vtk type given to it is that of
    the tetrahedron with four. *)
Theorem C80_second_order_cell_type_refuted : exists lines g, read_eeout lines = Ok g /\ g_second g = true /\ Forall (fun e => length e = 10) (g_cells g) /\ g_cells g <> [] /\ cell_type g = 10%Z.
Proof.
  exists (map s2l [" NUMBER OF PARTICLES: 1"; " NUMBER OF NODES: 1"; " NUMBER OF MATERIALS: 1"; " NUMBER OF 1st TETS: 0"; " NUMBER OF 2nd TETS: 1"; " NUMBER OF EDITS: 0";
    " PARTICLE LIST"; " 1"; " MATERIALS"; "water"; " NODES X"; "  1.0E+00"; " NODES Y"; "  1.0E+00"; " NODES Z"; "  1.0E+00"; " ELEMENT TYPE"; " ELEMENT MATERIAL"; " 1"; " 1 1 1 1 1 1";
    " CONNECTIVITY DATA"; " 1 2 3 4 5 6 7 8 9 10"; " 1 1 1 1 1 1"; " NEAREST NEIGHBOR DATA"; " CENTROIDS X"; " DENSITY"; "  1.0E+00"; " VOLUMES"; "  2.0E+00"]%string).
  eexists. split; [vm_compute; reflexivity|]. repeat split; try reflexivity; [repeat constructor|discriminate].
Qed.

(** C81.  Files with elements other than tetrahedra of one order, with a list of particles other than their count, or
    with elements listed by node, are refused. *)
Theorem C81_mixed_elements_are_refused : forall c a rest t1 t2, BeginText c a -> HeadCounts c t1 t2 ->
  ~ ((0 < t1)%Z /\ t2 = 0%Z \/ (0 < t2)%Z /\ t1 = 0%Z) -> read_eeout (a ++ rest) = Err NotImplementedError.
Proof. exact mixed_refused. Qed.
Theorem C81_wrong_particle_list_is_refused : forall c a rest t1 t2 n, BeginText c a -> HeadCounts c t1 t2 -> (0 < t1)%Z /\ t2 = 0%Z \/ (0 < t2)%Z /\ t1 = 0%Z ->
  counted (k_counts c) "NUMBER OF PARTICLES" n -> n <> Z.of_nat (length (k_particles c)) -> read_eeout (a ++ rest) = Err OtherError.
Proof. exact particles_refused. Qed.
Theorem C81_node_ordered_is_refused : forall c a h tc rest t1 t2, BeginText c a -> MeshHead c h -> HeadCounts c t1 t2 -> (0 < t1)%Z /\ t2 = 0%Z \/ (0 < t2)%Z /\ t1 = 0%Z ->
  counted (k_counts c) "NUMBER OF PARTICLES" (Z.of_nat (length (k_particles c))) -> length (k_y c) = length (k_x c) -> length (k_z c) = length (k_x c) ->
  mentions "CONNECTIVITY DATA" tc -> mentions "NODE ORDERED" tc -> read_eeout (a ++ h ++ tc :: rest) = Err NotImplementedError.
Proof. exact node_ordered_refused. Qed.
(** C81.  Whatever the file, if it is read then it has the titles of its parts, its elements are of the kind and number
    that it counts, and no array has a length other than the number of points or of elements. *)
Theorem C81_what_is_read_is_consistent : forall lines g, read_eeout lines = Ok g ->
  (exists l, In l lines /\ mentions "NUMBER OF EDITS" l) /\ (exists l, In l lines /\ mentions "PARTICLE LIST" l) /\ (exists l, In l lines /\ ElementType l)
  /\ (exists l, In l lines /\ mentions "CONNECTIVITY DATA" l) /\ (exists l, In l lines /\ mentions "CENTROIDS X" l)
  /\ g_elems g = Z.of_nat (length (g_cells g)) /\ (0 < g_elems g)%Z /\ Forall (fun e => length e = if g_second g then 10 else 4) (g_cells g)
  /\ dget str_eqb (s2l "NUMBER OF PARTICLES") (g_info g) = Some (Z.of_nat (length (g_particles g)))
  /\ dget str_eqb (s2l (if g_second g then "NUMBER OF 2nd TETS" else "NUMBER OF 1st TETS")) (g_info g) = Some (g_elems g)
  /\ dget str_eqb (s2l (if g_second g then "NUMBER OF 1st TETS" else "NUMBER OF 2nd TETS")) (g_info g) = Some 0%Z
  /\ (forall n, n = length (g_material g) \/ n = length (g_density g) \/ n = length (g_volume g) \/ (exists a, In a (g_fields g) /\ n = length (snd a)) ->
      n = length (g_points g) \/ n = length (g_cells g)).
Proof. exact read_inv. Qed.

(** C82.  The file is written in the folder, if that exists, under the name given or the name of the eeout file up to its
    first dot, with the extension vtu; no other format is accepted. *)
Theorem C82_export_path : forall exists_ sep base folder name format p, export exists_ sep base folder name format = Ok p <->
  exists_ folder = true /\ format = s2l "vtu"
  /\ exists n, p = folder ++ sep :: n ++ s2l ".vtu"
     /\ match name with Some f => n = f | None => ~ In dot n /\ (base = n \/ exists r, base = n ++ dot :: r) end.
Proof.
  intros exists_ sep base folder name format p. unfold export, stem.
  assert (B : forall s, ~ In dot (before_dot s) /\ (s = before_dot s \/ exists r, s = before_dot s ++ dot :: r)).
  { clear. induction s as [|c s (IH1 & IH2)]; cbn [before_dot]; [split; [intros []|left; reflexivity]|]. destruct (Ascii.eqb_spec c dot) as [->|N]; [split; [intros []|right; exists s; reflexivity]|].
    split; [intros [E|E]; [congruence|exact (IH1 E)]|]. destruct IH2 as [E|[r E]]; [left; f_equal; exact E|right; exists r; cbn [app]; f_equal; exact E]. }
  assert (U : forall n s, ~ In dot n -> (s = n \/ exists r, s = n ++ dot :: r) -> before_dot s = n).
  { clear. induction n as [|c n IH]; intros s Hn Hs.
    - destruct Hs as [->|[r ->]]; reflexivity.
    - assert (c <> dot) by (intros ->; apply Hn; left; reflexivity). destruct Hs as [->|[r ->]]; cbn [before_dot app]; (destruct (Ascii.eqb_spec c dot); [congruence|]); f_equal; apply IH; auto; try (intros X; apply Hn; right; exact X). right. exists r. reflexivity. }
  destruct (exists_ folder); cbn [negb]; [|split; [discriminate|intros (X & _); discriminate X]]. cbn [memb]. rewrite Bool.orb_false_r. destruct (str_eqb format (s2l "vtu")) eqn:E; cbn [negb].
  - apply str_eqb_eq in E as ->. split.
    + intros H. injection H as <-. split; [reflexivity|]. split; [reflexivity|]. eexists. split; [reflexivity|]. destruct name; [reflexivity|apply B].
    + intros (_ & _ & n & -> & Hn). f_equal. f_equal. f_equal. destruct name as [f|]; [subst; reflexivity|]. destruct Hn as [H1 H2]. rewrite (U n base H1 H2). reflexivity.
  - split; [discriminate|]. intros (_ & X & _). rewrite X in E. rewrite (proj2 (str_eqb_eq _ _) eq_refl) in E. discriminate E.
Qed.
Theorem C82_export_refusals : forall exists_ sep base folder name format,
  (exists_ folder = false -> export exists_ sep base folder name format = Err ValueError)
  /\ (exists_ folder = true -> format <> s2l "vtu" -> export exists_ sep base folder name format = Err NotImplementedError).
Proof.
  intros. unfold export. split; [intros ->; reflexivity|]. intros -> H. cbn [negb memb]. destruct (str_eqb format (s2l "vtu")) eqn:E; [apply str_eqb_eq in E; congruence|reflexivity].
Qed.

(** ** a file that meets the hypotheses *)
Ltac says_not := let X := fresh in intros X; apply has_iff in X; discriminate X.
Ltac none := unfold Quiet, says_none, start_titles, edit_titles; repeat (constructor; [says_not|]); constructor.
Ltac mention := apply has_iff; reflexivity.
Ltac plain := split; [none|split; [let X := fresh in intros X; apply mat_title_iff in X; discriminate X|let X := fresh in intros X; apply elem_type_iff in X; discriminate X]].
Ltac plains := repeat (constructor; [plain|]); constructor.
Ltac title s := exists (s2l s); split; [reflexivity|repeat constructor; discriminate].
Ltac digits := split; [discriminate|repeat constructor].
Ltac words_of := match goal with |- context [split ?l] => let v := eval vm_compute in (split l) in replace (split l) with v by (vm_compute; reflexivity) end.
Ltac record := split; [eexists; vm_compute; reflexivity|split; [vm_compute; reflexivity|words_of; repeat (constructor; [digits|]); constructor]].
Definition w_lines_begin : list str := map s2l ["MCNP EDITS A"; " NUMBER OF PARTICLES:  1"; " NUMBER OF NODES    :  4"; " NUMBER OF MATERIALS:  1"; " NUMBER OF 1st TETS :  1"; " NUMBER OF 2nd TETS :  0"; " NUMBER OF EDITS    :  1";
  "             14  1  2  4  1  1"; " PARTICLE LIST"; "  1 "; " PARTICLE EDIT LIST"; " MATERIALS"; "water_001   "; "             36   1"]%string.
Definition w_counts : list (str * Z) := [(s2l "NUMBER OF PARTICLES", 1%Z); (s2l "NUMBER OF NODES", 4%Z); (s2l "NUMBER OF MATERIALS", 1%Z); (s2l "NUMBER OF 1st TETS", 1%Z); (s2l "NUMBER OF 2nd TETS", 0%Z); (s2l "NUMBER OF EDITS", 1%Z)].
Definition val (t : string) : Q := match parse_float (s2l t) with Ok q => q | Err _ => 0%Q end.
Definition w_edit : edit := mkEdit 1 1 (s2l "FLUX_14") [mkBlock false (val "0.00E+00") [val "1.46E-04"]; mkBlock true (val "1.00E+00") [val "3.44E-02"]].
Definition w_content : content := mkContent w_counts [1%Z] [s2l "water_001"]
  [val "2.5E+00"; val "-2.5E+00"; val "-5.0E+00"; val "0.0E+00"] [val "1.0E+00"; val "1.5E+00"; val "1.0E+00"; val "0.0E+00"] [val "1.0E+00"; val "2.5E+00"; val "-5.0E+00"; val "0.0E+00"]
  [1%Z] false [[4%Z; 2%Z; 1%Z; 3%Z]] [w_edit] [val "9.45E-01"] [val "1.55E+01"].
Definition w_lines_mesh : list str := map s2l [" NODES X (cm)"; "  2.5E+00 -2.5E+00 -5.0E+00"; "  0.0E+00"; "             13   1   3   8   4   5";
  " NODES Y (cm)"; "  1.0E+00  1.5E+00  1.0E+00"; "  0.0E+00"; "             13   1   3   8   4   5"; " NODES Z (cm)"; "  1.0E+00  2.5E+00 -5.0E+00"; "  0.0E+00"; "             13   1   2   4   1   20";
  " ELEMENT TYPE"; "  4"; "             17    1   2   4   1   10"; " ELEMENT MATERIAL"; "   1"; "             49    1    2    4   4   4";
  " CONNECTIVITY DATA 1ST ORDER TETS ELEMENT ORDERED"; "     4   2"; "  1 3"; "             37   1   2   4   4   4"]%string.
Definition w_lines_result : list str := map s2l [" NEAREST NEIGHBOR DATA 1ST ORDER TETS"; "   0   0   0   0"; "             58   0   0   0   0   0";
  " DATA OUTPUT PARTICLE : 1 ; EDIT LIST : 1 ; TYPE : FLUX_14"; " DATA OUTPUT COMMENT :";
  " DATA SETS RESULT TIME BIN : 1 ;"; "  0.00E+00  1.46E-04"; "            149   1   3   8   2   5"; " DATA SETS RESULT SQR TIME BIN : 1 ;"; "  0.00E+00  2.53E-11";
  " DATA SETS REL ERROR TIME BIN : 1 ;"; "  1.00E+00  3.44E-02"; "             17   1   3   8   1   5"; " CENTROIDS X (cm)"; "  2.6E+00"; " DENSITY (gm/cm^3)"; "  9.45E-01"; "             15   1   3   8   1   5"; " VOLUMES (cm^3)"; "  1.55E+01"]%string.
Definition w_lines : list str := w_lines_begin ++ w_lines_mesh ++ w_lines_result.
(* the pieces of a number of the form -d.ddE+dd *)
Definition sg_of (w : str) : str := match w with c :: _ => if Ascii.eqb c minus then [minus] else [] | [] => [] end.
Definition body_of (w : str) : str := match w with c :: r => if Ascii.eqb c minus then r else w | [] => [] end.
Ltac sciw := match goal with |- SciText ?w => let s := eval vm_compute in (sg_of w) in let b := eval vm_compute in (body_of w) in
  match b with ?d :: _ :: ?r => let x := eval vm_compute in (span is_digit r) in
    match x with (?ds, _ :: ?g :: ?xs) => exists s, d, ds, g, xs; split; [reflexivity|]; split; [auto|]; split; [reflexivity|]; split; [digits|]; split; [auto|digits] end end end.
Ltac numbers := split; [eexists; eexists; eexists; eexists; split; [reflexivity|split; [reflexivity|split; [auto|reflexivity]]]|words_of; repeat (constructor; [split; [sciw|vm_compute; reflexivity]|]); constructor].
Ltac number_lines qss := exists qss; split; [reflexivity|repeat (constructor; [numbers|]); constructor].
Ltac whole := split; [words_of; discriminate|words_of; repeat (constructor; [split; [digits|vm_compute; reflexivity]|]); constructor].
Ltac whole_lines zss := exists zss; split; [reflexivity|repeat (constructor; [whole|]); constructor].
Ltac count_line a b u d := split; [exists (s2l a), (s2l b); split; [reflexivity|]; split; [discriminate|]; split; [repeat constructor|]; split; [intros ? ? E; injection E as <- _; reflexivity|reflexivity]
  |exists (s2l u), (s2l d), []; split; [reflexivity|]; split; [intros ? ? E; injection E as <- _; reflexivity|]; split; [digits|]; split; [constructor|reflexivity]].
Ltac nodups := repeat (constructor; [let X := fresh in intros X; repeat (destruct X as [X|X]; [discriminate X|]); destruct X|]); constructor.
Definition begin_of (n : nat) : str := nth n w_lines_begin [].
Example C80_begin_witness : BeginText w_content w_lines_begin.
Proof.
  exists [begin_of 0], [begin_of 1; begin_of 2; begin_of 3; begin_of 4; begin_of 5; begin_of 6], [begin_of 7], (begin_of 8), (begin_of 9), [begin_of 10], (begin_of 11), [begin_of 12], [begin_of 13].
  split; [reflexivity|]. split; [plains|]. split; [repeat (constructor; [none|]); constructor|]. split; [plains|]. split.
  { split; [|split; [nodups|split]].
    - constructor; [count_line " NUMBER OF PARTICLES"%string ":  1"%string " NUMBER OF PARTICLES:  "%string "1"%string|]. constructor; [count_line " NUMBER OF NODES    "%string ":  4"%string " NUMBER OF NODES    :  "%string "4"%string|].
      constructor; [count_line " NUMBER OF MATERIALS"%string ":  1"%string " NUMBER OF MATERIALS:  "%string "1"%string|]. constructor; [count_line " NUMBER OF 1st TETS "%string ":  1"%string " NUMBER OF 1st TETS :  "%string "1"%string|].
      constructor; [count_line " NUMBER OF 2nd TETS "%string ":  0"%string " NUMBER OF 2nd TETS :  "%string "0"%string|]. constructor; [count_line " NUMBER OF EDITS    "%string ":  1"%string " NUMBER OF EDITS    :  "%string "1"%string|]. constructor.
    - exists (begin_of 1). eexists. split; [reflexivity|mention].
    - exists [begin_of 1; begin_of 2; begin_of 3; begin_of 4; begin_of 5], (begin_of 6). split; [reflexivity|]. split; [mention|]. repeat constructor; says_not. }
  split; [plains|]. split; [title ""%string|]. split; [plain|]. split.
  { exists [s2l "1"]. split; [|reflexivity]. exists (s2l "  "), [(s2l "1", s2l " ")]. split; [reflexivity|]. split; [repeat constructor|]. constructor; [|constructor]. split; [reflexivity|]. split; [digits|]. split; [repeat constructor|discriminate]. }
  split; [plains|]. split; [title ""%string|]. split; [plains|]. split; [|plains]. constructor; [|constructor].
  exists (s2l "water_001   "), []. split; [reflexivity|]. split; [discriminate|]. split; [let X := fresh in intros X; repeat (destruct X as [X|X]; [discriminate X|]); destruct X|]. split; [auto|reflexivity].
Qed.
Definition mesh_of (n : nat) : str := nth n w_lines_mesh [].
Example C80_mesh_witness : MeshText w_content w_lines_mesh.
Proof.
  exists (firstn 18 w_lines_mesh), (mesh_of 18), [mesh_of 19; mesh_of 20], (mesh_of 21). split; [reflexivity|]. split.
  { exists (mesh_of 0), [mesh_of 1; mesh_of 2], (mesh_of 3), (mesh_of 4), [mesh_of 5; mesh_of 6], (mesh_of 7), (mesh_of 8), [mesh_of 9; mesh_of 10], (mesh_of 11), (mesh_of 12), [mesh_of 13; mesh_of 14], (mesh_of 15), [mesh_of 16], (mesh_of 17).
    split; [reflexivity|]. split; [title " (cm)"%string|]. split; [number_lines [[val "2.5E+00"; val "-2.5E+00"; val "-5.0E+00"]; [val "0.0E+00"]]|]. split; [record|].
    split; [title " (cm)"%string|]. split; [number_lines [[val "1.0E+00"; val "1.5E+00"; val "1.0E+00"]; [val "0.0E+00"]]|]. split; [record|].
    split; [title " (cm)"%string|]. split; [number_lines [[val "1.0E+00"; val "2.5E+00"; val "-5.0E+00"]; [val "0.0E+00"]]|]. split; [record|].
    split; [title ""%string|]. split; [repeat (constructor; [none|]); constructor|]. split; [title ""%string|]. split; [whole_lines [[1%Z]]|record]. }
  split; [mention|]. split; [none|]. split; [whole_lines [[4%Z; 2%Z]; [1%Z; 3%Z]]|record].
Qed.
Definition result_of (n : nat) : str := nth n w_lines_result [].
Example C80_result_witness : ResultText w_content w_lines_result.
Proof.
  exists (result_of 0), [result_of 1; result_of 2], [map result_of (seq 3 10)], (result_of 13), [result_of 14], (result_of 15), [result_of 16], [result_of 17], (result_of 18), [result_of 19], [].
  split; [reflexivity|]. split; [mention|]. split; [none|]. split; [none|]. split; [repeat (constructor; [none|]); constructor|]. split.
  { constructor; [|constructor]. exists (result_of 3), [result_of 4], [map result_of (seq 5 5); map result_of (seq 10 3)]. split; [reflexivity|]. split.
    - exists (s2l " "), (s2l "1"), (s2l " "), (s2l "1"), (s2l " "), []. split; [reflexivity|]. do 3 (split; [split; [discriminate|repeat constructor]|]). split; [digits|]. split; [reflexivity|]. split; [digits|]. split; [reflexivity|].
      split; [discriminate|]. split; [repeat constructor|]. split; [intros ? ? E; discriminate E|none].
    - split; [repeat (constructor; [none|]); constructor|]. constructor; [|constructor; [|constructor]].
      + exists (result_of 5), [result_of 6], (result_of 7), [result_of 8; result_of 9]. split; [reflexivity|]. split; [split; [mention|split; [says_not|split; [says_not|reflexivity]]]|]. split; [number_lines [[val "0.00E+00"; val "1.46E-04"]]|]. split; [none|]. split; [reflexivity|repeat (constructor; [none|]); constructor].
      + exists (result_of 10), [result_of 11], (result_of 12), []. split; [reflexivity|]. split; [split; [split; [mention|says_not]|split; [says_not|split; [says_not|reflexivity]]]|]. split; [number_lines [[val "1.00E+00"; val "3.44E-02"]]|]. split; [none|]. split; [reflexivity|constructor]. }
  split; [title " (cm)"%string|]. split; [repeat (constructor; [none|]); constructor|]. split; [title " (gm/cm^3)"%string|]. split; [number_lines [[val "9.45E-01"]]|]. split; [constructor; [record|constructor]|].
  split; [title " (cm^3)"%string|]. split; [number_lines [[val "1.55E+01"]]|constructor].
Qed.
Example C80_witness : FileText w_content w_lines /\ Consistent w_content.
Proof.
  split; [exists w_lines_begin, w_lines_mesh, w_lines_result; split; [reflexivity|]; split; [exact C80_begin_witness|split; [exact C80_mesh_witness|exact C80_result_witness]]|].
  repeat split; try reflexivity; try (unfold counted; cbn; tauto); try discriminate; [repeat constructor|left; reflexivity|left; reflexivity|left; reflexivity|nodups|].
  constructor; [|constructor]. split; [eexists; split; [left; reflexivity|reflexivity]|]. split; [eexists; split; [right; left; reflexivity|reflexivity]|repeat (constructor; [left; reflexivity|]); constructor].
Qed.
Example C80_read_witness : exists g, read_eeout w_lines = Ok g /\ g_cells g = [[3; 1; 0; 2]%Z] /\ map fst (g_fields g) = [s2l "Tally1_par1_FLUX_14 - value"; s2l "Tally1_par1_FLUX_14 - error"] /\ g_material g = [Some (s2l "water_001")].
Proof. eexists. split; [vm_compute; reflexivity|]. repeat split; reflexivity. Qed.
Example C81_witness : HeadCounts w_content 1 0 /\ read_eeout (map (fun l => if str_eqb l (s2l " NUMBER OF 2nd TETS :  0") then s2l " NUMBER OF 2nd TETS :  7" else l) w_lines) = Err NotImplementedError.
Proof. split; [repeat split; unfold counted; cbn; tauto|vm_compute; reflexivity]. Qed.
Example C82_witness : export (fun _ => true) "/"%char (s2l "cyl.tetra.eeout") (s2l "out") None (s2l "vtu") = Ok (s2l "out/cyl.vtu").
Proof. reflexivity. Qed.

Print Assumptions C80_file_is_read.
Print Assumptions C80_second_order_cell_type_refuted.
Print Assumptions C81_mixed_elements_are_refused.
Print Assumptions C81_wrong_particle_list_is_refused.
Print Assumptions C81_node_ordered_is_refused.
Print Assumptions C81_what_is_read_is_consistent.
Print Assumptions C82_export_path.
Print Assumptions C82_export_refusals.
