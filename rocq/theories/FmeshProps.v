(** Meshes: selecting bins, grids, tables, collapsing, moving and exporting (C56-C61) *)
From Coq Require Import Lia ZArith Qabs Lqa.
From Verif Require Import PyBase PyLemmas PyStr PyStrLemmas PyText DataModel D1SModel D1SProofs2 LibModel MeshModel MeshSpec MeshProofs FmeshModel FmeshSpec FmeshProofs FmeshProofs2 FmeshProofs3 FmeshProofs4 FmeshProofs5 FmeshProofs6.
Open Scope nat_scope.

(** ** C56: a sub-mesh *)
(** The mesh returned for an energy and a time has the same boundaries in space, the chosen bins (the totals are
    the last ones) and exactly their values. *)
Theorem C56_selected_values m es ts m' : Shaped m -> get_etbin_data m es ts = Ok m' ->
  SameSpace m m' /\ Shaped m' /\
  exists oe ot, Selects (md_e m) es (md_e m') oe /\ Selects (md_t m) ts (md_t m') ot
    /\ forall t e k j i, t < nt m' -> e < ne m' -> md_a m' t e k j i = md_a m (ot t) (oe e) k j i.
Proof.
  intros HS H. destruct (etbin_ok m es ts m' H) as (A & B). split; [exact A|]. split; [exact (etbin_shaped m es ts m' HS H)|exact B].
Qed.
Print Assumptions C56_selected_values.

(** A selection succeeds exactly when the bins exist; negative numbers count from the end. *)
Theorem C56_selection_is_total m es ts :
  (InRange (md_e m) es /\ InRange (md_t m) ts -> exists m', get_etbin_data m es ts = Ok m')
  /\ (~ InRange (md_e m) es \/ ~ InRange (md_t m) ts -> get_etbin_data m es ts = Err TypeError).
Proof. split; [intros [A B]; apply etbin_total; assumption|apply etbin_out]. Qed.
Print Assumptions C56_selection_is_total.

Definition num (t e k j i : nat) : Q * Q := (inject_Z (10000 * Z.of_nat t + 1000 * Z.of_nat e + 100 * Z.of_nat k + 10 * Z.of_nat j + Z.of_nat i), (1 # 10)%Q).
(* two energy bins and their total, one time *)
Definition m1 : mdata := mkMD false [0; 1; 2]%Q [0; 5]%Q [0; 3; 6; 9]%Q (mkBin [0; 1; 20]%Q Erg true) implicit_time (boxed 1 3 3 1 2 num).
Example C56_witness : Shaped m1 /\ InRange (md_e m1) (Some (-3)%Z) /\ ~ InRange (md_e m1) (Some (-4)%Z) /\ ~ InRange (md_e m1) (Some 3%Z)
  /\ exists m', get_etbin_data m1 (Some (-2)%Z) None = Ok m' /\ x_vals (md_e m') = [1; 20]%Q /\ md_a m' 0 0 2 0 1 = Some (1201%Q, (1 # 10)%Q)
  /\ exists m'', get_etbin_data m1 (Some 2%Z) (Some 0%Z) = Ok m'' /\ x_vals (md_e m'') = [0; 20]%Q /\ md_a m'' 0 0 2 0 1 = Some (2201%Q, (1 # 10)%Q).
Proof.
  split; [intros t e k j i; exact (boxed_ok 1 3 3 1 2 num t e k j i)|]. split; [unfold InRange, nbins; cbn; lia|]. split; [unfold InRange, nbins; cbn; lia|].
  split; [unfold InRange, nbins; cbn; lia|]. eexists. split; [reflexivity|]. split; [reflexivity|]. split; [reflexivity|]. eexists. repeat split; reflexivity.
Qed.

(** ** C57: the grid of a mesh *)
Section Grid.
  Context {R : Type} (sn cs : Q -> Q).
  (** Every time and energy of the mesh has its own two arrays, under its own names, listing its values in the
      order of the cells; there are no other arrays. *)
  Theorem C57_arrays m tally (tr : trsf (R := R)) l f : make_fmesh sn cs m tally tr l = Ok f -> Unrelated (fst l) (snd l) ->
    (forall t e, t < nt m -> e < ne m -> exists v er,
       dget str_eqb (label (fst l) (nt m) (ne m) t e) (g_arrays (f_grid f)) = Some v /\ Listing (f_mesh f) t e fst v
       /\ dget str_eqb (label (snd l) (nt m) (ne m) t e) (g_arrays (f_grid f)) = Some er /\ Listing (f_mesh f) t e snd er)
    /\ length (g_arrays (f_grid f)) = 2 * (nt m * ne m) /\ NoDup (map fst (g_arrays (f_grid f))).
  Proof.
    intros H U. destruct (make_inv sn cs _ _ _ _ _ H) as (m' & g & Hg & ->). cbn [f_mesh f_grid]. split; [|exact (grid_count sn cs _ _ _ _ _ Hg U)].
    intros t e Ht He. exact (grid_arrays sn cs _ _ _ _ _ t e Hg U Ht He).
  Qed.

  (** Cartesian meshes are kept as they are. *)
  Theorem C57_cartesian_mesh_kept m tally (tr : trsf (R := R)) l f : make_fmesh sn cs m tally tr l = Ok f -> Unrelated (fst l) (snd l) -> md_cyl m = false -> f_mesh f = m.
  Proof.
    intros H U C. destruct (make_inv sn cs _ _ _ _ _ H) as (m' & g & Hg & ->). cbn [f_mesh]. destruct (create_form sn cs _ _ _ _ _ Hg U) as [[->|D] _]; [reflexivity|].
    unfold cut_turn in D. rewrite C in D. injection D as ->. reflexivity.
  Qed.

  (** Cylinders: a first angular slice wider than half a turn is cut in two, and every angle keeps its value. *)
  Theorem C57_cylinder_cut m tally (tr : trsf (R := R)) l f : make_fmesh sn cs m tally tr l = Ok f -> Unrelated (fst l) (snd l) -> md_cyl m = true ->
    (exists x, nth_error (md_x3 m) 0 = Some x /\ x < 1 # 2)%Q ->
    md_x1 (f_mesh f) = md_x1 m /\ md_x2 (f_mesh f) = md_x2 m /\ md_e (f_mesh f) = md_e m /\ md_t (f_mesh f) = md_t m
    /\ (forall theta k, InBin (md_x3 (f_mesh f)) k theta -> exists k0, InBin (md_x3 m) k0 theta /\ forall t e j i, md_a (f_mesh f) t e k j i = md_a m t e k0 j i)
    /\ (forall theta k0, InBin (md_x3 m) k0 theta -> exists k, InBin (md_x3 (f_mesh f)) k theta /\ forall t e j i, md_a (f_mesh f) t e k j i = md_a m t e k0 j i)
    /\ (forall b, nth_error (md_x3 (f_mesh f)) 1 = Some b -> b <= 1 # 2)%Q.
  Proof.
    intros H U C Hx. destruct (make_inv sn cs _ _ _ _ _ H) as (m' & g & Hg & ->). cbn [f_mesh].
    assert (D : cut_turn m = Ok m').
    { unfold create_grid in Hg. rewrite C in Hg. destruct (cut_turn m) as [m1|]; [|discriminate Hg]. cbn [bind] in Hg. destruct (bin_arrays m1 l); [|discriminate Hg]. cbn [bind] in Hg. congruence. }
    destruct (cut_ok m m' D C Hx) as (A1 & A2 & A3 & A4 & _ & A5 & A6 & A7). auto 10.
  Qed.

  (** The points of the grid are the corners of the mesh, x1 fastest, moved by the translation. *)
  Theorem C57_points m tally (tr : trsf (R := R)) l f k j i a b c : make_fmesh sn cs m tally tr l = Ok f ->
    nth_error (md_x3 (f_mesh f)) k = Some c -> nth_error (md_x2 (f_mesh f)) j = Some b -> nth_error (md_x1 (f_mesh f)) i = Some a ->
    exists p, nth_error (g_points (f_grid f)) ((k * S (nx2 (f_mesh f)) + j) * S (nx1 (f_mesh f)) + i) = Some p /\ Veq p (place sn cs (md_cyl m) tr a b c).
  Proof. intros H. destruct (make_inv sn cs _ _ _ _ _ H) as (m' & g & Hg & ->). cbn [f_mesh f_grid]. exact (grid_points sn cs _ _ _ _ _ k j i a b c Hg). Qed.

  (** A grid is built for every mesh; a cylinder needs an angular slice. *)
  Theorem C57_grid_exists m tally (tr : trsf (R := R)) l : Unrelated (fst l) (snd l) -> (md_cyl m = true -> 2 <= length (md_x3 m)) -> exists f, make_fmesh sn cs m tally tr l = Ok f.
  Proof. intros U H. destruct (create_total sn cs m tr l U H) as [[m' g] E]. unfold make_fmesh. rewrite E. cbn [bind]. eauto. Qed.

  (** The rotation of a mesh does not reach its grid: the grids of two different rotations are the same. *)
  Theorem C57_rotation_refuted m tally o (r r' : R) l f f' : make_fmesh sn cs m tally (Some (o, r)) l = Ok f -> make_fmesh sn cs m tally (Some (o, r')) l = Ok f' ->
    f_grid f = f_grid f' /\ f_mesh f = f_mesh f'.
  Proof. unfold make_fmesh. rewrite (no_rotation sn cs m o r r' l). destruct (create_grid sn cs m (Some (o, r')) l) as [[m' g]|]; [|discriminate]. cbn [bind]. intros H1 H2. injection H1 as <-. injection H2 as <-. auto. Qed.

  (** A filtered mesh has lost its transformation. *)
  Theorem C57_filtered_unmoved_refuted (d : list (Z * fmesh (R := R))) id l es ts f : create_filtered_mesh sn cs d id l es ts = Ok f -> f_trsf f = None /\ f_tally f = str_of_Z id.
  Proof.
    unfold create_filtered_mesh. destruct (dget Z.eqb id d) as [g|]; [|discriminate]. destruct (get_etbin_data (f_mesh g) es ts) as [m|]; [|discriminate]. cbn [bind].
    intros H. destruct (make_inv sn cs _ _ _ _ _ H) as (m' & g' & _ & ->). split; reflexivity.
  Qed.
End Grid.
Print Assumptions C57_arrays.
Print Assumptions C57_cartesian_mesh_kept.
Print Assumptions C57_cylinder_cut.
Print Assumptions C57_points.
Print Assumptions C57_grid_exists.
Print Assumptions C57_rotation_refuted.
Print Assumptions C57_filtered_unmoved_refuted.

(* sine and cosine of quarter turns *)
Definition quarter (a b c d : Q) (q : Q) : Q := if Qeq_bool q (1 # 4) then b else if Qeq_bool q (1 # 2) then c else if Qeq_bool q (3 # 4) then d else a.
Definition sn0 := quarter 0 1 0 (-1).
Definition cs0 := quarter 1 0 (-1) 0.
(* a full turn in one slice, two times and their total *)
Definition m2 : mdata := mkMD true [0; 10; 20]%Q [0; 5]%Q [0; 1]%Q (mkBin [0; 20]%Q Erg true) (mkBin [0; 1; 2]%Q Tme true) (boxed 3 1 1 1 2 num).
Example C57_witness : Unrelated (fst column_labels) (snd column_labels) /\ exists f, make_fmesh sn0 cs0 m2 (s2l "14") (Some ((1, 2, 3)%Q, tt)) column_labels = Ok f
  /\ md_x3 (f_mesh f) = [0; 1 # 2; 1]%Q
  /\ map fst (g_arrays (f_grid f)) = map s2l ["Value - Total_t001"; "Error - Total_t001"; "Value - Total_t002"; "Error - Total_t002"; "Value - Total_tTot"; "Error - Total_tTot"]%string
  /\ dget str_eqb (s2l "Value - Total_t002") (g_arrays (f_grid f)) = Some [10000; 10001; 10000; 10001]%Q
  /\ exists p, nth_error (g_points (f_grid f)) ((1 * 2 + 1) * 3 + 2) = Some p /\ Veq p (- (19), 2, 8)%Q.
Proof.
  split; [split; intros s H; discriminate H|]. eexists. split; [vm_compute; reflexivity|]. split; [reflexivity|]. split; [reflexivity|]. split; [reflexivity|].
  eexists. split; [reflexivity|]. cbn. repeat split; reflexivity.
Qed.
(** Three decay times: the last one is called the total. *)
Definition m3 : mdata := mkMD false [0; 1]%Q [0; 1]%Q [0; 1]%Q (mkBin [0; 20]%Q Erg true) (mkBin [1; 60; 3600]%Q Dtme true) (boxed 3 1 1 1 1 num).
Example C57_decay_total_refuted : totalbin (md_t m3) = false /\ exists f, make_fmesh sn0 cs0 m3 (s2l "14") (None : trsf (R := unit)) column_labels = Ok f
  /\ dget str_eqb (s2l "Value - Total_tTot") (g_arrays (f_grid f)) = Some [20000%Q] /\ md_a m3 2 0 0 0 0 = Some (20000%Q, (1 # 10)%Q).
Proof. split; [reflexivity|]. eexists. split; [vm_compute; reflexivity|]. split; reflexivity. Qed.

(** ** C58: a mesh as a table *)
Section Table.
  Context {R : Type} (sn cs : Q -> Q).
  (** A mesh without bins that varies along one axis only becomes a table with one row per bin of this axis:
      its upper boundary, value and error. *)
  Theorem C58_one_axis m tally (tr : trsf (R := R)) f z : make_fmesh sn cs m tally tr column_labels = Ok f -> nt m = 1 -> ne m = 1 -> parse_int tally = Ok z ->
    (nx1 m = 1 -> nx2 m = 1 ->
       exists v e, convert2tally f = Ok (z, (s2l "Cor C", tl (md_x3 (f_mesh f)), v, e), s2l "None") /\ Rows (f_mesh f) (fun r => (0, r, 0, 0)) (nx3 (f_mesh f)) v e)
    /\ (nx3 (f_mesh f) = 1 \/ md_cyl m = true /\ nx3 (f_mesh f) = 2 ->
       (nx1 m = 1 -> nx2 m <> 1 -> exists v e, convert2tally f = Ok (z, (s2l "Cor B", tl (md_x2 m), v, e), s2l "None") /\ Rows (f_mesh f) (fun r => (0, 0, r, 0)) (nx2 m) v e)
       /\ (nx2 m = 1 -> nx1 m <> 1 -> exists v e, convert2tally f = Ok (z, (s2l "Cor A", tl (md_x1 m), v, e), s2l "None") /\ Rows (f_mesh f) (fun r => (0, 0, 0, r)) (nx1 m) v e)).
  Proof.
    intros H Nt Ne Hz. split; [intros X1 X2; exact (convert_z sn cs m tally tr f z H Nt Ne Hz X1 X2)|]. intros X3. split.
    - intros X1 X2. exact (convert_y sn cs m tally tr f z H Nt Ne Hz X1 X2 X3).
    - intros X2 X1. exact (convert_x sn cs m tally tr f z H Nt Ne Hz X2 X1 X3).
  Qed.
  (** A single voxel with several energies becomes a table over the energies; the total is left out. *)
  Theorem C58_energies m tally (tr : trsf (R := R)) f z : Shaped m -> make_fmesh sn cs m tally tr column_labels = Ok f -> nt m <> 0 ->
    x_tag (md_e m) = Erg -> 2 < length (x_vals (md_e m)) -> parse_int tally = Ok z -> nx1 m = 1 -> nx2 m = 1 ->
    (nx3 (f_mesh f) = 1 \/ md_cyl m = true /\ nx3 (f_mesh f) = 2) ->
    exists v e, convert2tally f = Ok (z, (s2l "Energy", tl (x_vals (md_e m)), v, e), s2l "None")
      /\ Rows (f_mesh f) (fun r => (r, 0, 0, 0)) (ne m - 1) v e /\ length (x_vals (md_e m)) = ne m.
  Proof. exact (convert_e sn cs m tally tr f z). Qed.
  (** A mesh that varies along two axes of space is refused with RuntimeError, but for a cylinder with two slices
      and one more axis. *)
  Theorem C58_two_axes_refused (f : fmesh (R := R)) : let m := f_mesh f in
    nx1 m <> 1 /\ nx2 m <> 1 \/ nx3 m <> 1 /\ (nx1 m <> 1 \/ nx2 m <> 1) /\ ~ (md_cyl m = true /\ nx3 m = 2) -> convert2tally f = Err OtherError.
  Proof.
    cbv zeta. intros H. unfold convert2tally. assert (C : columns f = Err OtherError); [|rewrite C; reflexivity]. unfold columns.
    destruct (nx1 (f_mesh f) =? 1) eqn:E1; destruct (nx2 (f_mesh f) =? 1) eqn:E2; destruct (nx3 (f_mesh f) =? 1) eqn:E3; destruct (nx3 (f_mesh f) =? 2) eqn:E4; destruct (md_cyl (f_mesh f)) eqn:E5;
      rewrite ?Nat.eqb_eq, ?Nat.eqb_neq in *; cbn [andb]; try (exfalso; lia); try (exfalso; destruct H as [[? ?]|[? [[?|?] X]]]; try contradiction; apply X; split; [reflexivity|assumption]);
      rewrite ?andb_false_r, ?andb_true_r; try reflexivity;
      repeat match goal with |- context [?a =? ?b] => destruct (a =? b) eqn:?; rewrite ?Nat.eqb_eq, ?Nat.eqb_neq in *; try (exfalso; lia) end; reflexivity.
  Qed.
  (** A column of voxels with several energies, or a row with several energies or times, is refused with the
      wrong errors. *)
  Theorem C58_wrong_error_refuted m tally (tr : trsf (R := R)) f : make_fmesh sn cs m tally tr column_labels = Ok f -> md_cyl m = false ->
    (nx1 m = 1 -> nx2 m = 1 -> 2 < length (x_vals (md_e m)) -> nx3 m <> 1 -> convert2tally f = Err UnboundLocalError)
    /\ (1 < ne m \/ 1 < nt m -> nx3 m = 1 -> (nx1 m = 1 /\ nx2 m <> 1 \/ nx2 m = 1 /\ nx1 m <> 1) -> convert2tally f = Err KeyError).
  Proof.
    intros H C. split; [intros X1 X2 Hl X3; exact (convert_unbound sn cs m tally tr f H X1 X2 Hl C X3)|]. intros Hb X3 Hx. exact (convert_binned sn cs m tally tr f H Hb X3 C Hx).
  Qed.
End Table.
Print Assumptions C58_one_axis.
Print Assumptions C58_energies.
Print Assumptions C58_two_axes_refused.
Print Assumptions C58_wrong_error_refuted.

Definition m4 : mdata := mkMD false [0; 1]%Q [0; 2; 4; 6]%Q [0; 3]%Q (mkBin [0; 20]%Q Erg true) implicit_time (boxed 1 1 1 3 1 num).
Definition m5 : mdata := mkMD false [0; 1]%Q [0; 2]%Q [0; 3]%Q (mkBin [0; 1; 10; 20]%Q Erg true) implicit_time (boxed 1 4 1 1 1 num).
Example C58_witness : nt m4 = 1 /\ ne m4 = 1 /\ (exists f, make_fmesh sn0 cs0 m4 (s2l "24") (None : trsf (R := unit)) column_labels = Ok f
    /\ convert2tally f = Ok (24%Z, (s2l "Cor B", [2; 4; 6]%Q, [0; 10; 20]%Q, [1 # 10; 1 # 10; 1 # 10]%Q), s2l "None"))
  /\ Shaped m5 /\ (exists f, make_fmesh sn0 cs0 m5 (s2l "24") (None : trsf (R := unit)) column_labels = Ok f
    /\ convert2tally f = Ok (24%Z, (s2l "Energy", [1; 10; 20]%Q, [0; 1000; 2000]%Q, [1 # 10; 1 # 10; 1 # 10]%Q), s2l "None")).
Proof.
  split; [reflexivity|]. split; [reflexivity|]. split; [eexists; split; vm_compute; reflexivity|]. split; [intros t e k j i; exact (boxed_ok 1 4 1 1 1 num t e k j i)|].
  eexists; split; vm_compute; reflexivity.
Qed.
(** A cylinder with two slices of half a turn: the table over the radius shows the first slice only. *)
Definition m6 : mdata := mkMD true [0; 1; 2]%Q [0; 2]%Q [0; 1 # 2; 1]%Q (mkBin [0; 20]%Q Erg true) implicit_time (boxed 1 1 2 1 2 num).
Example C58_second_slice_refuted : exists f v e, make_fmesh sn0 cs0 m6 (s2l "24") (None : trsf (R := unit)) column_labels = Ok f
  /\ convert2tally f = Ok (24%Z, (s2l "Cor A", [1; 2]%Q, v, e), s2l "None") /\ v = [0; 1]%Q /\ md_a m6 0 0 1 0 0 = Some (100%Q, (1 # 10)%Q).
Proof. do 3 eexists. split; [vm_compute; reflexivity|]. split; [vm_compute; reflexivity|]. split; reflexivity. Qed.

(** ** C59: several meshes in one grid *)
Section Collapse.
  Context {R : Type} (d : list (Z * fmesh (R := R))).
  (** The grid has the points of the first mesh and, under the two names asked for each mesh, its values and errors. *)
  Theorem C59_every_field_is_there i is : Forall (Item d) (i :: is) -> Forall (fun j => same_mesh (f_mesh (it_f i)) (f_mesh (it_f j)) = true) is ->
    NoDup (concat (map (fun j => [it_a j; it_b j]) (i :: is))) -> it_a i <> s2l "Error - Total" ->
    exists g, collapse_grids d (request (i :: is)) = Ok g /\ g_points g = g_points (f_grid (it_f i))
      /\ forall n v, dget str_eqb n (g_arrays g) = Some v <-> exists j, In j (i :: is) /\ (n = it_a j /\ v = it_v j \/ n = it_b j /\ v = it_e j).
  Proof.
    intros HI HS ND Ha. destruct (collapse_ok d i is HI HS ND Ha) as (g & E & P & S). exists g. split; [exact E|]. split; [exact P|].
    intros n v. rewrite (S n). assert (N : NoDup (map fst (content (i :: is)))) by (rewrite content_names; exact ND). split.
    - intros H. apply (dget_some_in str_eqb str_eqb_eq) in H. unfold content in H. apply in_concat in H as (l & Hl & Hin). apply in_map_iff in Hl as (j & <- & Hj).
      exists j. split; [exact Hj|]. destruct Hin as [X|[X|[]]]; injection X as <- <-; auto.
    - intros (j & Hj & Hn). apply dget_in; [exact N|]. unfold content. apply in_concat. exists [(it_a j, it_v j); (it_b j, it_e j)]. split; [apply in_map_iff; exists j; auto|].
      destruct Hn as [[-> ->]|[-> ->]]; [left|right; left]; reflexivity.
  Qed.
  (** Meshes of another shape, or with boundaries further than 1e-12, are refused. *)
  Theorem C59_other_mesh_refused i is : Forall (Item d) (i :: is) -> Exists (fun j => same_mesh (f_mesh (it_f i)) (f_mesh (it_f j)) = false) is ->
    collapse_grids d (request (i :: is)) = Err OtherError.
  Proof. exact (collapse_differs d i is). Qed.
  (** A mesh is the same as itself, and so are two with the same boundaries and bins. *)
  Theorem C59_same_mesh (a b : mdata) : md_cyl a = md_cyl b -> md_x1 a = md_x1 b -> md_x2 a = md_x2 b -> md_x3 a = md_x3 b -> md_e a = md_e b -> md_t a = md_t b -> same_mesh a b = true.
  Proof.
    intros H1 H2 H3 H4 H5 H6. rewrite <- (same_refl a). unfold same_mesh, nt, ne, nx1, nx2, nx3. rewrite <- H1, <- H2, <- H3, <- H4, <- H5, <- H6. reflexivity.
  Qed.
  Theorem C59_same_mesh_means a b : same_mesh a b = true -> md_cyl a = md_cyl b /\ nt a = nt b /\ ne a = ne b /\ nx1 a = nx1 b /\ nx2 a = nx2 b /\ nx3 a = nx3 b
    /\ (forall x y n, nth_error (md_x1 a) n = Some x -> nth_error (md_x1 b) n = Some y -> Qabs (x - y) <= 1 # 1000000000000)%Q
    /\ (forall x y n, nth_error (md_x2 a) n = Some x -> nth_error (md_x2 b) n = Some y -> Qabs (x - y) <= 1 # 1000000000000)%Q
    /\ (forall x y n, nth_error (md_x3 a) n = Some x -> nth_error (md_x3 b) n = Some y -> Qabs (x - y) <= 1 # 1000000000000)%Q.
  Proof.
    unfold same_mesh. rewrite !andb_true_iff, !Nat.eqb_eq. intros [[A [[[[B1 B2] B3] B4] B5]] [[C1 C2] C3]]. apply Bool.eqb_prop in A.
    assert (G : forall l l', close l l' = true -> forall x y n, nth_error l n = Some x -> nth_error l' n = Some y -> (Qabs (x - y) <= 1 # 1000000000000)%Q).
    { unfold close. induction l as [|u l IH]; intros l' H x y n Hx Hy; [destruct n; discriminate Hx|]. destruct l' as [|w l']; [destruct n; discriminate Hy|]. cbn [combine forallb fst snd] in H.
      apply andb_true_iff in H as [H1 H2]. destruct n as [|n]; cbn [nth_error] in Hx, Hy; [injection Hx as <-; injection Hy as <-; apply Qle_bool_iff; exact H1|exact (IH l' H2 x y n Hx Hy)]. }
    split; [exact A|]. split; [exact B1|]. split; [exact B2|]. split; [exact B5|]. split; [exact B4|]. split; [exact B3|]. split; [exact (G _ _ C1)|]. split; [exact (G _ _ C2)|exact (G _ _ C3)].
  Qed.
End Collapse.
Print Assumptions C59_every_field_is_there.
Print Assumptions C59_other_mesh_refused.
Print Assumptions C59_same_mesh.
Print Assumptions C59_same_mesh_means.

Definition fm (n : string) (o : Q) (v e : Q) : fmesh (R := unit) :=
  mkF m4 (s2l n) (Some ((o, 0, 0)%Q, tt)) None (mkGrid (points sn0 cs0 m4 (Some ((o, 0, 0)%Q, tt))) [(s2l "Value - Total", [v; v; v]); (s2l "Error - Total", [e; e; e])]).
Definition it (k : Z) (a b : string) f (v e : Q) : item (R := unit) := mkItem k (s2l a) (s2l b) f [v; v; v] [e; e; e].
Definition d59 := [(4%Z, fm "4" 0 5 (1 # 10)); (14%Z, fm "14" 0 7 (1 # 5)); (24%Z, fm "24" 100 8 (1 # 4))].
Definition i59 := [it 4 "neutron heating [W/cc]" "neutron heating [Rel err]" (fm "4" 0 5 (1 # 10)) 5 (1 # 10); it 14 "Value - Total" "err" (fm "14" 0 7 (1 # 5)) 7 (1 # 5)].
Example C59_witness : Forall (Item d59) i59 /\ same_mesh m4 m4 = true /\ NoDup (concat (map (fun j => [it_a j; it_b j]) i59)) /\ same_mesh m4 m5 = false
  /\ exists g, collapse_grids d59 (request i59) = Ok g /\ dget str_eqb (s2l "err") (g_arrays g) = Some [1 # 5; 1 # 5; 1 # 5]%Q.
Proof.
  split; [repeat constructor|]. split; [reflexivity|]. split; [|split; [reflexivity|eexists; split; vm_compute; reflexivity]].
  cbn [i59 map concat app it it_a it_b]. repeat constructor; cbn; intuition discriminate.
Qed.
(** Meshes moved to different places are collapsed all the same: mesh 24, 100 cm away, on the points of mesh 4. *)
Example C59_moved_mesh_refuted : exists g, collapse_grids d59 [(4%Z, [s2l "a"; s2l "b"]); (24%Z, [s2l "c"; s2l "d"])] = Ok g
  /\ nth_error (g_points g) 0 = nth_error (g_points (f_grid (fm "4" 0 5 (1 # 10)))) 0
  /\ (exists p, nth_error (g_points (f_grid (fm "24" 100 8 (1 # 4)))) 0 = Some p /\ Veq p (100, 0, 0)%Q) /\ (exists p, nth_error (g_points g) 0 = Some p /\ Veq p (0, 0, 0)%Q)
  /\ dget str_eqb (s2l "c") (g_arrays g) = Some [8; 8; 8]%Q.
Proof. eexists. split; [vm_compute; reflexivity|]. split; [reflexivity|]. split; [eexists; split; [reflexivity|repeat split; reflexivity]|]. split; [eexists; split; [reflexivity|repeat split; reflexivity]|reflexivity]. Qed.
(** Asking for "Error - Total" as the name of the first values loses the errors. *)
Example C59_swapped_names_refuted : exists g, collapse_grids d59 [(4%Z, [s2l "Error - Total"; s2l "e"])] = Ok g
  /\ dget str_eqb (s2l "Error - Total") (g_arrays g) = None /\ dget str_eqb (s2l "e") (g_arrays g) = Some [5; 5; 5]%Q.
Proof. eexists. split; [vm_compute; reflexivity|]. split; reflexivity. Qed.

(** ** C60: moving meshes *)
Section Move.
  Context {R : Type} (cos_deg : Q -> Q).
  (** Three values: every point of the grid is moved by them; the values, the mesh and its names stay. *)
  Theorem C60_translation (f : fmesh (R := R)) star x y z : exists f', apply_transformation cos_deg f (mkTR true star [x; y; z]) = Ok f'
    /\ g_points (f_grid f') = map (fun p => addv p (x, y, z)) (g_points (f_grid f)) /\ g_arrays (f_grid f') = g_arrays (f_grid f)
    /\ f_mesh f' = f_mesh f /\ f_tally f' = f_tally f /\ f_trsf f' = f_trsf f /\ f_comments f' = f_comments f.
  Proof. eexists. split; [reflexivity|]. repeat split; reflexivity. Qed.

  (** Twelve values with an orthonormal matrix: a rigid motion of the points; the values stay. *)
  Theorem C60_rigid_motion (f : fmesh (R := R)) (star : bool) x y z bs B : rows_of (fun q => if star then cos_deg q else q) bs = Some B -> Orthonormal B ->
    exists f', apply_transformation cos_deg f (mkTR true star (x :: y :: z :: bs)) = Ok f' /\ g_arrays (f_grid f') = g_arrays (f_grid f) /\ f_mesh f' = f_mesh f
      /\ length (g_points (f_grid f')) = length (g_points (f_grid f))
      /\ forall i j p q p' q', nth_error (g_points (f_grid f)) i = Some p -> nth_error (g_points (f_grid f)) j = Some q ->
           nth_error (g_points (f_grid f')) i = Some p' -> nth_error (g_points (f_grid f')) j = Some q' -> (dist2 p' q' == dist2 p q)%Q.
  Proof.
    intros HB HO. destruct (affine_turn cos_deg star x y z bs B HB HO) as (t & Et & Ht). unfold apply_transformation. rewrite Et. cbn [bind]. eexists. split; [reflexivity|].
    cbn [f_grid f_mesh g_arrays g_points]. split; [reflexivity|]. split; [reflexivity|]. split; [apply map_length|]. intros i j p q p' q' Hp Hq Hp' Hq'.
    rewrite nth_error_map, Hp in Hp'. rewrite nth_error_map, Hq in Hq'. cbn [option_map] in *. injection Hp' as <-. injection Hq' as <-.
    rewrite (veq_dist _ _ _ _ (Ht p) (Ht q)). apply rigid. exact HO.
  Qed.

  (** The motion is that of the MCNP manual with the transposed matrix ... *)
  Theorem C60_rotation (f : fmesh (R := R)) (star : bool) x y z bs B : rows_of (fun q => if star then cos_deg q else q) bs = Some B -> Orthonormal B ->
    exists f', apply_transformation cos_deg f (mkTR true star (x :: y :: z :: bs)) = Ok f'
      /\ forall i p, nth_error (g_points (f_grid f)) i = Some p -> exists p', nth_error (g_points (f_grid f')) i = Some p' /\ Veq p' (mcnp_map (x, y, z) (transpose B) p)
           /\ ((let '((a, b, c), (d, e, f), (g, h, i)) := B in b == d /\ c == g /\ f == h)%Q -> Veq p' (mcnp_map (x, y, z) B p)).
  Proof.
    intros HB HO. destruct (affine_turn cos_deg star x y z bs B HB HO) as (t & Et & Ht). unfold apply_transformation. rewrite Et. cbn [bind]. eexists. split; [reflexivity|].
    cbn [f_grid g_points]. intros i p Hp. exists (t p). split; [rewrite nth_error_map, Hp; reflexivity|]. pose proof (Ht p) as V.
    assert (T : forall u v w, Veq u v -> Veq v w -> Veq u w) by (intros [[? ?] ?] [[? ?] ?] [[? ?] ?]; cbn; intros (? & ? & ?) (? & ? & ?); repeat split; etransitivity; eauto).
    split; [exact (T _ _ _ V (mcnp_transpose _ _ _))|]. intros HSym. exact (T _ _ _ V (mcnp_symmetric _ _ _ HSym)).
  Qed.

  (** Other cards are refused with an error and the mesh stays; so is a singular matrix, with the wrong error. *)
  Theorem C60_refused (f : fmesh (R := R)) star is vs : is = false \/ (length vs <> 3 /\ length vs <> 12) -> apply_transformation cos_deg f (mkTR is star vs) = Err ValueError.
  Proof. intros H. unfold apply_transformation. rewrite affine_count by exact H. reflexivity. Qed.
  Theorem C60_singular_refuted (f : fmesh (R := R)) (star : bool) x y z bs B : rows_of (fun q => if star then cos_deg q else q) bs = Some B -> (det B == 0)%Q ->
    apply_transformation cos_deg f (mkTR true star (x :: y :: z :: bs)) = Err UnboundLocalError.
  Proof. intros H1 H2. unfold apply_transformation. rewrite (affine_singular cos_deg star x y z bs B H1 H2). reflexivity. Qed.

  (** Several meshes: each one named is moved by its own card, the others stay. *)
  Theorem C60_each_by_its_card (d : list (Z * fmesh (R := R))) l : NoDup (map fst l) ->
    (forall k c, In (k, c) l -> exists f f', dget Z.eqb k d = Some f /\ apply_transformation cos_deg f c = Ok f') ->
    exists d', transform_many cos_deg d l = (d', None) /\ map fst d' = map fst d
      /\ (forall k c f f', In (k, c) l -> dget Z.eqb k d = Some f -> apply_transformation cos_deg f c = Ok f' -> dget Z.eqb k d' = Some f')
      /\ (forall k, ~ In k (map fst l) -> dget Z.eqb k d' = dget Z.eqb k d).
  Proof. exact (many_ok cos_deg l d). Qed.
  (** After an error the meshes before it have been moved. *)
  Theorem C60_half_done_refuted (d d' : list (Z * fmesh (R := R))) l e : transform_many cos_deg d l = (d', Some e) ->
    exists pre k c post, l = pre ++ (k, c) :: post /\ transform_many cos_deg d pre = (d', None)
      /\ (dget Z.eqb k d' = None /\ e = KeyError \/ exists f, dget Z.eqb k d' = Some f /\ apply_transformation cos_deg f c = Err e).
  Proof. exact (many_err cos_deg l d d' e). Qed.

  (** From the input: a mesh whose FMESH card says tr=N is moved by TRN, all others stay. *)
  Theorem C60_from_the_input (d : list (Z * fmesh (R := R))) (trs : list (str * trcard)) (cards : list (str * (Z * list str))) :
    NoDup (map (fun c => fst (snd c)) cards) ->
    (forall key n ls, In (key, (n, ls)) cards -> mentions "FMESH" key -> (exists f, dget Z.eqb n d = Some f) -> Forall Untagged ls \/
       exists gap ds c f f', CardTag ls gap ds /\ dget str_eqb (s2l "TR" ++ gap ++ ds) trs = Some c /\ dget Z.eqb n d = Some f /\ apply_transformation cos_deg f c = Ok f') ->
    exists d', transform_fmesh cos_deg d cards trs = (d', None) /\ map fst d' = map fst d
      /\ (forall key n ls gap ds c f f', In (key, (n, ls)) cards -> mentions "FMESH" key -> CardTag ls gap ds ->
            dget str_eqb (s2l "TR" ++ gap ++ ds) trs = Some c -> dget Z.eqb n d = Some f -> apply_transformation cos_deg f c = Ok f' -> dget Z.eqb n d' = Some f')
      /\ (forall n, (forall key ls, In (key, (n, ls)) cards -> mentions "FMESH" key -> Forall Untagged ls) -> dget Z.eqb n d' = dget Z.eqb n d).
  Proof.
    intros ND H.
    assert (CI : forall key n ls, counts d (key, (n, ls)) = true <-> mentions "FMESH" key /\ exists f, dget Z.eqb n d = Some f).
    { intros key n ls. unfold counts. cbn [fst snd]. rewrite andb_true_iff, has_iff. destruct (dget Z.eqb n d) as [f|]; split; intros [A B]; split; auto; [eauto|discriminate B|destruct B; discriminate]. }
    (* what is collected *)
    assert (W : exists sel, Forall2 (fun w s => fst w = fst s /\ dget str_eqb (snd w) trs = Some (snd s)) (concat (map (wants d) cards)) sel).
    { assert (G : forall ws : list (Z * str), (forall w, In w ws -> exists c, dget str_eqb (snd w) trs = Some c) -> exists sel, Forall2 (fun w s => fst w = fst s /\ dget str_eqb (snd w) trs = Some (snd s)) ws sel).
      { induction ws as [|w ws IH]; intros Hw; [exists []; constructor|]. destruct (Hw w (or_introl eq_refl)) as [c Hc]. destruct IH as [sel F]; [intros; apply Hw; right; assumption|]. exists ((fst w, c) :: sel). constructor; auto. }
      apply G. intros [n x] Hin. apply in_concat in Hin as (l & Hl & Hin). apply in_map_iff in Hl as ([key [n' ls]] & <- & Hc). apply wants_in in Hin as (gap & ds & Hc' & -> & T & ->). cbn [fst snd] in *.
      apply CI in Hc' as [Hm Hf]. destruct (H key n' ls Hc Hm Hf) as [U|(g' & ds' & c & f & f' & T' & Hc' & _)].
      - exfalso. apply card_tag in T. rewrite (card_untagged _ U) in T. discriminate T.
      - exists c. apply card_tag in T, T'. rewrite T in T'. injection T' as E. rewrite E. exact Hc'. }
    destruct W as [sel F].
    assert (ES : map fst sel = map fst (concat (map (wants d) cards))) by (clear -F; induction F as [|w s ws sel [E _] F IH]; [reflexivity|cbn [map]; congruence]).
    assert (NW : NoDup (map fst (concat (map (wants d) cards)))).
    { clear -ND. induction cards as [|c cards IH]; [constructor|]. cbn [map] in ND. inversion ND as [|? ? Hn ND']; subst. cbn [map concat]. rewrite map_app. unfold wants at 1.
      assert (Sub : forall n, In n (map fst (concat (map (wants d) cards))) -> In n (map (fun c => fst (snd c)) cards)).
      { intros n X. apply in_map_iff in X as ([n' x] & <- & X). apply in_concat in X as (l & Hl & X). apply in_map_iff in Hl as (c' & <- & Hc'). apply wants_in in X as (? & ? & _ & -> & _). apply (in_map (fun c => fst (snd c))). exact Hc'. }
      destruct (counts d c); [|apply IH; exact ND']. destruct (first_match (snd (snd c))); [|apply IH; exact ND']. cbn [map app fst]. constructor; [intros X; exact (Hn (Sub _ X))|apply IH; exact ND']. }
    unfold transform_fmesh. rewrite (collect_ok d trs cards [] sel); [|exact NW|exact F]. cbn [app].
    assert (SI : forall k c, In (k, c) sel -> exists x, In (k, x) (concat (map (wants d) cards)) /\ dget str_eqb x trs = Some c).
    { clear -F. induction F as [|w s ws sel [E1 E2] F IH]; intros k c Hin; [destruct Hin|]. destruct Hin as [E|Hin].
      - subst s. cbn [fst snd] in *. exists (snd w). split; [left; rewrite <- E1; destruct w; reflexivity|exact E2].
      - destruct (IH k c Hin) as (x & A & B). exists x. split; [right; exact A|exact B]. }
    assert (SO : forall k x, In (k, x) (concat (map (wants d) cards)) -> exists c, In (k, c) sel /\ dget str_eqb x trs = Some c).
    { clear -F. induction F as [|w s ws sel [E1 E2] F IH]; intros k x Hin; [destruct Hin|]. destruct Hin as [E|Hin].
      - subst w. cbn [fst snd] in *. exists (snd s). split; [left; rewrite E1; destruct s; reflexivity|exact E2].
      - destruct (IH k x Hin) as (c & A & B). exists c. split; [right; exact A|exact B]. }
    destruct (many_ok cos_deg sel d) as (d' & E & K & A & B).
    - rewrite ES. exact NW.
    - intros k c Hin. destruct (SI k c Hin) as (x & Hx & Ht). apply in_concat in Hx as (l & Hl & Hx). apply in_map_iff in Hl as ([key [n' ls]] & <- & Hc). apply wants_in in Hx as (gap & ds & Hc' & -> & T & ->). cbn [fst snd] in *.
      apply CI in Hc' as [Hm Hf]. destruct (H key n' ls Hc Hm Hf) as [U|(g' & ds' & c' & f & f' & T' & Hc' & Hd & Ha)].
      + exfalso. apply card_tag in T. rewrite (card_untagged _ U) in T. discriminate T.
      + apply card_tag in T, T'. rewrite T in T'. injection T' as X. rewrite X in Ht. rewrite Ht in Hc'. injection Hc' as <-. eauto.
    - exists d'. split; [exact E|]. split; [exact K|]. split.
      + intros key n ls gap ds c f f' Hin Hm T Hc Hd Ha. assert (X : In (n, s2l "TR" ++ gap ++ ds) (concat (map (wants d) cards))).
        { apply in_concat. exists (wants d (key, (n, ls))). split; [apply in_map; exact Hin|]. apply wants_in. exists gap, ds. split; [apply CI; eauto|]. auto. }
        destruct (SO _ _ X) as (c' & Hs & Hc'). rewrite Hc in Hc'. injection Hc' as <-. exact (A n c f f' Hs Hd Ha).
      + intros n Hn. apply B. rewrite ES. intros X. apply in_map_iff in X as ([n' x] & <- & X). apply in_concat in X as (l & Hl & X). apply in_map_iff in Hl as ([key [n'' ls]] & <- & Hc).
        apply wants_in in X as (gap & ds & Hc' & -> & T & _). cbn [fst snd] in *. apply CI in Hc' as [Hm _]. pose proof (Hn key ls Hc Hm) as U. apply card_tag in T. rewrite (card_untagged _ U) in T. discriminate T.
  Qed.
  (** A card that names a transformation the input does not have: KeyError, and no mesh has moved. *)
  Theorem C60_missing_transformation (d : list (Z * fmesh (R := R))) trs cards key n ls gap ds : In (key, (n, ls)) cards -> mentions "FMESH" key -> (exists f, dget Z.eqb n d = Some f) -> CardTag ls gap ds ->
    dget str_eqb (s2l "TR" ++ gap ++ ds) trs = None -> transform_fmesh cos_deg d cards trs = (d, Some KeyError).
  Proof.
    intros Hin Hm [f Hf] T Hn. unfold transform_fmesh. rewrite collect_missing; [reflexivity|]. apply Exists_exists. exists (n, s2l "TR" ++ gap ++ ds). split; [|exact Hn].
    apply in_concat. exists (wants d (key, (n, ls))). split; [apply in_map; exact Hin|]. apply wants_in. exists gap, ds. split; [|auto].
    unfold counts. cbn [fst snd]. rewrite (proj2 (has_iff _ _) Hm), Hf. reflexivity.
  Qed.
End Move.
Print Assumptions C60_translation.
Print Assumptions C60_rigid_motion.
Print Assumptions C60_rotation.
Print Assumptions C60_refused.
Print Assumptions C60_singular_refuted.
Print Assumptions C60_each_by_its_card.
Print Assumptions C60_half_done_refuted.
Print Assumptions C60_from_the_input.
Print Assumptions C60_missing_transformation.

(* a quarter turn: the new x axis is the old y axis *)
Definition turn : list Q := [0; 1; 0; -1; 0; 0; 0; 0; 1]%Q.
Definition idc (q : Q) : Q := q.
Definition f60 := fm "4" 10 5 (1 # 10).
Example C60_witness : exists B, rows_of (fun q => q) turn = Some B /\ Orthonormal B /\ (exists p, nth_error (g_points (f_grid f60)) 0 = Some p /\ Veq p (10, 0, 0)%Q).
Proof. eexists. split; [reflexivity|]. split; [cbn; repeat split; reflexivity|]. eexists. split; [reflexivity|]. repeat split; reflexivity. Qed.
(** The point (10, 0, 0) of the rotated system is at (0, 10, 0) for MCNP, and at (0, -10, 0) here. *)
Example C60_rotation_refuted : exists f' p', apply_transformation idc f60 (mkTR true false (0 :: 0 :: 0 :: turn)%Q) = Ok f' /\ nth_error (g_points (f_grid f')) 0 = Some p'
  /\ Veq p' (0, - (10), 0)%Q /\ Veq (mcnp_map (0, 0, 0)%Q (0, 1, 0, (-1, 0, 0), (0, 0, 1))%Q (10, 0, 0)%Q) (0, 10, 0)%Q.
Proof. do 2 eexists. split; [vm_compute; reflexivity|]. split; [reflexivity|]. split; repeat split; reflexivity. Qed.
Definition trs60 := [(s2l "TR5", mkTR true false [1; 2; 3]%Q)].
Example C60_input_witness : exists d', transform_fmesh idc [(4%Z, f60); (14%Z, f60)] [(s2l "FMESH4", (4%Z, [s2l "FMESH4:n geom=xyz"; s2l "     tr=5 imesh 3"])); (s2l "FMESH14", (14%Z, [s2l "FMESH14:n"]))] trs60 = (d', None)
  /\ dget Z.eqb 14%Z d' = Some f60 /\ exists f' p, dget Z.eqb 4%Z d' = Some f' /\ nth_error (g_points (f_grid f')) 0 = Some p /\ Veq p (11, 2, 3)%Q.
Proof. eexists. split; [vm_compute; reflexivity|]. split; [reflexivity|]. do 2 eexists. split; [reflexivity|]. split; [reflexivity|]. repeat split; reflexivity. Qed.
Example C60_tag_witness : CardTag [s2l "FMESH4:n"; s2l "     tr=5 imesh 3"] [] (s2l "5").
Proof.
  exists [s2l "FMESH4:n"], (s2l "     tr=5 imesh 3"), []. split; [reflexivity|]. split.
  - constructor; [|constructor]. apply search_none. reflexivity.
  - destruct (search_some (s2l "     tr=5 imesh 3") (s2l "5") eq_refl) as (g & ds & E & T). destruct g as [|c g]; [cbn [app] in E; subst ds; exact T|].
    exfalso. destruct T as (pre & (w & p & _ & _ & Bg & _) & _). inversion Bg as [|? ? X _]; subst. injection E as <- _. discriminate X.
Qed.
(** "tr = 5" with a blank before the number is looked up as "TR 5": KeyError.  "TR=5" is not seen. *)
Example C60_blank_refuted : transform_fmesh idc [(4%Z, f60)] [(s2l "FMESH4", (4%Z, [s2l "FMESH4:n tr = 5"]))] trs60 = ([(4%Z, f60)], Some KeyError)
  /\ transform_fmesh idc [(4%Z, f60)] [(s2l "FMESH4", (4%Z, [s2l "FMESH4:N TR=5"]))] trs60 = ([(4%Z, f60)], None).
Proof. split; vm_compute; reflexivity. Qed.

(** ** C61: text exports *)
(** Every number is printed within half a thousandth. *)
Theorem C61_numbers q : Field (fmt_f3 q) q.
Proof. exact (f3_field q). Qed.
Print Assumptions C61_numbers.
(** Numbers below half a thousandth are printed as zero. *)
Theorem C61_small_values_refuted q : (0 <= q)%Q -> (q < 1 # 2000)%Q -> fmt_f3 q = s2l "0.000".
Proof. exact (f3_small q). Qed.
Print Assumptions C61_small_values_refuted.
(** csv: one line per point, in order, with its coordinates and its value of every array, in the order asked. *)
Theorem C61_csv g pts names : covers g names (length pts) ->
  exists rows, write_csv g pts names = Ok (concat (map (fun r => r ++ crlf) rows)) /\ length rows = length pts
    /\ forall i x y z, nth_error pts i = Some (x, y, z) -> exists r qs ws, nth_error rows i = Some r /\ Forall2 (value_of g i) names qs
         /\ Forall2 Field ws (x :: y :: z :: qs) /\ r = joined_by (s2l ", ") ws.
Proof.
  intros C. destruct (csv_ok g pts names C) as (rows & E & L & H). exists rows. split; [exact E|]. split; [exact L|]. intros i x y z Hp.
  destruct (H i _ Hp) as (r & Hr & qs & ws & F & G & ->). exists (joined_by (s2l ", ") ws), qs, ws. auto.
Qed.
Print Assumptions C61_csv.
(** An array that does not exist is refused before anything is returned. *)
Theorem C61_unknown_array g pts names n : pts <> [] -> In n names -> dget str_eqb n (g_arrays g) = None ->
  (forall a, In a names -> forall l, dget str_eqb a (g_arrays g) = Some l -> l <> []) -> write_csv g pts names = Err KeyError.
Proof. exact (csv_missing g pts names n). Qed.
Print Assumptions C61_unknown_array.
(** Point clouds: a header and one line per point, in order, with its coordinates and value. *)
Theorem C61_point_cloud g pts n : covers g [n] (length pts) ->
  exists rows, cloud_file g pts n = Ok (concat (map (fun r => r ++ [nl]) (s2l "x, y, z, value" :: rows))) /\ length rows = length pts
    /\ forall i x y z, nth_error pts i = Some (x, y, z) -> exists r q ws, nth_error rows i = Some r /\ value_of g i n q
         /\ Forall2 Field ws [x; y; z; q] /\ r = joined_by (s2l ",") ws.
Proof.
  intros C. destruct (cloud_ok g pts n C) as (rows & E & L & H). exists rows. split; [exact E|]. split; [exact L|]. intros i x y z Hp.
  destruct (H i _ Hp) as (r & Hr & q & ws & V & G & ->). exists (joined_by (s2l ",") ws), q, ws. auto.
Qed.
Print Assumptions C61_point_cloud.
(** Fluent files: the number of points, then all x, all y, all z and all values, each in parentheses. *)
Theorem C61_fluent g pts n l : dget str_eqb n (g_arrays g) = Some l -> length l = length pts ->
  exists xs ys zs vs, Forall2 Field xs (map (fun p => fst (fst p)) pts) /\ Forall2 Field ys (map (fun p => snd (fst p)) pts) /\ Forall2 Field zs (map snd pts) /\ Forall2 Field vs l
    /\ fluent_file g pts n = Ok (concat (map (fun w => w ++ [nl]) [s2l "3"; s2l "3"; str_of_N (N.of_nat (length pts)); s2l "1"; s2l "uds-0"])
         ++ concat (map (fun ws => s2l "(" ++ concat (map (fun w => w ++ [nl]) ws) ++ s2l ")" ++ [nl]) [xs; ys; zs; vs])).
Proof. exact (fluent_ok g pts n l). Qed.
Print Assumptions C61_fluent.
(** One file per array, when the names differ without brackets and slashes; other files stay. *)
Theorem C61_one_file_per_array file path names fs out : (forall n, In n names -> file n = Ok (out n)) -> NoDup (map clean_path names) ->
  exists fs', write_files file path names fs = Ok fs' /\ (forall n, In n names -> dget str_eqb (file_name path n) fs' = Some (out n))
    /\ (forall k, (forall n, In n names -> k <> file_name path n) -> dget str_eqb k fs' = dget str_eqb k fs).
Proof. exact (files_fold file path names fs out). Qed.
Print Assumptions C61_one_file_per_array.
Theorem C61_file_name_characters s c : In c (clean_path s) <-> In c s /\ ~ In c (s2l "[]\/").
Proof. exact (clean_chars s c). Qed.
Print Assumptions C61_file_name_characters.

Definition g61 := mkGrid [] [(s2l "heat [W/cc]", [3 # 2; 7 # 3]%Q); (s2l "heat Wcc", [1; 2]%Q)].
Definition p61 : list (Q * Q * Q) := [(0, 0, - (1 # 2)); (1, 2, 3)]%Q.
Example C61_witness : covers g61 (map fst (g_arrays g61)) (length p61) /\ write_csv g61 p61 (map fst (g_arrays g61)) = Ok (s2l "0.000, 0.000, -0.500, 1.500, 1.000" ++ crlf ++ s2l "1.000, 2.000, 3.000, 2.333, 2.000" ++ crlf)
  /\ NoDup (map clean_path [s2l "heat [W/cc]"; s2l "error"]).
Proof.
  split; [|split; [vm_compute; reflexivity|vm_compute; repeat constructor; cbn; intuition discriminate]].
  intros a [<-|[<-|[]]]; eexists; (split; [reflexivity|cbn; lia]).
Qed.
(** Two arrays whose names differ by brackets only: one file, with the values of the second. *)
Example C61_lost_file_refuted : exists fs t, write_files (cloud_file g61 p61) (s2l "out") (map fst (g_arrays g61)) [] = Ok fs /\ fs = [(s2l "out_heat Wcc.txt", t)]
  /\ cloud_file g61 p61 (s2l "heat Wcc") = Ok t.
Proof. do 2 eexists. split; [vm_compute; reflexivity|]. split; [reflexivity|vm_compute; reflexivity]. Qed.
