(** C106 and C107: the placement of cylindrical meshes and CDGS files *)
From Coq Require Import Lia ZArith Permutation Sorted Qabs Lqa.
From Verif Require Import PyBase PyStr PyText D1SModel D1SSpec D1SProofs2 TalSumProofs DataModel MeshModel MeshSpec MeshCuvModel MeshCuvSpec MeshCuvProps TrsfModel TrsfSpec TrsfProofs TrsfProofs2.
Open Scope nat_scope.

(** ** C106 *)
(** A line that gives origin, axis and the vector the angles start from places the mesh so: the rotation takes the first, second and
    third coordinate along the vector, along axis x vector and along the axis.  (The axis is printed with three digits, so it is a
    unit vector only approximately.) *)
Theorem C106_placement o a v l : PlaceLine o a (Some v) l -> (dotp a a <= 3 # 2)%Q ->
  exists p w, get_transformation true l = Ok (Some p)
    /\ pl_origin p = o /\ pl_axis p = a /\ pl_vec p = Some v /\ pl_rot p = (v, w, a) /\ same w (crossp a v).
Proof.
  intros H Ha. rewrite (place6 _ _ _ _ H), (not_both a Ha). eexists _, _. split; [reflexivity|]. cbn [pl_origin pl_axis pl_vec pl_rot].
  split; [reflexivity|]. split; [reflexivity|]. split; [reflexivity|]. split; [reflexivity|].
  destruct a as [[a1 a2] a3], v as [[x y] z]. unfold cross, crossp, same, v1, v2, v3. cbn [fst snd]. repeat split; ring.
Qed.
Print Assumptions C106_placement.

(** When axis and vector are orthonormal the three directions are a right-handed orthonormal frame. *)
Theorem C106_is_a_rotation o a v l : PlaceLine o a (Some v) l ->
  (dotp a a == 1)%Q -> (dotp v v == 1)%Q -> (dotp a v == 0)%Q ->
  exists p r1 r2 r3, get_transformation true l = Ok (Some p) /\ pl_rot p = (r1, r2, r3)
    /\ (dotp r1 r1 == 1 /\ dotp r2 r2 == 1 /\ dotp r3 r3 == 1 /\ dotp r1 r2 == 0 /\ dotp r1 r3 == 0 /\ dotp r2 r3 == 0)%Q
    /\ same (crossp r1 r2) r3.
Proof.
  intros H Ha Hv Hav. rewrite (place6 _ _ _ _ H), (not_both a) by (rewrite Ha; discriminate). eexists _, _, _, _. split; [reflexivity|]. split; [reflexivity|].
  destruct a as [[a1 a2] a3], v as [[x y] z]. unfold cross, crossp, same, dotp, v1, v2, v3 in *. cbn [fst snd] in *.
  assert (Hl : forall q r, ((a1 * a1 + a2 * a2 + a3 * a3) * q - (a1 * x + a2 * y + a3 * z) * r == q)%Q) by (intros q r; rewrite Ha, Hav; ring).
  assert (Hm : forall q r, ((x * x + y * y + z * z) * q - (a1 * x + a2 * y + a3 * z) * r == q)%Q) by (intros q r; rewrite Hv, Hav; ring).
  repeat split; try assumption; try (rewrite <- Hav; ring); try ring.
  - transitivity ((a1 * a1 + a2 * a2 + a3 * a3) * (x * x + y * y + z * z) - (a1 * x + a2 * y + a3 * z) * (a1 * x + a2 * y + a3 * z))%Q; [ring|rewrite Hl; exact Hv].
  - transitivity ((x * x + y * y + z * z) * a1 - (a1 * x + a2 * y + a3 * z) * x)%Q; [ring|apply Hm].
  - transitivity ((x * x + y * y + z * z) * a2 - (a1 * x + a2 * y + a3 * z) * y)%Q; [ring|apply Hm].
  - transitivity ((x * x + y * y + z * z) * a3 - (a1 * x + a2 * y + a3 * z) * z)%Q; [ring|apply Hm].
Qed.
Print Assumptions C106_is_a_rotation.

(** A line without the vector (MCNP5) is understood when the axis is z: no placement at all at the origin, else a displacement. *)
Theorem C106_mcnp5 o a l : PlaceLine o a None l -> zaxis a ->
  (atzero o -> get_transformation true l = Ok None)
  /\ (~ atzero o -> exists p, get_transformation true l = Ok (Some p) /\ pl_origin p = o /\ pl_axis p = a /\ pl_vec p = None
                     /\ pl_rot p = ((1, 0, 0), (0, 1, 0), (0, 0, 1))%Q).
Proof.
  intros H Ha. rewrite (place5 _ _ _ H), (proj2 (near_z a) Ha). split; intros Ho.
  - rewrite (proj2 (near0_iff o) Ho). reflexivity.
  - destruct (near0 o) eqn:E; [apply near0_iff in E; contradiction|]. eexists. split; [reflexivity|]. repeat split.
Qed.
Print Assumptions C106_mcnp5.

(** With any other axis such a file cannot be read (a numpy array has no method "cross"). *)
Theorem C106_mcnp5_other_axis_refuted o a l : PlaceLine o a None l -> ~ zaxis a -> get_transformation true l = Err AttributeError.
Proof. intros H Ha. rewrite (place5 _ _ _ H). destruct (near1 (v3 a)) eqn:E; [apply near_z in E; contradiction|reflexivity]. Qed.
Print Assumptions C106_mcnp5_other_axis_refuted.

(** The vector takes no part in recognising the unrotated mesh: with an axis that is not a unit vector (first and third coordinate 1)
    the mesh is taken as unrotated whatever the vector is. *)
Theorem C106_vector_not_tested_refuted o a v l : PlaceLine o a (Some v) l -> zaxis a -> isone (dotp a (1, 0, 0)%Q) -> ~ atzero o ->
  exists p, get_transformation true l = Ok (Some p) /\ pl_rot p = ((1, 0, 0), (0, 1, 0), (0, 0, 1))%Q.
Proof.
  intros H Hz Hx Ho. rewrite (place6 _ _ _ _ H), (proj2 (near_z a) Hz), (proj2 (near_x a) Hx). cbn [andb].
  destruct (near0 o) eqn:E; [apply near0_iff in E; contradiction|]. eexists. split; reflexivity.
Qed.
Print Assumptions C106_vector_not_tested_refuted.

(** The line of a CDGS source is read when it places the source nowhere else than at the origin, unrotated ... *)
Theorem C106_cdgs_standard o x y l : RecLine o x y l -> Standard o x y -> get_transformation false l = Ok None.
Proof. intros H Hs. rewrite (place_rec_ok _ _ _ _ H), (proj1 (standard_iff _ _ _) Hs). reflexivity. Qed.
Print Assumptions C106_cdgs_standard.
(** ... and every other placement is refused, and so is every cylindrical source. *)
Theorem C106_cdgs_placed_refuted o x y l : RecLine o x y l -> ~ Standard o x y -> get_transformation false l = Err UnboundLocalError.
Proof. intros H Hs. rewrite (place_rec_ok _ _ _ _ H). destruct (near1 (v1 x) && near1 (v2 y) && near0 o) eqn:E; [apply standard_iff in E; contradiction|reflexivity]. Qed.
Print Assumptions C106_cdgs_placed_refuted.
Theorem C106_cdgs_cylinder_refuted o x y l : RecLine o x y l -> get_transformation true l = Err ValueError.
Proof.
  intros (t1 & t2 & t3 & u2 & u3 & -> & _ & _ & _ & _ & C1 & C2 & C3). apply no_at. intros (p & q & E).
  assert (Hin : In "a"%char (t1 ++ t2 ++ t3)) by (rewrite E; apply in_or_app; right; left; reflexivity).
  revert Hin. repeat apply safe_app; eapply coords_safe; eassumption.
Qed.
Print Assumptions C106_cdgs_cylinder_refuted.

Definition line_of (s : string) : str := s2l s ++ [nl].
Definition ex_line6 : str := line_of "   origin at  -5.00E+01 -5.00E+01 -5.00E+01 axis in   1.00E+00  0.00E+00  0.00E+00 direction, VEC direction   0.00E+00  0.00E+00  1.00E+00".
Definition ex_line5 (axis : string) : str := line_of ("   origin at  0.00E+00 0.00E+00 -1.00E+03, axis in " ++ axis ++ " direction")%string.
Definition ex_rec (org : string) : str := line_of ("    " ++ org ++ "   0.00000E+00   0.00000E+00    1.00000E+00   0.00000E+00   0.00000E+00    0.00000E+00   1.00000E+00   0.00000E+00")%string.
Definition nq (s : string) : Q := match parse_float (s2l s) with Ok q => q | Err _ => 0%Q end.
Ltac blanks_tac := intros c Hc; cbn in Hc; repeat (destruct Hc as [<-|Hc]; [reflexivity|]); destruct Hc.
Definition nq3 (a b c : string) : V3 := (nq a, nq b, nq c).
Ltac coords_tac := match goal with |- Coords ?t _ => let r := eval vm_compute in (split t) in let H := fresh in
  assert (H : split t = r) by (vm_compute; reflexivity); cbv beta iota delta [Coords nq3]; rewrite H; repeat (apply Forall2_cons; [vm_compute; reflexivity|]); apply Forall2_nil end.
Example C106_witness6 : PlaceLine (nq "-5.00E+01", nq "-5.00E+01", nq "-5.00E+01") (nq "1.00E+00", nq "0.00E+00", nq "0.00E+00") (Some (nq "0.00E+00", nq "0.00E+00", nq "1.00E+00")) ex_line6
  /\ (dotp (nq "1.00E+00", nq "0.00E+00", nq "0.00E+00") (nq "1.00E+00", nq "0.00E+00", nq "0.00E+00") == 1)%Q.
Proof.
  split; [|vm_compute; reflexivity].
  exists (s2l "   "), (s2l "  -5.00E+01 -5.00E+01 -5.00E+01 "), (s2l "   1.00E+00  0.00E+00  0.00E+00 "). split; [blanks_tac|]. split; [coords_tac|]. split; [coords_tac|].
  exists (s2l "   0.00E+00  0.00E+00  1.00E+00" ++ [nl]). split; [coords_tac|reflexivity].
Qed.
Example C106_witness5 : PlaceLine (nq "0.00E+00", nq "0.00E+00", nq "-1.00E+03") (nq "0.00E+00", nq "0.00E+00", nq "1.00E+00") None (ex_line5 "0.00E+00 0.00E+00 1.00E+00")
  /\ zaxis (nq "0.00E+00", nq "0.00E+00", nq "1.00E+00") /\ ~ atzero (nq "0.00E+00", nq "0.00E+00", nq "-1.00E+03")
  /\ get_transformation true (ex_line5 "1.0 0 0") = Err AttributeError.
Proof.
  split; [|split; [vm_compute; reflexivity|split; [intros H; vm_compute in H; discriminate|vm_compute; reflexivity]]].
  exists (s2l "   "), (s2l "  0.00E+00 0.00E+00 -1.00E+03"), (s2l " 0.00E+00 0.00E+00 1.00E+00 "). split; [blanks_tac|]. split; [coords_tac|]. split; [coords_tac|].
  exists [nl]. split; [blanks_tac|reflexivity].
Qed.
Example C106_witness_vector : exists l, PlaceLine (nq "1.0", nq "2.0", nq "3.0") (nq "1.0", nq "0", nq "1.0") (Some (nq "0", nq "1.0", nq "0")) l
  /\ zaxis (nq "1.0", nq "0", nq "1.0") /\ isone (dotp (nq "1.0", nq "0", nq "1.0") (1, 0, 0)%Q) /\ ~ atzero (nq "1.0", nq "2.0", nq "3.0").
Proof.
  exists (line_of "origin at 1.0 2.0 3.0 axis in 1.0 0 1.0 direction, VEC direction 0 1.0 0"). split; [|split; [vm_compute; reflexivity|split; [vm_compute; reflexivity|intros H; vm_compute in H; discriminate]]].
  exists [], (s2l " 1.0 2.0 3.0 "), (s2l " 1.0 0 1.0 "). split; [blanks_tac|]. split; [coords_tac|]. split; [coords_tac|].
  exists (s2l " 0 1.0 0" ++ [nl]). split; [coords_tac|reflexivity].
Qed.
Ltac rec_tac := match goal with |- RecLine _ _ _ ?l =>
  exists (firstn 43 l), (firstn 43 (skipn 43 l)), (skipn 86 l), (skipn 2 (firstn 43 (skipn 43 l))), (skipn 88 l);
  split; [reflexivity|]; split; [reflexivity|]; split; [reflexivity|]; split; [reflexivity|]; split; [reflexivity|]; split; [coords_tac|]; split; coords_tac end.
Example C106_witness_cdgs : RecLine (nq3 "0.00000E+00" "0.00000E+00" "0.00000E+00") (nq3 "1.00000E+00" "0.00000E+00" "0.00000E+00") (nq3 "0.00000E+00" "1.00000E+00" "0.00000E+00") (ex_rec "0.00000E+00")
  /\ Standard (nq3 "0.00000E+00" "0.00000E+00" "0.00000E+00") (nq3 "1.00000E+00" "0.00000E+00" "0.00000E+00") (nq3 "0.00000E+00" "1.00000E+00" "0.00000E+00")
  /\ RecLine (nq3 "1.50000E+01" "0.00000E+00" "0.00000E+00") (nq3 "1.00000E+00" "0.00000E+00" "0.00000E+00") (nq3 "0.00000E+00" "1.00000E+00" "0.00000E+00") (ex_rec "1.50000E+01")
  /\ ~ Standard (nq3 "1.50000E+01" "0.00000E+00" "0.00000E+00") (nq3 "1.00000E+00" "0.00000E+00" "0.00000E+00") (nq3 "0.00000E+00" "1.00000E+00" "0.00000E+00").
Proof.
  split; [rec_tac|]. split; [split; [vm_compute; reflexivity|split; vm_compute; reflexivity]|]. split; [rec_tac|].
  intros (H & _). vm_compute in H. discriminate.
Qed.

(** ** C107 *)
(** Every source of a CDGS file is found under its number and gives a mesh that says what its part of the file says, whatever the
    other sources are; a number the file does not have is refused. *)
Theorem C107_every_source ss ls : CdgsFile ss ls -> (forall s, In s ss -> Sensible s) ->
  exists d, scan_cdgs ls = Some (Ok d)
    /\ (forall s, In s ss -> exists m, get_cdgs d (str_of_Z (s_id s)) = Some (Ok m) /\ MeshOfSource s m)
    /\ (forall z, ~ In z (map s_id ss) -> get_cdgs d (str_of_Z z) = Some (Err KeyError)).
Proof.
  intros H HS. destruct (all_sources ss ls H HS) as (d & E & Em & HG). exists d. split; [exact E|]. split; [exact HG|].
  intros z Hz. apply unknown_id. rewrite Em. intros Hin. apply in_map_iff in Hin as (s & Es & Hs). apply InpProofs2.str_of_Z_inj in Es. apply Hz. rewrite <- Es. apply in_map. exact Hs.
Qed.
Print Assumptions C107_every_source.

(** The list of the meshes has the number of every source once. *)
Theorem C107_list ss ls : CdgsFile ss ls -> exists d, scan_cdgs ls = Some (Ok d) /\ Permutation (cdgs_list d) (map (fun s => str_of_Z (s_id s)) ss).
Proof.
  intros H. destruct (scan_ok ss ls H) as (d & E & Em & _). exists d. split; [exact E|]. unfold cdgs_list. rewrite Em.
  apply strs_perm.
Qed.
Print Assumptions C107_list.

(** The file announces how many sources it has; one line between two sources (an empty one, a comment) and the last source is lost without a word. *)
Theorem C107_a_line_between_refuted h0 h1 ss texts x last : Label (fun w => Ints w (Z.of_nat (S (length ss)))) h0 -> Label (fun w => exists q, numeral w q) h1 ->
  Forall2 SourceText ss texts -> NoDup (map s_id ss) -> ~ begins "mesh_id" x ->
  exists d, scan_cdgs (h0 :: h1 :: concat texts ++ x :: last) = Some (Ok d) /\ map fst d = map (fun s => str_of_Z (s_id s)) ss.
Proof. apply gap_lost. Qed.
Print Assumptions C107_a_line_between_refuted.

(** A file cut before the end of a source is read for ever. *)
Theorem C107_cut_file_refuted h0 h1 n ss texts lid rest : Label (fun w => Ints w (Z.of_nat (length ss + S n))) h0 -> Label (fun w => exists q, numeral w q) h1 ->
  Forall2 SourceText ss texts -> NoDup (map s_id ss) -> begins "mesh_id" lid -> Label (fun _ => True) lid -> Forall (fun l => ~ begins "end_source_data" l) rest ->
  scan_cdgs (h0 :: h1 :: concat texts ++ lid :: rest) = None.
Proof. apply cut_hangs. Qed.
Print Assumptions C107_cut_file_refuted.

(** two sources: number 1 with the voxels of the example of C55 and number 7 with an empty list of voxels and line energies *)
Definition ex_source1 : source := mkSource 1 (line_of "first source") (nq "0.000E+00") (nq "2.0416E-03") true [nq "0.0"; nq "1.0"; nq "5.0"; nq "10.0"]
  [nq "0.0"; nq "15.0"; nq "30.0"] [nq "0.0"; nq "15.0"] [nq "0.0"; nq "15.0"; nq "30.0"] ex_src.
Definition ex_source7 : source := mkSource 7 (line_of "other") (nq "1.0E+05") (nq "0.0") false [nq "1.5"] [nq "0.0"; nq "15.0"] [nq "0.0"; nq "15.0"] [nq "0.0"; nq "15.0"] [].
Definition ex_head1 : list str := map line_of ["mesh_id      1"; "first source"; "cooling_time 0.000E+00"; "mesh_source 2.0416E-03"; "energy_type bins"; "energy_boundaries     4"]%string.
Definition ex_head7 : list str := map line_of ["mesh_id      7"; "other"; "cooling_time 1.0E+05"; "mesh_source 0.0"; "energy_type lines"; "energy_boundaries     1"]%string.
Definition ex_text1 : list str := (ex_head1 ++ map line_of [" 0.0 1.0 5.0"; "10.0"]%string ++ [line_of "mesh_type rec"; line_of "mesh_boundaries  3 2 3"; ex_rec "0.00000E+00"]
  ++ [line_of "0.0 15.0 30.0"] ++ [line_of "0.0 15.0"] ++ [line_of "0.0 15.0 30.0"]) ++ line_of "source_data" :: concat [sv1; sv3] ++ [line_of "end_source_data"].
Definition ex_text7 : list str := (ex_head7 ++ [line_of "1.5"] ++ [line_of "mesh_type rec"; line_of "mesh_boundaries  2 2 2"; ex_rec "0.00000E+00"]
  ++ [line_of "0.0 15.0"] ++ [line_of "0.0 15.0"] ++ [line_of "0.0 15.0"]) ++ line_of "source_data" :: concat [] ++ [line_of "end_source_data"].
Definition ex_cdgs : list str := line_of "num_meshes     2" :: line_of "total_source 2.0416E-03" :: concat [ex_text1; ex_text7] ++ [[]].
Ltac lab := eexists _, _, _; split; [vm_compute; reflexivity|]; first [reflexivity | vm_compute; reflexivity | (eexists; split; [vm_compute; reflexivity|reflexivity]) | (eexists; vm_compute; reflexivity) | (split; [intros H; vm_compute in H; discriminate H|discriminate]) | (split; reflexivity)].
Ltac notbeg := repeat (apply Forall_cons; [intros (r & Hr); vm_compute in Hr; discriminate Hr|]); apply Forall_nil.
Example ex_voxels : Forall2 (SrcVoxel 3) ex_src [sv1; sv3].
Proof.
  apply Forall2_cons; [|apply Forall2_cons; [|apply Forall2_nil]].
  - exists (nth 0 sv1 []), [s2l "0.5"; s2l "0.5"; s2l "1.5"], (s2l "2"), (s2l "8.0"), (s2l "2"), [firstn 4 (tl sv1); skipn 5 sv1].
    split; [reflexivity|]. split; [vm_compute; reflexivity|]. split; [eexists; split; [vm_compute; reflexivity|reflexivity]|].
    split; [vm_compute; reflexivity|]. split; [eexists; split; [vm_compute; reflexivity|reflexivity]|].
    apply Forall2_cons; [|apply Forall2_cons; [|apply Forall2_nil]].
    + src_cell (nth 1 sv1 []) (firstn 2 (skipn 2 sv1)) (firstn 1 (skipn 4 sv1)).
    + src_cell (nth 5 sv1 []) (firstn 1 (skipn 6 sv1)) (firstn 2 (skipn 7 sv1)).
  - exists (nth 0 sv3 []), [s2l "1.5"; s2l "0.5"; s2l "1.5"], (s2l "4"), (s2l "8.0"), (s2l "1"), [tl sv3].
    split; [reflexivity|]. split; [vm_compute; reflexivity|]. split; [eexists; split; [vm_compute; reflexivity|reflexivity]|].
    split; [vm_compute; reflexivity|]. split; [eexists; split; [vm_compute; reflexivity|reflexivity]|].
    apply Forall2_cons; [|apply Forall2_nil].
    src_cell (nth 1 sv3 []) (firstn 1 (skipn 2 sv3)) (firstn 1 (skipn 3 sv3)).
Qed.
Ltac source_tac hd le lb b1 b2 b3 vts vox :=
  exists (nth 0 hd []), (nth 2 hd []), (nth 3 hd []), (nth 4 hd []), (nth 5 hd []), le, (line_of "mesh_type rec"), lb, (ex_rec "0.00000E+00"), b1, b2, b3, (line_of "source_data"), vts, (line_of "end_source_data"),
    (nq3 "0.00000E+00" "0.00000E+00" "0.00000E+00"), (nq3 "1.00000E+00" "0.00000E+00" "0.00000E+00"), (nq3 "0.00000E+00" "1.00000E+00" "0.00000E+00");
  do 5 eexists; split; [reflexivity|]; split; [eexists; reflexivity|]; split; [lab|]; split; [lab|]; split; [lab|]; split; [lab|]; split; [lab|];
  split; [wrapped|]; split; [lab|]; split; [vm_compute; reflexivity|]; split; [vm_compute; reflexivity|]; split; [vm_compute; reflexivity|]; split; [vm_compute; reflexivity|];
  split; [exact (proj1 C106_witness_cdgs)|]; split; [exact (proj1 (proj2 C106_witness_cdgs))|]; split; [wrapped|]; split; [wrapped|]; split; [wrapped|];
  split; [notbeg|]; split; [eexists; reflexivity|]; split; [exact vox|]; split; [notbeg|]; split; [eexists; reflexivity|]; eexists; vm_compute; reflexivity.
Example C107_witness : CdgsFile [ex_source1; ex_source7] ex_cdgs /\ (forall s, In s [ex_source1; ex_source7] -> Sensible s).
Proof.
  split.
  - exists (line_of "num_meshes     2"), (line_of "total_source 2.0416E-03"), [ex_text1; ex_text7], [[]]. split; [reflexivity|]. split; [lab|]. split; [lab|]. split.
    + apply Forall2_cons; [|apply Forall2_cons; [|apply Forall2_nil]].
      * source_tac ex_head1 (map line_of [" 0.0 1.0 5.0"; "10.0"]%string) (line_of "mesh_boundaries  3 2 3") [line_of "0.0 15.0 30.0"] [line_of "0.0 15.0"] [line_of "0.0 15.0 30.0"] [sv1; sv3] ex_voxels.
      * source_tac ex_head7 [line_of "1.5"] (line_of "mesh_boundaries  2 2 2") [line_of "0.0 15.0"] [line_of "0.0 15.0"] [line_of "0.0 15.0"] (@nil (list str)) (Forall2_nil (SrcVoxel 1)).
    + repeat (constructor; [cbn; intuition discriminate|]). constructor.
  - intros s [<-|[<-|[]]]; (split; [discriminate|]); (split; [discriminate|]); (split; [discriminate|]); (split; [discriminate|]); (split; [cbn; lia|]).
    + exact (proj1 (proj2 (proj2 C55_witness))).
    + intros i v [].
Qed.
Example C107_witness_cut : scan_cdgs (removelast (removelast ex_cdgs)) = None
  /\ match scan_cdgs (line_of "num_meshes     2" :: line_of "total_source 2.0416E-03" :: ex_text1 ++ [nl] :: ex_text7) with Some (Ok d) => map fst d = [s2l "1"] | _ => False end.
Proof. split; vm_compute; reflexivity. Qed.
