(** C67-C69: reading D1S-UNED meshinfo files, querying the masses, saving, loading and comparing. *)
From Coq Require Import Lia ZArith Permutation Sorted QArith.
From Verif Require Import PyBase PyStr PyText DataModel MeshModel MeshSpec MiModel MiSpec MiProofs MiProofs2.
Open Scope nat_scope.

(** ** a file with a cartesian and a cylindrical mesh *)
Definition ln (s : string) : str := s2l s ++ [nl].
Definition cart_lines : list string :=
  [" Average cell number per voxel:  1.50000"; ""; " Tally bin boundaries:";
   "    X direction:    -10.00      0.00     10.00"; "    Y direction:     -5.00      5.00"; "    Z direction:     -5.00      5.00";
   "      1   2.50000E+02    1"; "          1    0.0000        0  1.00000";
   "      2   2.50000E+02    2"; "         10    0.5000      400  0.25000"; "          1    0.0000        0  0.75000"]%string.
Definition cyl_lines : list string :=
  [" Average cell number per voxel:  1.00000"; ""; " Tally bin boundaries:";
   "   origin at   0.00E+00  1.00E+00  2.00E+00 axis in   0.00E+00  0.00E+00  1.00E+00 direction, VEC direction   1.00E+00  0.00E+00  0.00E+00";
   "    R direction:      0.00      3.75"; "    Z direction:      0.00      5.00"; "    Theta direction (revolutions):0.000000006.28318531";
   "      1   1.00000E+02    1"; "          4    2.0000       7  1.00000"]%string.
Definition sample : list str := map ln
  (["d1sune version 3.1.4"; " Mesh tally number:        44"]%string ++ cart_lines ++ ["       1"; " Mesh tally number:         4"]%string ++ cyl_lines ++ [""]%string).
Definition pf (s : string) : Q := match parse_float (s2l s) with Ok q => q | _ => 0 end.

(** ** C67 *)
(** Every mesh of a file with distinct numbers is kept under its number, in the order of the file, with the bins of its three
    axes (angles in revolutions) and one row per cell inside each voxel: its mass is volume x fraction x density (divided by
    2 pi for a cylinder), and the rows are sorted by voxel, material and cell. *)
Theorem C67_every_mesh_is_read : forall two_pi ms f, FileText ms f -> NoDup (map fst ms) ->
  exists rs, read_meshinfo two_pi f = Ok rs /\ Forall2 (fun a b => fst a = fst b /\ KeptAs two_pi (snd a) (snd b)) ms rs.
Proof. exact read_distinct. Qed.
Print Assumptions C67_every_mesh_is_read.
(** If a number appears more than once, the mesh that comes last in the file is kept. *)
Theorem C67_the_last_mesh_with_a_number_is_kept : forall two_pi ms f i m, FileText ms f -> dget Z.eqb i (rev ms) = Some m ->
  exists info r, read_meshinfo two_pi f = Ok info /\ dget Z.eqb i info = Some r /\ KeptAs two_pi m r.
Proof. exact read_last. Qed.
Print Assumptions C67_the_last_mesh_with_a_number_is_kept.
(** A file that ends inside a mesh, before a voxel or a cell of a voxel, is refused. *)
Theorem C67_a_cut_file_is_refused : forall two_pi ms i m f, (Series ms >> Other >> TitleLine i >> CutMesh m) f -> exists e, read_meshinfo two_pi f = Err e.
Proof. exact cut_refused. Qed.
Print Assumptions C67_a_cut_file_is_refused.
Ltac cut n := match goal with |- (_ >> _) ?ls => let a := eval cbn [firstn] in (firstn n ls) in let b := eval cbn [skipn] in (skipn n ls) in exists a, b; split; [reflexivity|split] end.
Ltac lines := match goal with |- _ ?ls => let x := eval vm_compute in ls in change ls with x end.
Ltac finish := repeat first [apply Forall_nil | apply Forall_cons | apply Forall2_nil | apply Forall2_cons]; try (vm_compute; reflexivity).
Ltac no_title := let X := fresh in intros X; apply MeshProofs.has_iff in X; vm_compute in X; discriminate X.
Ltac labelled := do 3 eexists; split; [vm_compute; reflexivity|finish].
Ltac cellline := do 4 eexists; split; [vm_compute; reflexivity|repeat split].
Ltac voxelline := do 3 eexists; split; [vm_compute; reflexivity|repeat split].
Ltac voxeltext := do 2 eexists; split; [reflexivity|split; [voxelline|repeat (apply Forall2_cons; [cellline|]); apply Forall2_nil]].
Ltac title := do 2 eexists; split; [reflexivity|split; [apply MeshProofs.has_iff; vm_compute; reflexivity|split; vm_compute; reflexivity]].
Definition cart_read : mesh := Eval vm_compute in
  mkMesh None (map pf ["-10.00"; "0.00"; "10.00"]%string) (map pf ["-5.00"; "5.00"]%string) (map pf ["-5.00"; "5.00"]%string)
    [mkVoxel 1 (pf "2.50000E+02") [mkCell 1 (pf "0.0000") 0 (pf "1.00000")];
     mkVoxel 2 (pf "2.50000E+02") [mkCell 10 (pf "0.5000") 400 (pf "0.25000"); mkCell 1 (pf "0.0000") 0 (pf "0.75000")]].
Definition cyl_read : mesh := Eval vm_compute in
  mkMesh (Some (map pf ["0.00E+00"; "1.00E+00"; "2.00E+00"]%string, map pf ["0.00E+00"; "0.00E+00"; "1.00E+00"]%string, map pf ["1.00E+00"; "0.00E+00"; "0.00E+00"]%string))
    (map pf ["0.00"; "3.75"]%string) (map pf ["0.00"; "5.00"]%string) (map pf ["0.00000000"; "6.28318531"]%string)
    [mkVoxel 1 (pf "1.00000E+02") [mkCell 4 (pf "2.0000") 7 (pf "1.00000")]].
Example C67_witness : FileText [(44%Z, cart_read); (4%Z, cyl_read)] sample /\ NoDup (map fst [(44%Z, cart_read); (4%Z, cyl_read)])
  /\ (forall tp, exists a b, read_meshinfo tp sample = Ok [(44%Z, a); (4%Z, b)]
       /\ (exists rows, m_mass a = Some rows /\ map fst rows = [(1, 0, 1); (2, 0, 1); (2, 400, 10)]%Z
            /\ Forall2 Qeq (map snd rows) [0; 0; 3125#100]%Q)
       /\ m_cyl b = true /\ m_extra b = h_extra cyl_read)
  /\ exists e, read_meshinfo 6 (firstn 12 sample) = Err e.
Proof.
  split; [|split; [repeat constructor; cbn; intuition discriminate|split]].
  - unfold FileText. lines. cut 1; [repeat (apply Forall_cons; [no_title|]); apply Forall_nil|]. cut 1; [title|]. cut 11.
    { split; [repeat split; discriminate|]. split; [reflexivity|]. cut 3; [reflexivity|]. cut 3.
      - do 3 eexists. split; [reflexivity|]. repeat split; try labelled. vm_compute. discriminate.
      - cbn [Voxels h_voxels cart_read]. cut 2; [voxeltext|]. cut 3; [voxeltext|reflexivity]. }
    cut 1; [repeat (apply Forall_cons; [no_title|]); apply Forall_nil|]. cut 1; [title|]. cut 9.
    { split; [repeat split; discriminate|]. split; [reflexivity|]. cut 3; [reflexivity|]. cut 4.
      - do 4 eexists. split; [reflexivity|]. split; [labelled|]. split; [labelled|]. split.
        + exists (s2l "    Theta direction (revolutions):"), [(s2l "0.00000000", []); (s2l "6.28318531", [nl])]. split; [vm_compute; reflexivity|].
          split; [unfold gap; finish|]. repeat (apply Forall2_cons; [split; [do 2 eexists; split; [reflexivity|]; split; [reflexivity|]; split; [reflexivity|finish]|split; [unfold gap; finish|vm_compute; reflexivity]]|]). apply Forall2_nil.
        + exists (s2l "at"), (map s2l ["0.00E+00"; "1.00E+00"; "2.00E+00"]%string), (s2l "axis"), (s2l "in"), (map s2l ["0.00E+00"; "0.00E+00"; "1.00E+00"]%string),
            (s2l "direction,"), (s2l "VEC"), (s2l "direction"), (map s2l ["1.00E+00"; "0.00E+00"; "0.00E+00"]%string), [].
          split; [vm_compute; reflexivity|]. repeat split; vm_compute; finish.
      - cbn [Voxels h_voxels cyl_read]. cut 2; [voxeltext|reflexivity]. }
    repeat (apply Forall_cons; [no_title|]); apply Forall_nil.
  - intros tp. do 2 eexists. split; [vm_compute; reflexivity|]. split; [eexists; split; [reflexivity|split; [reflexivity|finish]]|split; reflexivity].
  - eexists. vm_compute. reflexivity.
Qed.

(** ** C68 *)
(** A filtered table has exactly the rows whose voxel, material and cell are among those asked for (a criterion that is not
    given admits everything), in their order. *)
Theorem C68_filters_keep_the_matching_rows : forall v m c df, 
  (forall r, In r (get_filtered v m c df) <-> In r df /\ (forall l, v = Some l -> In (r_voxel r) l) /\ (forall l, m = Some l -> In (r_mat r) l) /\ (forall l, c = Some l -> In (r_cell r) l))
  /\ exists keep : mrow -> bool, get_filtered v m c df = filter keep df.
Proof.
  intros v m c df. split; [|eexists; reflexivity]. intros r. rewrite filtered_in.
  assert (W : forall o z, wanted o z = true <-> forall l, o = Some l -> In z l).
  { intros [l|] z; cbn [wanted]; [rewrite memz_in; split; [intros H l' E; injection E as <-; exact H|intros H; apply H; reflexivity]|split; [intros _ l E; discriminate E|reflexivity]]. }
  rewrite !W. reflexivity.
Qed.
Print Assumptions C68_filters_keep_the_matching_rows.
(** The cells of some materials are exactly the cells of their rows, each of them once; without materials, every cell. *)
Theorem C68_cells_of_materials : forall ms df, NoDup (get_cells_from_materials ms df)
  /\ forall z, In z (get_cells_from_materials ms df) <-> exists r, In r df /\ r_cell r = z /\ forall l, ms = Some l -> In (r_mat r) l.
Proof.
  intros ms df. unfold get_cells_from_materials. destruct (unique_ok (map r_cell (get_filtered None ms None df)) []) as [H1 H2]. split; [exact H1|]. intros z. rewrite H2, in_map_iff. split.
  - intros [(r & E & H) _]. apply filtered_in in H as (H & _ & W & _). exists r. split; [exact H|]. split; [exact E|]. intros l ->. apply memz_in. exact W.
  - intros (r & H & E & W). split; [|intros []]. exists r. split; [exact E|]. apply filtered_in. split; [exact H|]. split; [reflexivity|]. split; [|reflexivity].
    destruct ms as [l|]; [apply memz_in; apply W; reflexivity|reflexivity].
Qed.
Print Assumptions C68_cells_of_materials.
(** The materials are those of the rows, in increasing order, each of them once. *)
Theorem C68_materials : forall df, StronglySorted Z.lt (materials df) /\ forall z, In z (materials df) <-> exists r, In r df /\ r_mat r = z.
Proof. exact materials_ok. Qed.
Print Assumptions C68_materials.
Definition table : list mrow := [((1, 0, 5), 0#1); ((1, 7, 3), 2#1); ((2, 7, 3), 1#1); ((2, 7, 4), 1#2); ((3, 9, 4), 4#1)]%Z%Q.
Example C68_witness : get_filtered (Some [2]%Z) (Some [7; 9]%Z) None table = [((2, 7, 3), 1#1); ((2, 7, 4), 1#2)]%Z%Q
  /\ get_cells_from_materials (Some [7]%Z) table = [3; 4]%Z /\ get_cells_from_materials None table = [5; 3; 4]%Z /\ materials table = [0; 7; 9]%Z.
Proof. repeat split; reflexivity. Qed.

(** ** C69 *)
(** A mesh that was read from a file and saved in a folder, whatever was in it, is loaded as it was. *)
Theorem C69_what_was_read_is_loaded_as_saved : forall two_pi h m d, KeptAs two_pi h m -> load (save m d) = Ok m.
Proof. intros tp h m d H. apply load_save. exact (kept_whole tp h m H). Qed.
Print Assumptions C69_what_was_read_is_loaded_as_saved.
(** So is any mesh with masses, if it has origin, axis and vec exactly when it is cylindrical. *)
Theorem C69_load_after_save : forall m d rows, m_mass m = Some rows -> StronglySorted before rows -> (m_cyl m = true <-> m_extra m <> None) -> load (save m d) = Ok m.
Proof. intros m d rows H1 H2 H3. apply load_save. exists rows. auto. Qed.
Print Assumptions C69_load_after_save.
(** Two meshes of the same class and with the same numbers of bins are equal exactly when their coordinates, bins, masses and, for a cylinder, origin, axis and vec are. *)
Theorem C69_equality : forall a b ra rb, m_mass a = Some ra -> m_mass b = Some rb -> (m_extra a = None <-> m_extra b = None) ->
  length (m_i a) = length (m_i b) -> length (m_j a) = length (m_j b) -> length (m_k a) = length (m_k b) ->
  (forall o x v, (m_extra a = Some (o, x, v) \/ m_extra b = Some (o, x, v)) -> length o = 3 /\ length x = 3 /\ length v = 3) ->
  exists e, mi_eq a b = Ok e /\ (e = true <-> m_cyl a = m_cyl b /\ Forall2 Qeq (m_i a) (m_i b) /\ Forall2 Qeq (m_j a) (m_j b) /\ Forall2 Qeq (m_k a) (m_k b)
    /\ Forall2 (fun x y : mrow => fst x = fst y /\ (snd x == snd y)%Q) ra rb
    /\ forall o x v o' x' v', m_extra a = Some (o, x, v) -> m_extra b = Some (o', x', v') -> Forall2 Qeq o o' /\ Forall2 Qeq x x' /\ Forall2 Qeq v v').
Proof.
  intros a b ra rb Ha Hb Hc Li Lj Lk L3. unfold mi_eq. rewrite Ha, Hb.
  destruct (Bool.eqb (m_cyl a) (m_cyl b)) eqn:Ec; cbn [negb]; [apply Bool.eqb_prop in Ec|exists false; split; [reflexivity|split; [discriminate|intros (E & _); rewrite E, Bool.eqb_reflx in Ec; discriminate Ec]]].
  destruct (arr_eq_same _ _ Li) as (bi & -> & Hi), (arr_eq_same _ _ Lj) as (bj & -> & Hj), (arr_eq_same _ _ Lk) as (bk & -> & Hk). unfold qs_eq in *. cbn [andthen bind].
  destruct bi; [|exists false; split; [reflexivity|split; [discriminate|intros (_ & E & _); apply Hi in E; discriminate E]]].
  destruct bj; [|exists false; split; [reflexivity|split; [discriminate|intros (_ & _ & E & _); apply Hj in E; discriminate E]]].
  destruct bk; [|exists false; split; [reflexivity|split; [discriminate|intros (_ & _ & _ & E & _); apply Hk in E; discriminate E]]].
  pose proof (rows_eq_iff ra rb) as HR. destruct (rows_eq ra rb); [|exists false; split; [reflexivity|split; [discriminate|intros (_ & _ & _ & _ & E & _); apply HR in E; discriminate E]]].
  assert (HI := proj1 Hi eq_refl). assert (HJ := proj1 Hj eq_refl). assert (HK := proj1 Hk eq_refl). assert (HRR := proj1 HR eq_refl). clear Hi Hj Hk HR.
  destruct (m_extra a) as [[[o x] v]|] eqn:Ea, (m_extra b) as [[[o' x'] v']|] eqn:Eb.
  - destruct (L3 o x v (or_introl eq_refl)) as (L1 & L2 & L4), (L3 o' x' v' (or_intror eq_refl)) as (L1' & L2' & L4').
    destruct (arr_eq_same o o' ltac:(congruence)) as (bo & -> & Ho), (arr_eq_same x x' ltac:(congruence)) as (bx & -> & Hx), (arr_eq_same v v' ltac:(congruence)) as (bv & -> & Hv). unfold qs_eq in *. cbn [andthen bind].
    destruct bo; [|exists false; split; [reflexivity|split; [discriminate|intros (_ & _ & _ & _ & _ & E); destruct (E _ _ _ _ _ _ eq_refl eq_refl) as (E' & _); apply Ho in E'; discriminate E']]].
    destruct bx; [|exists false; split; [reflexivity|split; [discriminate|intros (_ & _ & _ & _ & _ & E); destruct (E _ _ _ _ _ _ eq_refl eq_refl) as (_ & E' & _); apply Hx in E'; discriminate E']]].
    exists bv. split; [reflexivity|]. rewrite Hv. split.
    + intros E. repeat split; try assumption; intros; match goal with H1 : Some _ = Some _, H2 : Some _ = Some _ |- _ => injection H1 as <- <- <-; injection H2 as <- <- <- end; [apply Ho; reflexivity|apply Hx; reflexivity|exact E].
    + intros (_ & _ & _ & _ & _ & E). destruct (E _ _ _ _ _ _ eq_refl eq_refl) as (_ & _ & E'). exact E'.
  - exfalso. assert (X : Some (o, x, v) = None) by (apply Hc; reflexivity). discriminate X.
  - exfalso. assert (X : Some (o', x', v') = None) by (apply Hc; reflexivity). discriminate X.
  - exists true. split; [reflexivity|]. split; [|reflexivity]. intros _. repeat split; try assumption; discriminate.
Qed.
Print Assumptions C69_equality.
(** What fails: a mesh without masses cannot be loaded again, or comes back with the masses of the mesh that was saved before it
    in the same folder; and two meshes with different numbers of bins cannot be compared at all, unless one of them has a single value. *)
Theorem C69_no_masses_refuted : (forall m d, m_mass m = None -> f_mass d = None -> load (save m d) = Err FileNotFoundError)
  /\ (forall m d rows, m_mass m = None -> m_cyl m = false -> f_mass d = Some rows -> exists m', load (save m d) = Ok m' /\ m_mass m' = Some (sort_index rows)).
Proof.
  split.
  - intros m d H1 H2. unfold load, save. rewrite H1. cbn [f_mass]. rewrite H2. reflexivity.
  - intros m d rows H1 H2 H3. unfold load, save. rewrite H1. cbn [f_mass]. rewrite H3. cbn [of_opt bind f_params p_cyl]. rewrite H2. eexists. split; reflexivity.
Qed.
Print Assumptions C69_no_masses_refuted.
Theorem C69_different_sizes_refuted : forall a b, m_cyl a = m_cyl b -> length (m_i a) <> length (m_i b) -> 2 <= length (m_i a) -> 2 <= length (m_i b) -> mi_eq a b = Err ValueError.
Proof.
  intros a b E N La Lb. unfold mi_eq. rewrite E, Bool.eqb_reflx. cbn [negb]. destruct (m_i a) as [|x [|x' i]]; cbn [length] in La; try lia. destruct (m_i b) as [|y [|y' i']]; cbn [length] in Lb; try lia.
  unfold arr_eq. replace (length (x :: x' :: i) =? length (y :: y' :: i')) with false by (symmetry; apply Nat.eqb_neq; exact N). reflexivity.
Qed.
Print Assumptions C69_different_sizes_refuted.
Definition small (i : list Q) (mass : option (list mrow)) : meshinfo := mkMi false None i [0; 1]%Q [0; 1]%Q mass.
Example C69_witness : let m := small [0; 1; 2#1]%Q (Some table) in let d := mkFolder None None in
  load (save m d) = Ok m /\ StronglySorted before table /\ mi_eq m m = Ok true /\ mi_eq m (small [0; 1; 3#1]%Q (Some table)) = Ok false
  /\ mi_eq m (small [0; 1]%Q (Some table)) = Err ValueError /\ load (save (small [0; 1]%Q None) (save m d)) = Ok (small [0; 1]%Q (Some table)).
Proof. repeat split; try (vm_compute; reflexivity). repeat constructor; unfold before; cbn; lia. Qed.
