(** C45, cell by cell. *)
From Verif Require Import PyBase PyLemmas WWModel WWSpec WWProofs5.
Open Scope nat_scope.

(** After any history of calls, every grid cell that shows voxel x carries the current
    value (ratio) of that voxel, under the array named after the particle and energy. *)
Theorem C45_each_cell_shows_its_voxel : forall (A : Type) (O : ops A) pow nz ny nx g v cs, standard v -> shaped nz ny nx v ->
  let w := ww_run O pow (new_ww O g v) cs in unique_labels (vals w) ->
  forall p e x y c, shown g nz ny nx x c ->
    (at_ (vals w) p e x = Some y -> exists l, dget gname_eqb (GVal p (e2 e)) (gr w) = Some l /\ nth_error l c = Some y) /\
    (at_ (rats w) p e x = Some y -> exists l, dget gname_eqb (GRatio p (e2 e)) (gr w) = Some l /\ nth_error l c = Some y).
Proof. exact @grid_cells. Qed.
Print Assumptions C45_each_cell_shows_its_voxel.

(** The maximum-ratio array shows in each cell the largest, over the energies, of the
    ratios of the voxel. *)
Theorem C45_max_ratio_is_the_largest : forall pow nz ny nx g v cs, standard v -> shaped nz ny nx v ->
  let w := ww_run Qops pow (new_ww Qops g v) cs in unique_labels (vals w) ->
  forall p b x c e0 y0, dget particle_eqb p (rats w) = Some b -> shown g nz ny nx x c -> at_ (rats w) p e0 x = Some y0 ->
    exists l m, dget gname_eqb (GMax p) (gr w) = Some l /\ nth_error l c = Some m /\
      (forall a, In a (dvals b) -> exists y, voxel a x = Some y /\ (y <= m)%Q) /\ exists a, In a (dvals b) /\ voxel a x = Some m.
Proof. exact grid_max. Qed.
Print Assumptions C45_max_ratio_is_the_largest.

(** every call keeps the mesh shape *)
Theorem C06_every_call_keeps_the_mesh : forall (A : Type) (O : ops A) pow nz ny nx g v cs, standard v -> shaped nz ny nx v ->
  shaped nz ny nx (vals (ww_run O pow (new_ww O g v) cs)).
Proof. intros A O pow nz ny nx g v cs H1 H2. exact (proj1 (proj2 (proj2 (run_inv O pow nz ny nx g v cs H1 H2)))). Qed.
Print Assumptions C06_every_call_keeps_the_mesh.

Example C45_cells_case :
  let v := [(Neutron, [(1%Q, [[[1; 2]]; [[4; 0]]]); (2%Q, [[[1; 1]]; [[1; 3]]])])]%Q in
  let w := ww_run Qops qpow_int (new_ww Qops (Cylindrical 2) v) [CMultiply (2#1)] in
  standard v /\ shaped 2 1 2 v /\ unique_labels (vals w) /\ shown (Cylindrical 2) 2 1 2 (1, 0, 0) 6 /\
  at_ (vals w) Neutron (2#2) (1, 0, 0) = Some (4 * (2#1))%Q /\
  option_map (map Qred) (dget gname_eqb (GMax Neutron) (gr w)) = Some [4; 3; 4; 3; 4; 3; 4; 3]%Q.
Proof. cbv zeta. split; [left; eexists; reflexivity|]. split; [repeat constructor|]. split; [|split; [|split]].
  - unfold unique_labels. constructor; [|constructor]. cbn. repeat constructor; cbn; intuition discriminate.
  - exists 1. split; lia.
  - reflexivity.
  - vm_compute. reflexivity. Qed.
