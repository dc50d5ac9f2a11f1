(** Properties C03-C09, C12 and C45 (weight windows in memory). *)
From Verif Require Import PyBase WWModel WWSpec WWProofs WWProofs2 WWProofs3 WWReal WWProofs4.
From Coq Require Import Reals.
Open Scope Q_scope.

(** *** C03 *)
Theorem C03_values_keep_their_voxel : forall (A : Type) ni nz ny nx energies (values : list (list A)),
  well_formed_nested ni nz ny nx energies values ->
  exists v, nested_to_values ni nz ny nx energies values = Ok v /\
    format_nested v = Ok (energies, values) /\ shaped nz ny nx v /\ length (particles v) = ni /\
    forall p n es vs e k j i, nth_error energies (pcode p) = Some es -> nth_error values (pcode p) = Some vs ->
      nth_error es n = Some e -> (k < nz)%nat -> (j < ny)%nat -> (i < nx)%nat ->
      at_ v p e (k, j, i) = nth_error vs (((n * nz + k) * ny + j) * nx + i).
Proof. exact @nested_spec. Qed.
Print Assumptions C03_values_keep_their_voxel.

Example C03_case : well_formed_nested 2 1 2 2 [[1; 10]; [5]] [[1;2;3;4;5;6;7;8]; [9;10;11;12]].
Proof. unfold well_formed_nested. repeat split; try lia; auto;
  repeat constructor; unfold Qeq; simpl; lia. Qed.

(** C03: with two energy bins of equal upper energy one whole bin is lost on save. *)
Theorem C03_duplicate_energies_refuted : exists energies values v,
  nested_to_values 1 1 1 1 energies values = Ok v /\
  format_nested v <> Ok (energies, values) /\ format_nested v = Ok ([[2]], [[7]]) /\ values = [[3; 7]].
Proof. exists [[2; 2]], [[3; 7]]. eexists. split; [vm_compute; reflexivity|]. repeat split. discriminate. Qed.
Print Assumptions C03_duplicate_energies_refuted.

(** *** C04 *)
Theorem C04_ratio_is_max_neighbour_ratio : forall w nz ny nx p e x y,
  consistent Qops w -> shaped nz ny nx (vals w) -> nonneg_pv (vals w) ->
  at_ (vals w) p e x = Some y ->
  exists a r, dget particle_eqb p (vals w) <> None /\ (forall q, at_ (vals w) p e q = voxel a q) /\
    at_ (rats w) p e x = Some r /\ is_ratio a x r.
Proof. exact ratio_lift. Qed.
Print Assumptions C04_ratio_is_max_neighbour_ratio.

(** ... and that determines the ratio. *)
Theorem C04_ratio_unique : forall a p r r', is_ratio a p r -> is_ratio a p r' -> r == r'.
Proof. exact is_ratio_unique. Qed.
Print Assumptions C04_ratio_unique.

Definition ex_w : ww Q := new_ww Qops Cartesian [(Neutron, [(1, [[[1; 4; 0]; [2; 2; 2]]]); (20, [[[0; 8; 1]; [2; 0; 6]]])])].
Example C04_case : consistent Qops ex_w /\ shaped 1 2 3 (vals ex_w) /\
  at_ (vals ex_w) Neutron 1 (0, 0, 1)%nat = Some 4 /\ option_map Qred (at_ (rats ex_w) Neutron 1 (0, 0, 1)%nat) = Some 4 /\
  option_map Qred (at_ (rats ex_w) Neutron 20 (0, 0, 1)%nat) = Some 8.
Proof. repeat split; try (repeat constructor); vm_compute; reflexivity. Qed.
Example C04_case_nonneg : nonneg_pv (vals ex_w).
Proof. intros p e [[k j] i] y H. unfold at_ in H. destruct p; simpl in H; [|discriminate].
  destruct (Qeq_bool e 1); [|destruct (Qeq_bool e 20); [|discriminate]];
  destruct k as [|[|?]]; try discriminate; destruct j as [|[|[|?]]]; try discriminate;
  destruct i as [|[|[|[|?]]]]; simpl in H; inversion H; subst; discriminate. Qed.

(** *** C05 *)
Theorem C05_mitigation_bounds_every_ratio : forall w nz ny nx r,
  consistent Qops w -> shaped nz ny nx (vals w) -> nonneg_pv (vals w) -> 1 <= r ->
  let w' := mitigate Qops w r in
  (forall p e x, at_ (vals w') p e x =
     match at_ (vals w) p e x, at_ (rats w) p e x with
     | Some v, Some rho => Some (if Qle_bool rho r then v else 0) | _, _ => None end) /\
  (forall p e x rho', at_ (rats w') p e x = Some rho' ->
     rho' <= r /\ exists rho, at_ (rats w) p e x = Some rho /\ rho' <= rho) /\
  (forall p e x, at_ (vals (mitigate Qops w' r)) p e x = at_ (vals w') p e x).
Proof. exact mitigate_spec. Qed.
Print Assumptions C05_mitigation_bounds_every_ratio.

Example C05_case : at_ (vals (mitigate Qops ex_w 3)) Neutron 1 (0, 0, 1)%nat = Some 0
  /\ at_ (vals (mitigate Qops ex_w 3)) Neutron 1 (0, 1, 0)%nat = Some 2.
Proof. split; vm_compute; reflexivity. Qed.

(** *** C06 *)
Theorem C06_multiply_pointwise : forall w f p e x,
  match at_ (vals w) p e x, at_ (vals (multiply Qops w f)) p e x with
  | Some a, Some b => b == a * f | None, None => True | _, _ => False end.
Proof. exact multiply_at. Qed.
Print Assumptions C06_multiply_pointwise.

Theorem C06_multiply_composes : forall w f g,
  same_at (vals (multiply Qops (multiply Qops w f) g)) (vals (multiply Qops w (f * g))).
Proof. exact multiply_multiply. Qed.
Print Assumptions C06_multiply_composes.

Theorem C06_multiply_keeps_ratios : forall w nz ny nx f,
  consistent Qops w -> shaped nz ny nx (vals w) -> nonneg_pv (vals w) -> 0 < f ->
  same_at (rats (multiply Qops w f)) (rats w).
Proof. exact multiply_ratios. Qed.
Print Assumptions C06_multiply_keeps_ratios.

(** soften acts pointwise, also when it returns early for the factor 1 *)
Theorem C06_soften_pointwise : forall w s p e x, rnonneg (vals w) ->
  at_ (vals (soften Rops rpow w s)) p e x = option_map (fun v => rpow v s) (at_ (vals w) p e x).
Proof. exact soften_at. Qed.
Print Assumptions C06_soften_pointwise.

Theorem C06_soften_composes : forall w s t, rnonneg (vals w) -> (0 < s)%R -> (0 < t)%R -> forall p e x,
  at_ (vals (soften Rops rpow (soften Rops rpow w s) t)) p e x = at_ (vals (soften Rops rpow w (s * t)%R)) p e x.
Proof. exact soften_soften. Qed.
Print Assumptions C06_soften_composes.

Theorem C06_soften_powers_ratios : forall w nz ny nx s,
  consistent Rops w -> shaped nz ny nx (vals w) -> rnonneg (vals w) -> (0 < s)%R -> forall p e x,
  at_ (rats (soften Rops rpow w s)) p e x = option_map (fun r => rpow r s) (at_ (rats w) p e x).
Proof. exact soften_ratios. Qed.
Print Assumptions C06_soften_powers_ratios.

(** after any sequence of calls (also rejected ones) the exposed ratios are the ratios
    of the exposed values, for every number type and power function *)
Theorem C06_ratios_always_consistent : forall (A : Type) (O : ops A) pow g v cs,
  consistent O (ww_run O pow (new_ww O g v) cs).
Proof. exact @run_consistent. Qed.
Print Assumptions C06_ratios_always_consistent.

Example C06_case : forall p e x, at_ (vals (ww_run Qops qpow_int ex_w [CMultiply 2; CSoften 2; CAdd 1 1; CMitigate 3; CRemove])) p e x
  = at_ (vals (mitigate Qops (soften Qops qpow_int (multiply Qops ex_w 2) 2) 3)) p e x.
Proof. intros p e x. destruct p; vm_compute; reflexivity. Qed.
Example C06_real_case : rnonneg (vals (new_ww Rops Cartesian [(Neutron, [(1, [[[2%R; 0%R]]])])])).
Proof. intros p e [[k j] i] y H. unfold at_ in H. destruct p; simpl in H; [|discriminate].
  destruct (Qeq_bool e 1); [|discriminate]. destruct k as [|[|?]]; try discriminate; destruct j as [|[|?]]; try discriminate;
  destruct i as [|[|[|?]]]; simpl in H; inversion H; subst; [apply Rlt_le, Rlt_0_2|apply Rle_refl]. Qed.

(** *** C07, C08 *)
(** What add_particle does: neutrons unchanged, photon = neutron * norm**soft, a second
    call is refused, and remove_particle restores values, ratios and the saved file. *)
Theorem C07_C08_add_then_remove : forall (A : Type) (O : ops A) pow w norm soft,
  standard (vals w) -> consistent O w ->
  (length (particles (vals w)) = 2%nat /\ add_particle O pow w norm soft = Err ValueError) \/
  (length (particles (vals w)) = 1%nat /\ exists w', add_particle O pow w norm soft = Ok w' /\
     particles (vals w') = [Neutron; Photon] /\
     (forall e x, at_ (vals w') Neutron e x = at_ (vals w) Neutron e x) /\
     (forall e x, at_ (vals w') Photon e x =
        option_map (fun v => omul O v (pow norm soft)) (at_ (vals w) Neutron e x)) /\
     consistent O w' /\
     (forall n s, add_particle O pow w' n s = Err ValueError) /\
     exists w'', remove_particle O w' = Ok w'' /\ vals w'' = vals w /\ rats w'' = rats w /\
       format_nested (vals w'') = format_nested (vals w) /\ ge w'' = ge w).
Proof. exact @add_particle_spec. Qed.
Print Assumptions C07_C08_add_then_remove.

(** every window reached from a loaded one is of that standard form *)
Theorem C08_every_window_is_standard : forall (A : Type) (O : ops A) pow w cs,
  standard (vals w) -> standard (vals (ww_run O pow w cs)).
Proof. exact @run_standard. Qed.
Print Assumptions C08_every_window_is_standard.

(** C07: the documented result (value*norm)**soft is obtained only for soft = 1 or
    where the neutron value is 1. *)
Theorem C07_documented_formula_iff : forall x norm soft, (0 < x)%R -> (0 < norm)%R ->
  (x * rpow norm soft = rpow (x * norm) soft <-> x = 1 \/ soft = 1)%R.
Proof. exact add_doc_iff. Qed.
Print Assumptions C07_documented_formula_iff.

Theorem C07_documented_formula_refuted : exists w w' e x v y,
  add_particle Qops qpow_int w 1 2 = Ok w' /\ at_ (vals w) Neutron e x = Some v /\
  at_ (vals w') Photon e x = Some y /\ ~ y == qpow_int (v * 1) 2.
Proof. exists ex_w. eexists. exists 1, (0, 0, 1)%nat, 4. eexists. split; [vm_compute; reflexivity|].
  split; [vm_compute; reflexivity|]. split; [vm_compute; reflexivity|]. vm_compute. discriminate. Qed.
Print Assumptions C07_documented_formula_refuted.

Theorem C08_remove_particle : forall (A : Type) (O : ops A) w, standard (vals w) ->
  (length (particles (vals w)) = 1%nat /\ remove_particle O w = Err ValueError) \/
  (length (particles (vals w)) = 2%nat /\ exists w', remove_particle O w = Ok w' /\ particles (vals w') = [Neutron] /\
     (forall e x, at_ (vals w') Neutron e x = at_ (vals w) Neutron e x) /\
     (forall e x, at_ (vals w') Photon e x = None) /\ consistent O w').
Proof. exact @remove_particle_spec. Qed.
Print Assumptions C08_remove_particle.

(** C08: the exported grid is NOT restored: the removed particle's arrays stay. *)
Theorem C08_grid_restored_refuted : exists w w1 w2,
  add_particle Qops qpow_int w 1 1 = Ok w1 /\ remove_particle Qops w1 = Ok w2 /\
  vals w2 = vals w /\ dget gname_eqb (GVal Photon (e2 1)) (gr w) = None /\
  dget gname_eqb (GVal Photon (e2 1)) (gr w2) <> None.
Proof. exists ex_w. eexists. eexists. split; [vm_compute; reflexivity|]. split; [vm_compute; reflexivity|].
  split; [vm_compute; reflexivity|]. split; [vm_compute; reflexivity|]. vm_compute. discriminate. Qed.
Print Assumptions C08_grid_restored_refuted.

Example C08_case : standard (vals ex_w) /\ consistent Qops ex_w.
Proof. split; [left; eexists; reflexivity|reflexivity]. Qed.

(** *** C09 *)
Theorem C09_gvr_scaled_flux : forall r b,
  distinct_energies (dkeys b) -> -1 < r ->
  (forall e x v, ebin_at b e x = Some v -> 0 <= v) -> (exists e x v, ebin_at b e x = Some v /\ 0 < v) ->
  exists b' m, flux_to_gvr Qops (2 / (r + 1)) b = Ok b' /\ 0 < m /\
    (forall e x, match ebin_at b e x, ebin_at b' e x with
       | Some v, Some g => g == v / m * (2 / (r + 1)) /\ 0 <= g <= 2 / (r + 1) /\ (g == 0 <-> v == 0)
       | None, None => True | _, _ => False end) /\
    (exists e x g, ebin_at b' e x = Some g /\ g == 2 / (r + 1)) /\
    (forall e x e2 x2 v v2 g g2, ebin_at b e x = Some v -> ebin_at b e2 x2 = Some v2 ->
       ebin_at b' e x = Some g -> ebin_at b' e2 x2 = Some g2 -> 0 < v -> 0 < v2 ->
       pair_ratio g g2 == pair_ratio v v2 /\ (v <= v2 <-> g <= g2)).
Proof. exact gvr_spec. Qed.
Print Assumptions C09_gvr_scaled_flux.

Example C09_case : let b := [(100, [[[3; 0; 6]]])] in
  distinct_energies (dkeys b) /\ -1 < 5 /\ (exists e x v, ebin_at b e x = Some v /\ 0 < v) /\
  match flux_to_gvr Qops (2 / (5 + 1)) b with Ok b' => option_map Qred (ebin_at b' 100 (0,0,0)%nat) = Some (1#6)  | _ => False end.
Proof. repeat split; try (repeat constructor); try reflexivity. exists 100, (0,0,0)%nat, 3. split; vm_compute; reflexivity. Qed.

(** *** C12 *)
Theorem C12_cylindrical_grid_cells : forall (A : Type) m nz ny nx (a : arr A) j k s i,
  (0 < nz)%nat -> (s < m)%nat -> rect nz ny nx a ->
  voxel (prepare_cyl m a) (j, k * m + s, i)%nat = voxel a (k, j, i).
Proof. exact @prepare_cyl_voxel. Qed.
Print Assumptions C12_cylindrical_grid_cells.
Theorem C12_cylindrical_grid_shape : forall (A : Type) m nz ny nx (a : arr A),
  (0 < nz)%nat -> (0 < ny)%nat -> (0 < m)%nat -> rect nz ny nx a -> rect ny (nz * m) nx (prepare_cyl m a).
Proof. exact @prepare_cyl_size. Qed.
Print Assumptions C12_cylindrical_grid_shape.
Example C12_case : rect 2 1 2 [[[1; 2]]; [[3; 4]]]%nat /\
  prepare_cyl 2 [[[1; 2]]; [[3; 4]]]%nat = [[[1; 2]; [1; 2]; [3; 4]; [3; 4]]]%nat.
Proof. split; [repeat constructor|reflexivity]. Qed.

(** *** C45: the exported grid shows the current values and ratios after any history *)
Theorem C45_grid_shows_current_values : forall (A : Type) (O : ops A) pow g v cs, standard v ->
  grid_ok O (ww_run O pow (new_ww O g v) cs).
Proof. exact @run_grid. Qed.
Print Assumptions C45_grid_shows_current_values.

(** ... but only when the 2-decimal labels differ: below 0.005 MeV they collide and a bin
    is missing from the exported grid. *)
Theorem C45_every_energy_bin_exported_refuted : exists v e a,
  standard v /\ In (Neutron, [(e, a); (2#1000, [[[7]]])]) v /\
  let w := new_ww Qops Cartesian v in
  (forall p l, dget gname_eqb (GVal p (e2 e)) (gr w) = Some l -> l <> grid_array Cartesian a) /\
  dget gname_eqb (GVal Neutron (e2 e)) (gr w) = Some [7].
Proof. exists [(Neutron, [(1#1000, [[[3]]]); (2#1000, [[[7]]])])], (1#1000), [[[3]]].
  split; [left; eexists; reflexivity|]. split; [left; reflexivity|]. split.
  - intros p l. destruct p; vm_compute; intros H; inversion H; discriminate.
  - vm_compute. reflexivity. Qed.
Print Assumptions C45_every_energy_bin_exported_refuted.
Example C45_case : standard (vals ex_w) /\ unique_labels (vals ex_w).
Proof. split; [left; eexists; reflexivity|]. constructor; [|constructor]. vm_compute. repeat constructor; simpl; intuition discriminate. Qed.
