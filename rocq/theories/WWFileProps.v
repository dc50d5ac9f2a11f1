(** C115: weight windows from file to file. *)
From Coq Require Import ZArith QArith Lia Qabs.
From Verif Require Import PyBase PyStr B2Spec WWModel WWSpec WWTextModel WWTextSpec WWFileModel WWFileSpec WWFileProofs WWFileProofs2.
Open Scope nat_scope.

(** C115: every proper window is saved without an error; the file loads, and what is loaded is the same window to five significant
    digits: the same numbers of mesh intervals, the same particles, and under each energy the same voxels.  Its ratios are those of its
    values, it is drawn on a grid of the same kind, and saving it again writes the same file. *)
Theorem C115_saved_window_loads_back : forall x, window_ok x -> exists lines x',
  write_to_ww_file x = Ok lines /\
  (forall fuel, length lines <= fuel -> load_from_ww_file fuel lines = Done (Ok x')) /\
  window5 x x' /\ consistent Qops (snd x') /\ ge (snd x') = geom_of (fst x) /\
  write_to_ww_file x' = Ok lines.
Proof. exact window_roundtrip. Qed.
Print Assumptions C115_saved_window_loads_back.

(** C115: that covers every window reached from a proper one by any sequence of calls (also refused ones), as long as its values are
    numbers a file can hold. *)
Theorem C115_after_any_calls : forall pow g v cs, geometry_ok g -> standard v -> mesh_shaped g v -> energies_ok v ->
  let x := window_run pow (g, new_ww Qops (geom_of g) v) cs in values_ok (vals (snd x)) ->
  exists lines x', write_to_ww_file x = Ok lines /\
    (forall fuel, length lines <= fuel -> load_from_ww_file fuel lines = Done (Ok x')) /\
    geometry5 g (fst x') /\ values5 (vals (snd x)) (vals (snd x')).
Proof. intros pow g v cs G St Sh En x Va. destruct (window_roundtrip x (history_ok pow g v cs G St Sh En Va)) as (lines & x' & A & B & [C D] & _).
  exists lines, x'. auto. Qed.
Print Assumptions C115_after_any_calls.

(** A cylindrical window of 2 x 1 x 1 voxels, multiplied, completed with photons and mitigated. *)
Definition fw_geo : geometry := mkGeo [1; 5]%Q [0; 10]%Q [0; 1]%Q [2%Z] [1%Z] [1%Z] (Some ([0; 0; 1]%Q, [1; 0; 0]%Q)) [0; 0; -35 # 1]%Q.
Definition fw_vals : pvals Q := [(Neutron, [(1%Q, [[[1#2; 3]]]); (20%Q, [[[7; 1#3]]])])]%Q.
Definition fw_calls : list (ww_call Q) := [CMultiply 2; CAdd 1 1; CMitigate 10]%Q.
Definition fw_window : window := window_run qpow_int (fw_geo, new_ww Qops (geom_of fw_geo) fw_vals) fw_calls.
Ltac fw_rng := repeat (apply Forall_cons; [apply fw_in_range; reflexivity|]); try apply Forall_nil.
Ltac fw_flat := match goal with |- Forall _ ?l => let l' := eval vm_compute in l in replace l with l' by (vm_compute; reflexivity) end.
Example C115_proper_window : geometry_ok fw_geo /\ standard fw_vals /\ mesh_shaped fw_geo fw_vals /\ energies_ok fw_vals /\ values_ok (vals (snd fw_window)).
Proof. split; [|split; [|split; [|split]]].
  - unfold geometry_ok, axis_ok, point_ok. cbn [fw_geo g_ci g_cj g_ck g_fi g_fj g_fk g_dirs g_origin].
    repeat match goal with |- _ /\ _ => split end; try reflexivity; try discriminate; try (fw_rng; fail); repeat constructor; lia.
  - left. eexists. reflexivity.
  - unfold mesh_shaped. repeat constructor.
  - constructor; [|constructor]. cbn [snd]. split; [discriminate|]. split; [reflexivity|]. split; [cbn [dkeys map fst]; fw_rng|].
    repeat constructor. vm_compute. discriminate.
  - apply values_ok_flat. fw_flat. fw_rng. Qed.
Example C115_case : match write_to_ww_file fw_window with
  | Ok lines => match load_from_ww_file 20 lines with Done (Ok (g, w)) =>
      map fst (vals w) = [Neutron; Photon] /\ map Qred (g_ci g) = [1; 5]%Q /\ option_map Qred (at_ (vals w) Photon 20 (0, 0, 1)) = Some 0%Q /\
      option_map Qred (at_ (vals w) Neutron 1 (0, 0, 1)) = Some 6%Q /\ write_to_ww_file (g, w) = Ok lines | _ => False end
  | Err _ => False end.
Proof. vm_compute. repeat split. Qed.

(** C115 is false for energies that are printed alike: 1.00001 and 1.00002 are one bin in the loaded window, with the values of the
    second. *)
Definition fw_close : window := (fw_geo, new_ww Qops (geom_of fw_geo) [(Neutron, [(100001 # 100000, [[[1; 2]]]); (100002 # 100000, [[[3; 4]]])])]%Q).
Theorem C115_close_energies_merge_refuted : exists lines g w e,
  geometry_ok (fst fw_close) /\ standard (vals (snd fw_close)) /\ mesh_shaped (fst fw_close) (vals (snd fw_close)) /\ values_ok (vals (snd fw_close)) /\
  write_to_ww_file fw_close = Ok lines /\ load_from_ww_file 20 lines = Done (Ok (g, w)) /\
  (exists a, vals w = [(Neutron, [(e, a)])]) /\ option_map Qred (at_ (vals w) Neutron e (0, 0, 0)) = Some 3%Q.
Proof. assert (W : exists lines, write_to_ww_file fw_close = Ok lines) by (eexists; vm_compute; reflexivity). destruct W as [lines W].
  assert (L : exists x, load_from_ww_file 20 lines = Done (Ok x) /\ exists e a, vals (snd x) = [(Neutron, [(e, a)])] /\ option_map Qred (at_ (vals (snd x)) Neutron e (0, 0, 0)) = Some 3%Q).
  { vm_compute in W. apply (f_equal (fun r => match r with Ok l => l | Err _ => [] end)) in W. cbv beta iota in W. rewrite <- W. eexists. split; [vm_compute; reflexivity|].
    eexists _, _. split; [vm_compute; reflexivity|]. vm_compute. reflexivity. }
  destruct L as ([g w] & L & e & a & Ev & Ea). cbn [snd] in *. exists lines, g, w, e.
  split; [exact (proj1 C115_proper_window)|]. split; [left; eexists; reflexivity|]. split; [unfold mesh_shaped; repeat constructor|].
  split; [apply values_ok_flat; fw_flat; fw_rng|].
  split; [exact W|]. split; [exact L|]. split; [exists a; exact Ev|exact Ea]. Qed.
Print Assumptions C115_close_energies_merge_refuted.

(** C115: saved without a name, a window never overwrites the file it was loaded from ... *)
Theorem C115_default_name_is_another : forall name, default_name name <> name.
Proof. exact default_name_new. Qed.
Print Assumptions C115_default_name_is_another.

(** ... but two windows of one folder whose names differ only in their suffix are saved to one file, one over the other. *)
Theorem C115_default_names_differ_refuted : exists a b, a <> b /\ default_name a = default_name b.
Proof. exists (s2l "ww.step1"), (s2l "ww.step2"). split; [discriminate|reflexivity]. Qed.
Print Assumptions C115_default_names_differ_refuted.

(** C115: a loaded window is drawn on a rectangular grid exactly when its file has no directors; else on a cylindrical one whose single
    angular interval is drawn as twenty, two as ten each and more as they are. *)
Theorem C115_drawn : forall fuel lines g w, load_from_ww_file fuel lines = Done (Ok (g, w)) ->
  (g_dirs g = None -> ge w = Cartesian) /\
  (g_dirs g <> None -> exists m, ge w = Cylindrical m /\ (fold_right Z.add 0%Z (g_fk g) = 1%Z -> m = 20) /\
    (fold_right Z.add 0%Z (g_fk g) = 2%Z -> m = 10) /\ (fold_right Z.add 0%Z (g_fk g) <> 1%Z -> fold_right Z.add 0%Z (g_fk g) <> 2%Z -> m = 1)).
Proof. exact drawn_loaded. Qed.
Print Assumptions C115_drawn.
