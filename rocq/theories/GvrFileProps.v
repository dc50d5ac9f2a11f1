(** C133: from a mesh tally to a weight-window file and back. *)
From Coq Require Import Lia ZArith Lqa Qabs.
From Verif Require Import PyBase PyStr PyText DataModel B2Model B2Spec WWModel WWSpec WWTextModel WWTextSpec MeshModel MeshSpec MeshProofs MeshProofs2 FmeshModel FmeshProps MeshProps TrsfModel GvrModel GvrSpec GvrProofs GvrProofs2 GvrProps
  WWFileModel WWFileSpec WWFileProofs WWFileProofs2 GvrFileModel GvrFileSpec GvrFileProofs.
Open Scope nat_scope.

(** C133: the window made from any tally of any meshtal file is saved without an error, the file loads, and what is loaded has the mesh
    of the tally (its boundaries to five digits, one fine interval per coarse one), one particle, one energy (100 MeV exactly), and in
    every voxel the flux of the tally divided by the largest flux and multiplied by 2 / (r + 1), to five digits. *)
Theorem C133_tally_to_file_and_back sn cs old pow ss f asked (s : tally_text placement) r :
  FileText (get_transformation true) ss f -> Chosen ss asked s -> OneGroup s -> SomeFlux s -> Placed s -> (-1 < r)%Q -> Printable s r ->
  exists lines g w x3 slice m, tally_to_file sn cs old pow f asked r 1 = Some (Ok lines)
    /\ (forall fuel, length lines <= fuel -> load_from_ww_file fuel lines = Done (Ok (g, w)))
    /\ Slices (bd_cyl (t_bounds s)) (bd_x3 (t_bounds s)) x3 slice
    /\ (0 < m)%Q /\ sizes s (fun nz ny nx => Peak nz ny nx (flux s) m)
    /\ Forall2 close5 (bd_x1 (t_bounds s)) (g_ci g) /\ Forall2 close5 (bd_x2 (t_bounds s)) (g_cj g) /\ Forall2 close5 x3 (g_ck g)
    /\ g_fi g = repeat 1%Z (intervals (bd_x1 (t_bounds s))) /\ g_fj g = repeat 1%Z (intervals (bd_x2 (t_bounds s))) /\ g_fk g = repeat 1%Z (intervals x3)
    /\ (forall k j i, k < intervals x3 -> j < intervals (bd_x2 (t_bounds s)) -> i < intervals (bd_x1 (t_bounds s)) ->
          exists q, at_ (vals w) Neutron 100%Q (k, j, i) = Some q /\ close5 (flux s (slice k) j i / m * (2 / (r + 1))) q)
    /\ (forall p e k j i q, at_ (vals w) p e (k, j, i) = Some q -> p = Neutron /\ (e == 100)%Q
          /\ k < intervals x3 /\ j < intervals (bd_x2 (t_bounds s)) /\ i < intervals (bd_x1 (t_bounds s)))
    /\ consistent Qops w.
Proof. intros HF HC HO HS HP Hr PR. destruct (gvr_file sn cs old pow ss f asked s r HF HC HO HS HP Hr PR) as (lines & g & w & x3 & sl & m & A). exists lines, g, w, x3, sl, m. tauto. Qed.
Print Assumptions C133_tally_to_file_and_back.

(** C133: the file keeps the place of the window: none for a rectangular tally, the axis and the vector of the angles of a cylindrical
    one, and its origin when the first and third coordinates of it agree (else it is reversed: C108). *)
Theorem C133_placement_in_the_file sn cs old pow ss f asked (s : tally_text placement) r :
  FileText (get_transformation true) ss f -> Chosen ss asked s -> OneGroup s -> SomeFlux s -> Placed s -> (-1 < r)%Q -> Printable s r ->
  exists lines g w, tally_to_file sn cs old pow f asked r 1 = Some (Ok lines)
    /\ (forall fuel, length lines <= fuel -> load_from_ww_file fuel lines = Done (Ok (g, w)))
    /\ (bd_cyl (t_bounds s) = false -> g_dirs g = None /\ Forall2 close5 [0; 0; 0]%Q (g_origin g))
    /\ (bd_cyl (t_bounds s) = true -> forall p o1 o2 o3 a1 a2 a3, bd_trsf (t_bounds s) = Some p -> pl_origin p = (o1, o2, o3) -> pl_axis p = (a1, a2, a3) ->
          (exists d1 d2, g_dirs g = Some (d1, d2) /\ Forall2 close5 [a1; a2; a3] d1 /\ forall x y z, pl_vec p = Some (x, y, z) -> Forall2 close5 [x; y; z] d2)
          /\ ((o1 == o3)%Q -> Forall2 close5 [o1; o2; o3] (g_origin g))).
Proof.
  intros HF HC HO HS HP Hr PR. destruct (gvr_file sn cs old pow ss f asked s r HF HC HO HS HP Hr PR) as (lines & g & w & x3 & sl & m & T & L & _ & _ & _ & _ & _ & _ & _ & _ & O & D). exists lines, g, w. split; [exact T|]. split; [exact L|]. unfold org_of, dirs_of in *. split.
  - intros C. rewrite C in O, D. destruct (bd_trsf (t_bounds s)); cbn [andb] in O; (split; [destruct (g_dirs g); [contradiction|reflexivity]|exact O]).
  - intros C p o1 o2 o3 a1 a2 a3 Ep Eo Ea. rewrite C, Ep in O, D. rewrite Eo in O. rewrite Ea in D. split.
    + destruct (g_dirs g) as [[d1 d2]|]; [|contradiction]. exists d1, d2. split; [reflexivity|]. destruct D as [D1 D2]. split; [exact D1|]. intros x y z Ev. rewrite Ev in D2. exact D2.
    + intros E. cbn [andb] in O. unfold zero3, v1, v2, v3 in O. cbn [fst snd] in O. destruct (Qeq_bool o1 0) eqn:Z1; [destruct (Qeq_bool o2 0) eqn:Z2; [destruct (Qeq_bool o3 0) eqn:Z3|]|]; cbn [andb negb] in O.
      { apply Qeq_bool_iff in Z1, Z2, Z3. eapply close_qlist; [|exact O]. repeat (apply Forall2_cons); try apply Forall2_nil; lra. }
      all: eapply close_qlist; [|exact O]; repeat (apply Forall2_cons); try apply Forall2_nil; try reflexivity; lra.
Qed.
Print Assumptions C133_placement_in_the_file.

(** The rectangular and a cylindrical tally of the example of C108. *)
Lemma small_ok q : Qle_bool (p10 (-20)) (Qabs q) && negb (Qle_bool (p10 20) (Qabs q)) || Qeq_bool q 0 = true -> in_range q.
Proof. apply fw_in_range. Qed.
Ltac all_small := repeat (apply Forall_cons; [apply small_ok; vm_compute; reflexivity|]); apply Forall_nil.
Example C133_witness : Printable g14 5 /\ Printable g24 5.
Proof.
  assert (V : forall s, (s = g14 \/ s = g24) -> forall m, (0 < m)%Q -> sizes s (fun nz ny nx => Peak nz ny nx (flux s) m) ->
     sizes s (fun nz ny nx => forall k j i, k < nz -> j < ny -> i < nx -> in_range (flux s k j i / m * (2 / (5 + 1)))%Q)).
  { intros s E m Mp [_ (k0 & j0 & i0 & _ & _ & _ & M)]. intros k j i _ _ _.
    assert (FV : forall k j i, (flux s k j i == 3 # 2)%Q \/ (flux s k j i == 5 # 2)%Q).
    { intros k' j' i'. destruct E as [->| ->]; unfold flux; cbn [g14 g24 g_cyl t_values]; unfold exV; (destruct (i' =? 0); [left|right]); vm_compute; reflexivity. }
    destruct (FV k0 j0 i0) as [A|A], (FV k j i) as [B|B]; rewrite A in M;
      (eapply in_range_comp; [rewrite <- M, B; reflexivity|]; apply small_ok; vm_compute; reflexivity). }
  split; (split; [vm_compute; reflexivity|]; split; [vm_compute; reflexivity|]; split; [vm_compute; reflexivity|]).
  - split; [cbn [g14 t_bounds bd_x1]; all_small|]. split; [all_small|]. split; [all_small|]. split; [discriminate|apply V; auto].
  - split; [all_small|]. split; [all_small|]. split; [all_small|]. split; [|apply V; auto]. intros p E. injection E as <-.
    split; [|split]; [repeat split; apply small_ok; vm_compute; reflexivity..|]. discriminate.
Qed.
(* the lines of the file of tally 14 are read back as the window of 0.2 and 0.33333 *)
Example C133_case : match tally_to_file sn0 cs0 (fun _ _ _ _ _ _ => Err OtherError) qpow_int gfile 14 5 1 with
  | Some (Ok lines) => match load_from_ww_file 40 lines with
    | Done (Ok (g, w)) => map (fun pb => map (fun ea => map Qred (flatten3 (snd ea))) (snd pb)) (vals w) = [[[1 # 5; 33333 # 100000]]]%Q /\ map Qred (g_ci g) = [0; 1; 2]%Q
    | _ => False end
  | _ => False
  end.
Proof. vm_compute. split; reflexivity. Qed.
