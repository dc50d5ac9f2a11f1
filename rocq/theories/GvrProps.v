(** Property C108: a weight window made from a mesh tally. *)
From Coq Require Import Lia ZArith Lqa.
From Verif Require Import PyBase PyStr PyText DataModel B2Model B2Spec WWModel WWSpec MeshModel MeshSpec MeshProofs MeshProofs2 FmeshModel FmeshProps MeshProps TrsfModel GvrModel GvrSpec GvrProofs GvrProofs2.
Open Scope nat_scope.

(** The window has the mesh of the tally asked for, one particle and one energy (100 MeV), and in every voxel the flux of the tally
    (its first time and energy bins) divided by the largest flux and multiplied by 2 / (r + 1); its ratios are those of its values. *)
Theorem C108_window sn cs old pow ss f asked (s : tally_text placement) r :
  FileText (get_transformation true) ss f -> Chosen ss asked s -> OneGroup s -> SomeFlux s -> Placed s -> (-1 < r)%Q ->
  exists g w x3 slice m vi vj vk, create_gvr sn cs old pow f asked r 1 = Some (Ok (g, w))
    /\ Slices (bd_cyl (t_bounds s)) (bd_x3 (t_bounds s)) x3 slice
    /\ axis_vector (geo_i g) = Ok vi /\ qlist_eq vi (bd_x1 (t_bounds s)) /\ axis_vector (geo_j g) = Ok vj /\ qlist_eq vj (bd_x2 (t_bounds s))
    /\ axis_vector (geo_k g) = Ok vk /\ qlist_eq vk x3
    /\ (0 < m)%Q /\ sizes s (fun nz ny nx => Peak nz ny nx (flux s) m)
    /\ (forall k j i, k < intervals x3 -> j < intervals (bd_x2 (t_bounds s)) -> i < intervals (bd_x1 (t_bounds s)) ->
          exists q, at_ (vals w) Neutron 100%Q (k, j, i) = Some q /\ (q == flux s (slice k) j i / m * (2 / (r + 1)))%Q)
    /\ (forall p e k j i q, at_ (vals w) p e (k, j, i) = Some q -> p = Neutron /\ (e == 100)%Q
          /\ k < intervals x3 /\ j < intervals (bd_x2 (t_bounds s)) /\ i < intervals (bd_x1 (t_bounds s)))
    /\ consistent Qops w.
Proof.
  intros HF HC HO HS HP Hr. destruct (gvr_main sn cs old pow ss f asked s r HF HC HO HS HP Hr) as (gi & gj & gk & w & x3 & sl & m & vi & vj & vk & E & H).
  eexists _, w, x3, sl, m, vi, vj, vk. split; [exact E|]. cbn [geo_i geo_j geo_k]. intuition.
Qed.
Print Assumptions C108_window.

(** A rectangular tally gives a window at its place: no directors, and an origin at zero (its vectors are absolute). *)
Theorem C108_rectangular_placement sn cs old pow ss f asked (s : tally_text placement) r :
  FileText (get_transformation true) ss f -> Chosen ss asked s -> OneGroup s -> SomeFlux s -> bd_cyl (t_bounds s) = false -> (-1 < r)%Q ->
  exists g w, create_gvr sn cs old pow f asked r 1 = Some (Ok (g, w)) /\ geo_org g = [0; 0; 0]%Q /\ geo_dirs g = None /\ ge w = Cartesian.
Proof.
  intros HF HC HO HS C Hr. destruct (gvr_main sn cs old pow ss f asked s r HF HC HO HS) as (gi & gj & gk & w & x3 & sl & m & vi & vj & vk & E & H); [intros C'; congruence|exact Hr|].
  eexists _, w. split; [exact E|]. cbn [geo_org geo_dirs]. assert (D : dirs_of s = None) by (unfold dirs_of; rewrite C; destruct (bd_trsf (t_bounds s)); reflexivity).
  split; [unfold org_of; rewrite C; destruct (bd_trsf (t_bounds s)); reflexivity|]. split; [exact D|]. repeat apply proj2 in H. rewrite H. unfold drawn. cbn [geo_dirs]. rewrite D. reflexivity.
Qed.
Print Assumptions C108_rectangular_placement.

(** A cylindrical tally gives its axis and the vector its angles start from (x, or y for an axis along x, when the file does not say),
    and its origin when the first and third coordinates of it agree. *)
Theorem C108_cylinder_placement sn cs old pow ss f asked (s : tally_text placement) r p o1 o2 o3 a1 a2 a3 :
  FileText (get_transformation true) ss f -> Chosen ss asked s -> OneGroup s -> SomeFlux s -> bd_cyl (t_bounds s) = true ->
  bd_trsf (t_bounds s) = Some p -> pl_axis p = (a1, a2, a3) -> up (a1, a2, a3) -> pl_origin p = (o1, o2, o3) -> (o1 == o3)%Q -> (-1 < r)%Q ->
  exists g w d2, create_gvr sn cs old pow f asked r 1 = Some (Ok (g, w)) /\ qlist_eq (geo_org g) [o1; o2; o3]
    /\ geo_dirs g = Some ([a1; a2; a3], d2)
    /\ match pl_vec p with
       | Some (x, y, z) => d2 = [x; y; z]
       | None => (a1 == 1)%Q /\ d2 = [0; 1; 0]%Q \/ ~ (a1 == 1)%Q /\ d2 = [1; 0; 0]%Q
       end.
Proof.
  intros HF HC HO HS C Ep Ea U Eo O Hr. destruct (gvr_main sn cs old pow ss f asked s r HF HC HO HS) as (gi & gj & gk & w & x3 & sl & m & vi & vj & vk & E & H); [intros _; exists p; rewrite Ea; auto|exact Hr|].
  eexists _, w, _. split; [exact E|]. cbn [geo_org geo_dirs]. unfold org_of, dirs_of. rewrite Ep, C, Eo, Ea. split; [|split; [reflexivity|]].
  - unfold zero3, v1, v2, v3. cbn [fst snd andb]. destruct (Qeq_bool o1 0) eqn:Z1; [destruct (Qeq_bool o2 0) eqn:Z2; [destruct (Qeq_bool o3 0) eqn:Z3|]|]; cbn [andb negb];
      try apply Qeq_bool_iff in Z1; try apply Qeq_bool_iff in Z2; try apply Qeq_bool_iff in Z3; repeat (apply Forall2_cons); try apply Forall2_nil; lra.
  - unfold v1. cbn [fst]. destruct (pl_vec p) as [[[x y] z]|]; [reflexivity|]. destruct (Qeq_bool a1 1) eqn:Q; [left|right]; split; try reflexivity.
    + apply Qeq_bool_iff. exact Q. + intros K. apply Qeq_bool_iff in K. congruence.
Qed.
Print Assumptions C108_cylinder_placement.

(** Otherwise its origin is reversed: the first coordinate of the tally's origin is the window's third. *)
Theorem C108_reversed_origin_refuted sn cs old pow ss f asked (s : tally_text placement) r p o1 o2 o3 :
  FileText (get_transformation true) ss f -> Chosen ss asked s -> OneGroup s -> SomeFlux s -> bd_cyl (t_bounds s) = true ->
  bd_trsf (t_bounds s) = Some p -> up (pl_axis p) -> pl_origin p = (o1, o2, o3) -> ~ (o1 == o3)%Q -> (-1 < r)%Q ->
  exists g w, create_gvr sn cs old pow f asked r 1 = Some (Ok (g, w)) /\ geo_org g = [o3; o2; o1] /\ ~ qlist_eq (geo_org g) [o1; o2; o3].
Proof.
  intros HF HC HO HS C Ep U Eo O Hr. destruct (gvr_main sn cs old pow ss f asked s r HF HC HO HS) as (gi & gj & gk & w & x3 & sl & m & vi & vj & vk & E & H); [intros _; exists p; auto|exact Hr|].
  eexists _, w. split; [exact E|]. cbn [geo_org]. assert (G : org_of s = [o3; o2; o1]).
  { unfold org_of. rewrite Ep, C, Eo. unfold zero3, v1, v2, v3. cbn [fst snd andb]. destruct (Qeq_bool o1 0) eqn:Z1; [|reflexivity]. destruct (Qeq_bool o3 0) eqn:Z3; [|rewrite Bool.andb_false_r; reflexivity].
    apply Qeq_bool_iff in Z1, Z3. contradiction O. rewrite Z1, Z3. reflexivity. }
  rewrite G. split; [reflexivity|]. intros K. inversion K as [|? ? ? ? K1 _]; subst. apply O. symmetry. exact K1.
Qed.
Print Assumptions C108_reversed_origin_refuted.

(** A cylinder along z around the origin of the coordinates (which the meshtal reader leaves without a placement) is refused, *)
Theorem C108_centred_cylinder_refuted sn cs old pow ss f asked (s : tally_text placement) r soft :
  FileText (get_transformation true) ss f -> Chosen ss asked s -> OneGroup s -> bd_cyl (t_bounds s) = true -> bd_trsf (t_bounds s) = None ->
  create_gvr sn cs old pow f asked r soft = Some (Err AttributeError).
Proof.
  intros HF HC (_ & _ & L & _ & _ & X3) C Ep. destruct (gvr_upto sn cs old pow ss f asked s r soft HF HC (fun _ => X3)) as (x & Tr & Cy & Ee & H). apply H.
  unfold header_of. rewrite Tr, Cy, C, Ee, Ep. destruct (Z.ltb_spec 1 (Z.of_nat (length (x_vals (bd_e (t_bounds s)))) - 1)); [lia|reflexivity].
Qed.
Print Assumptions C108_centred_cylinder_refuted.
(** and so is a cylinder whose axis points down. *)
Theorem C108_downward_cylinder_refuted sn cs old pow ss f asked (s : tally_text placement) r soft p :
  FileText (get_transformation true) ss f -> Chosen ss asked s -> OneGroup s -> bd_cyl (t_bounds s) = true -> bd_trsf (t_bounds s) = Some p -> ~ up (pl_axis p) ->
  create_gvr sn cs old pow f asked r soft = Some (Err ValueError).
Proof. intros HF HC HO C Ep U. exact (gvr_down sn cs old pow ss f asked s r soft p HF HC HO C Ep U). Qed.
Print Assumptions C108_downward_cylinder_refuted.

(** A tally of several energy groups is refused, and so are a tally the file does not have and a file without tallies. *)
Theorem C108_several_groups_are_refused sn cs old pow ss f asked (s : tally_text placement) r soft :
  FileText (get_transformation true) ss f -> Chosen ss asked s -> 2 < length (x_vals (bd_e (t_bounds s))) -> 2 <= length (bd_x3 (t_bounds s)) ->
  create_gvr sn cs old pow f asked r soft = Some (Err ValueError).
Proof.
  intros HF HC L X3. destruct (gvr_upto sn cs old pow ss f asked s r soft HF HC (fun _ => X3)) as (x & _ & _ & Ee & H). apply H.
  unfold header_of. rewrite Ee. destruct (Z.ltb_spec 1 (Z.of_nat (length (x_vals (bd_e (t_bounds s)))) - 1)); [reflexivity|lia].
Qed.
Print Assumptions C108_several_groups_are_refused.
Theorem C108_no_such_tally sn cs old pow ss f asked r soft : FileText (get_transformation true) ss f ->
  (asked <> 0%Z -> ~ In asked (map t_num ss) -> create_gvr sn cs old pow f asked r soft = Some (Err KeyError))
  /\ (ss = [] -> create_gvr sn cs old pow f 0 r soft = Some (Err IndexError)).
Proof. intros HF. split; [intros Hn Hz; exact (gvr_absent sn cs old pow ss f asked r soft HF Hz Hn)|intros ->; exact (gvr_none sn cs old pow f r soft HF)]. Qed.
Print Assumptions C108_no_such_tally.
(** The softening factor softens the window made without it. *)
Theorem C108_softening sn cs old pow f asked r soft g w : create_gvr sn cs old pow f asked r 1 = Some (Ok (g, w)) ->
  create_gvr sn cs old pow f asked r soft = Some (Ok (g, soften Qops pow w soft)).
Proof. intros H. rewrite gvr_soft, H. reflexivity. Qed.
Print Assumptions C108_softening.

(** ** a file with a rectangular tally 14, a cylindrical tally 24 in one turn, and the same along z around the origin, tally 34 *)
Definition gB (cyl : bool) (p : option placement) (x3 : list Q) : bounds placement :=
  mkBounds cyl p [num "0.00"; num "1.00"; num "2.00"] [num "0.00"; num "1.00"] x3
     (mkBin [num "0.00E+00"; num "1.00E+36"] Erg true) (mkBin [0%Q; inject_Z (10 ^ 20)] Tme false).
Definition eline : str := ln " Energy bin boundaries: 0.00E+00 1.00E+36".
Definition g14 : tally_text placement := mkTT 14 [] (ln " neutron  mesh tally.") [] (gB false None [num "0.00"; num "1.00"])
  [ln "  X direction:  0.00 1.00 2.00"; ln " Y direction:  0.00 1.00"; ln " Z direction: 0.00 1.00"; eline] LCol (ex_col ++ [ln ""]) exV.
Definition cyl_line (z : string) : str := ln (" Cylinder origin at   0.00E+00  0.00E+00 " ++ z ++ ", axis in 0.00E+00 0.00E+00 1.00E+00 direction").
Definition g_pl : placement := mkPl (num "0.00E+00", num "0.00E+00", num "-5.00E+00") identity None (num "0.00E+00", num "0.00E+00", num "1.00E+00").
Definition g_cyl (n : Z) (p : option placement) (l : str) : tally_text placement := mkTT n [] (ln " neutron  mesh tally.") [] (gB true p [num "0.00"; num "1.00"])
  [l; ln "  R direction:  0.00 1.00 2.00"; ln " Z direction:  0.00 1.00"; ln " Theta direction (revolutions): 0.00 1.00"; eline] LCol (ex_col ++ [ln ""]) exV.
Definition g24 := g_cyl 24 (Some g_pl) (cyl_line "-5.00E+00").
Definition g34 := g_cyl 34 None (cyl_line "0.00E+00").
Definition glines (n : string) (s : tally_text placement) : list str :=
  [ln (" Mesh Tally Number" ++ n)] ++ t_comments s ++ [t_part s] ++ t_more s ++ [ln ""; ln " Tally bin boundaries:"] ++ t_btext s ++ [ln " "] ++ t_dtext s.
Definition gfile : file := [ln "mcnp   version 6"; ln ""] ++ glines "        24" g24 ++ glines "        14" g14 ++ glines "        34" g34.
Ltac tally_frame := exists 8, (ln ""), (ln " Tally bin boundaries:"), (ln " ");
    split; [reflexivity|]; split; [cbn; lia|]; split; [apply Forall_nil|];
    split; [not_blank|]; split; [apply has_iff; reflexivity|]; split; [apply Forall_nil|];
    split; [apply blank_iff; reflexivity|]; split; [not_blank|]; split; [all_lines not_blank|]; split; [apply blank_iff; reflexivity|];
    split; [|split; [discriminate|]; split; [discriminate|]; split; [discriminate|];
      split; [all_lines ltac:(intros H; apply mesh_line_iff in H; discriminate H)|]; exists ex_col, [ln ""]; split; [reflexivity|]].
Ltac energy_lines := split; [left; split; [reflexivity|not_in]|];
    split; [exists (s2l " Energy bin boundaries" ++ [":"%char]); split; [bin_line " Energy bin boundaries"%string " 0.00E+00 1.00E+36"%string|apply has_iff; reflexivity]|];
    split; [reflexivity|]; left; split; reflexivity.
Ltac cyl_lines l := exists [l], (ln "  R direction:  0.00 1.00 2.00"), (ln " Z direction:  0.00 1.00"), (ln " Theta direction (revolutions): 0.00 1.00"), [], [], eline,
      (s2l "  R direction" ++ [":"%char]), (s2l " Z direction" ++ [":"%char]), (s2l " Theta direction (revolutions)" ++ [":"%char]), Erg, [num "0.00E+00"; num "1.00E+36"];
    split; [reflexivity|]; split; [exists l; split; [reflexivity|split; [apply has_iff; reflexivity|vm_compute; reflexivity]]|];
    split; [bin_line "  R direction"%string "  0.00 1.00 2.00"%string|]; split; [bin_line " Z direction"%string "  0.00 1.00"%string|];
    split; [bin_line " Theta direction (revolutions)"%string " 0.00 1.00"%string|]; energy_lines.
Example C108_witness_file : FileText (get_transformation true) [g24; g14; g34] gfile.
Proof.
  exists [ln "mcnp   version 6"; ln ""], [glines "        24" g24; glines "        14" g14; glines "        34" g34].
  split; [reflexivity|]. split; [all_lines ltac:(intros H; apply mesh_line_iff in H; discriminate H)|].
  split; [|repeat constructor; cbn; intuition discriminate].
  apply Forall2_cons; [|apply Forall2_cons; [|apply Forall2_cons; [|apply Forall2_nil]]].
  - tally_frame; [cyl_lines (cyl_line "-5.00E+00")|exact C41_witness_column].
  - tally_frame; [|exact C41_witness_column].
    exists [], (nth 0 (t_btext g14) []), (nth 1 (t_btext g14) []), (nth 2 (t_btext g14) []), [], [], eline,
        (s2l "  X direction" ++ [":"%char]), (s2l " Y direction" ++ [":"%char]), (s2l " Z direction" ++ [":"%char]), Erg, [num "0.00E+00"; num "1.00E+36"].
    split; [reflexivity|]. split; [split; [reflexivity|split; [not_in|reflexivity]]|].
    split; [bin_line "  X direction"%string "  0.00 1.00 2.00"%string|]. split; [bin_line " Y direction"%string "  0.00 1.00"%string|].
    split; [bin_line " Z direction"%string " 0.00 1.00"%string|]. energy_lines.
  - tally_frame; [cyl_lines (cyl_line "0.00E+00")|exact C41_witness_column].
Qed.
Example C108_witness : Chosen [g24; g14; g34] 0 g14 /\ Chosen [g24; g14; g34] 24 g24 /\ Chosen [g24; g14; g34] 34 g34
  /\ (forall s, In s [g24; g14; g34] -> OneGroup s /\ SomeFlux s) /\ Placed g14 /\ Placed g24 /\ ~ (v1 (pl_origin g_pl) == v3 (pl_origin g_pl))%Q.
Proof.
  split; [|split; [|split; [|split; [|split; [|split]]]]].
  - split; [right; left; reflexivity|]. split; [discriminate|]. right. split; [reflexivity|]. intros s' [<-|[<-|[<-|[]]]]; cbn; lia.
  - split; [left; reflexivity|]. split; [discriminate|]. left. reflexivity.
  - split; [right; right; left; reflexivity|]. split; [discriminate|]. left. reflexivity.
  - intros s [<-|[<-|[<-|[]]]]; (split; [split; [discriminate|]; split; [discriminate|]; repeat split; apply Nat.leb_le; reflexivity|]); (split;
      [intros k j i _ _ _; unfold flux; cbn [g24 g14 g34 g_cyl t_values]; unfold exV; destruct (i =? 0); vm_compute; discriminate
      |exists 0, 0, 0; split; [apply Nat.ltb_lt; reflexivity|]; split; [apply Nat.ltb_lt; reflexivity|]; split; [apply Nat.ltb_lt; reflexivity|]; vm_compute; reflexivity]).
  - discriminate.
  - intros _. exists g_pl. split; [reflexivity|]. vm_compute. intros (_ & _ & H). apply H. reflexivity.
  - vm_compute. discriminate.
Qed.
(* the flux 1.5, 2.5 becomes 0.2, 1/3 for the splitting ratio 5 *)
Example C108_computed : match create_gvr sn0 cs0 (fun _ _ _ _ _ _ => Err OtherError) qpow_int gfile 24 5 1 with
  | Some (Ok (g, w)) => (map (fun pb => map (fun ea => map Qred (flatten3 (snd ea))) (snd pb)) (vals w), ge w, map Qred (geo_org g), fst (geo_k g))
                        = ([[[1 # 5; 1 # 3; 1 # 5; 1 # 3]]]%Q, Cylindrical 10, [-5; 0; 0]%Q, [num "0.00"; 1 # 2; num "1.00"]%Q)
  | _ => False
  end.
Proof. vm_compute. reflexivity. Qed.

(** A cylindrical tally gives a window drawn on a cylindrical grid, whose single angular interval is drawn as twenty, two as ten each. *)
Theorem C108_cylinder_drawn sn cs old pow ss f asked (s : tally_text placement) r :
  FileText (get_transformation true) ss f -> Chosen ss asked s -> OneGroup s -> SomeFlux s -> Placed s -> (-1 < r)%Q ->
  exists g w, create_gvr sn cs old pow f asked r 1 = Some (Ok (g, w)) /\
    (geo_dirs g = None -> ge w = Cartesian) /\
    (geo_dirs g <> None -> exists m, ge w = Cylindrical m /\ (length (fst (geo_k g)) = 2 -> m = 20) /\ (length (fst (geo_k g)) = 3 -> m = 10) /\ (3 < length (fst (geo_k g)) -> m = 1)).
Proof.
  intros HF HC HO HS HP Hr. destruct (gvr_main sn cs old pow ss f asked s r HF HC HO HS HP Hr) as (gi & gj & gk & w & x3 & sl & m & vi & vj & vk & E & H).
  eexists _, w. split; [exact E|]. repeat apply proj2 in H. rewrite H. unfold drawn. cbn [geo_dirs geo_k]. destruct (dirs_of s) as [d|]; [|split; [reflexivity|congruence]].
  split; [discriminate|]. intros _. eexists. split; [reflexivity|]. destruct (Nat.eqb_spec (length (fst gk) - 1) 1), (Nat.eqb_spec (length (fst gk) - 1) 2); repeat split; lia.
Qed.
Print Assumptions C108_cylinder_drawn.
