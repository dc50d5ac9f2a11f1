(** C54 and C55: cell-under-voxel meshes and CDGS sources *)
From Coq Require Import Lia ZArith Qfield.
From Verif Require Import PyBase PyStr PyText DataModel MeshModel MeshSpec MeshCuvModel MeshCuvSpec MeshProofs MeshCuvProofs MeshCuvProofs2 MeshCdgsProofs.
Open Scope nat_scope.

(** ** C54 *)
(** Every voxel of a CUV mesh holds, for every energy bin, the total in the voxel (norm "ctot") or the
    average over the cells of the filter ("celf"), and the relative error of the sum. *)
Theorem C54_every_voxel_holds_the_weighted_value tot ne total filt nz ny nx vox ls rest : CuvText tot ne nz ny nx vox ls ->
  (forall k j i, k < nz -> j < ny -> i < nx -> vx_cells (vox k j i) <> [] /\ Regular filt (vox k j i)) ->
  exists a, cuv_data (Some total) filt ne nz ny nx (ls ++ rest) = Ok a
    /\ forall e k j i, e < ne -> k < nz -> j < ny -> i < nx -> exists v er, a 0 e k j i = Some (v, er)
        /\ (v == value_of total filt (vox k j i) e)%Q
        /\ (~ wsum (fun c => vc_val c e) (chosen filt (vox k j i)) == 0 -> ~ filled filt (vox k j i) == 0 -> er == error_of filt (vox k j i) e)%Q.
Proof. apply cuv_ok. Qed.
Print Assumptions C54_every_voxel_holds_the_weighted_value.

(** readMesh() without [norm] refuses every CUV mesh that has a voxel, although [norm] is optional. *)
Theorem C54_no_norm_refuted tot ne nz ny nx vox ls rest : CuvText tot ne nz ny nx vox ls ->
  nx <> 0 -> ny <> 0 -> nz <> 0 -> vx_cells (vox 0 0 0) <> [] ->
  cuv_data None None ne nz ny nx (ls ++ rest) = Err ValueError.
Proof. apply no_norm. Qed.
Print Assumptions C54_no_norm_refuted.

(** The totals a cell line carries are dropped: a mesh with m >= 2 energy bins and their total
    (so the energy axis has m + 1 entries) is refused. *)
Theorem C54_totals_refuted m total filt nz ny nx vox ls rest : CuvText true m nz ny nx vox ls ->
  nx <> 0 -> ny <> 0 -> nz <> 0 -> vx_cells (vox 0 0 0) <> [] -> 2 <= m ->
  cuv_data (Some total) filt (S m) nz ny nx (ls ++ rest) = Err ValueError.
Proof. intros. eapply wrong_length; try eassumption; lia. Qed.
Print Assumptions C54_totals_refuted.

(** A cell alone in its voxel and chosen by the filter: the value of the cell is divided by the fraction
    it fills (but for the other voxels the values were first weighted by it). *)
Theorem C54_lone_cell_refuted tot ne l c vol ls r : VoxelText tot ne (mkVox vol [c]) ls -> In (vc_num c) l -> (~ vc_frac c == 0)%Q ->
  exists v e, cuv_element (Some false) (Some l) (ls ++ r) = Ok ((v, e), r)
    /\ length v = ne /\ forall k, k < ne -> exists q, nth_error v k = Some q /\ (q == vc_val c k / vc_frac c)%Q.
Proof. apply lone_cell. Qed.
Print Assumptions C54_lone_cell_refuted.

(** a 1 x 1 x 2 mesh: cells 10 and 20 share the first voxel, cell 20 fills the second *)
Definition nm (s : string) : Q := match parse_float (s2l s) with Ok q => q | _ => 0%Q end.
Definition seqv (a b : string) : nat -> Q := fun e => if e =? 0 then nm a else nm b.
Definition cA := mkVC 10 (nm "0.25") (seqv "4.0" "8.0") (seqv "0.1" "0.2").
Definition cB := mkVC 20 (nm "0.75") (seqv "2.0" "1.0") (seqv "0.3" "0.4").
Definition cF := mkVC 20 (nm "1.0") (seqv "5.0" "6.0") (seqv "0.05" "0.06").
Definition ex_vox : nat -> nat -> nat -> voxel := fun k _ _ => if k =? 0 then mkVox (nm "3.0") [cA; cB] else mkVox (nm "3.0") [cF].
Definition v0_lines := map s2l ["1 0.5 0.5 0.5 3.0 2"; "10 0.25"; "20 0.75"; "4.0 8.0"; "0.1 0.2"; "2.0 1.0"; "0.3 0.4"]%string.
Definition v1_lines := map s2l ["2 0.5 0.5 1.5 3.0 1"; "20 1.0"; "5.0 6.0"; "0.05 0.06"]%string.
Definition cuv_lines := s2l " Energy 1 2 Total" :: v0_lines ++ v1_lines.
Ltac each1 l := exists l; split; [reflexivity|split; [reflexivity|]];
  let i := fresh in let p := fresh in let H := fresh in intros i p H;
  repeat (destruct i as [|i]; [cbn [nth_error] in H; injection H as <-|cbn [nth_error] in H]);
  try (destruct i; discriminate H).
Ltac head_ok := do 3 eexists; split; [vm_compute; reflexivity|split; [eexists; split; [vm_compute; reflexivity|reflexivity]|split; [vm_compute; reflexivity|reflexivity]]].
Ltac nums_ok := split; [vm_compute; reflexivity|]; let c := fresh in let w := fresh in let H := fresh in intros c w H; vm_compute in H;
  repeat (destruct c as [|c]; [injection H as <-; vm_compute; reflexivity|]); destruct c; discriminate H.
Ltac vals_ok := do 2 eexists; split; [reflexivity|split; nums_ok].
Example C54_witness : CuvText false 2 2 1 1 ex_vox cuv_lines
  /\ (forall k j i, k < 2 -> j < 1 -> i < 1 -> vx_cells (ex_vox k j i) <> [] /\ Regular (Some [20%Z]) (ex_vox k j i) /\ Regular None (ex_vox k j i))
  /\ ~ (value_of false (Some [20%Z]) (ex_vox 0 0 0) 0 == value_of false None (ex_vox 0 0 0) 0)%Q.
Proof.
  split; [|split].
  - exists [s2l " Energy 1 2 Total"], (v0_lines ++ v1_lines). split; [reflexivity|split; [reflexivity|]].
    each1 [v0_lines ++ v1_lines]. each1 [v0_lines ++ v1_lines]. each1 [v0_lines; v1_lines].
    + exists (nth 0 v0_lines []), (firstn 2 (tl v0_lines)), [firstn 2 (skipn 3 v0_lines); skipn 5 v0_lines].
      split; [reflexivity|]. split; [|split].
      * do 7 eexists. split; [vm_compute; reflexivity|]. split; [vm_compute; reflexivity|]. eexists. split; [vm_compute; reflexivity|reflexivity].
      * repeat apply Forall2_cons; try apply Forall2_nil; head_ok.
      * repeat apply Forall2_cons; try apply Forall2_nil; vals_ok.
    + exists (nth 0 v1_lines []), (firstn 1 (tl v1_lines)), [skipn 2 v1_lines].
      split; [reflexivity|]. split; [|split].
      * do 7 eexists. split; [vm_compute; reflexivity|]. split; [vm_compute; reflexivity|]. eexists. split; [vm_compute; reflexivity|reflexivity].
      * repeat apply Forall2_cons; try apply Forall2_nil; head_ok.
      * repeat apply Forall2_cons; try apply Forall2_nil; vals_ok.
  - intros k j i Hk Hj Hi. destruct k as [|[|k]]; [| |lia]; (split; [discriminate|split; [|]]; vm_compute; auto).
  - vm_compute. discriminate.
Qed.

(** ** C55 *)
(** The voxels of a CDGS source are put where their number says, with the intensity of their cells weighted
    by the fractions; voxels that are not listed have none. *)
Theorem C55_every_listed_voxel_is_placed_by_its_number skip n nz ny nx src hdr ls : n <> 0 -> length hdr = skip ->
  SrcText n src ls -> Listed 0 (nx * ny * nz) src -> (forall i v, In (i, v) src -> Fills v /\ LoneFull v) ->
  exists a, cdgs_data skip (axis n) nz ny nx (hdr ++ ls) = Some (Ok a)
    /\ forall e k j i, e < axis n -> k < nz -> j < ny -> i < nx -> exists v er, a 0 e k j i = Some (v, er)
        /\ (v == intensity ((i * ny + j) * nz + k) src e)%Q
        /\ (~ intensity ((i * ny + j) * nz + k) src e == 0 -> er == src_error ((i * ny + j) * nz + k) src e)%Q.
Proof. apply cdgs_mesh_ok. Qed.
Print Assumptions C55_every_listed_voxel_is_placed_by_its_number.

(** A first voxel whose cells fill none of it stops the reading with a ValueError. *)
Theorem C55_empty_voxel_refuted skip ne nz ny nx hdr i v ls rest : length hdr = skip -> nx * ny * nz <> 0 ->
  SrcVoxel (if ne =? 1 then ne else ne - 1) (i, v) ls -> ~ Fills v ->
  cdgs_data skip ne nz ny nx (hdr ++ ls ++ rest) = Some (Err ValueError).
Proof.
  intros Hh Hn Hv Hf. unfold cdgs_data. rewrite (skip_app hdr _ skip Hh). destruct (nx * ny * nz) as [|m]; [contradiction|].
  cbn [seq cdgs_loop]. rewrite (element_form _ i v ls rest Hv).
  destruct (Qeq_bool (qsum (map (fun c : vcell => vc_frac c) (vx_cells v))) 0) eqn:E; [reflexivity|].
  exfalso. apply Hf. intros H. apply Qeq_bool_neq in E. apply E. rewrite sum_fracs. exact H.
Qed.
Print Assumptions C55_empty_voxel_refuted.

(** A cell alone in its voxel is not weighted by the fraction it fills, unlike the cells of the others. *)
Theorem C55_lone_cell_refuted n i vol c ls rest : SrcVoxel n (i, mkVox vol [c]) ls -> (~ vc_frac c == 0)%Q ->
  exists v e, cdgs_element n (ls ++ rest) = Some (Ok (Some (Z.of_nat (S i), (v, e)), rest))
    /\ length v = axis n /\ forall k, k < axis n -> nth_error v k = Some (vc_val c k).
Proof.
  intros Hv Hf. rewrite (element_form n i _ ls rest Hv). cbn [vx_cells map length Nat.ltb Nat.leb bind].
  destruct (Qeq_bool (qsum [vc_frac c]) 0) eqn:E.
  - apply Qeq_bool_eq in E. unfold qsum in E. cbn [fold_right] in E. rewrite Qplus_0_r in E. contradiction.
  - do 2 eexists. split; [reflexivity|]. split; [apply row_len|]. intros k Hk. unfold row.
    rewrite nth_error_map, (nth_error_nth' (seq 0 (axis n)) 0) by (rewrite seq_length; exact Hk). rewrite seq_nth by exact Hk. reflexivity.
Qed.
Print Assumptions C55_lone_cell_refuted.

(** a source on a 2 x 1 x 2 mesh, three energy bins, with voxels 2 and 4 listed *)
Definition sv (l : list string) : nat -> Q := fun e => nth e (map nm l) 0%Q.
Definition s1 := mkVC 10 (nm "0.25") (sv ["1.0"; "2.0"; "4.0"; "9.0"]%string) (sv ["0.1"; "0.1"; "0.1"; "0.05"]%string).
Definition s2 := mkVC 20 (nm "0.75") (sv ["3.0"; "0.0"; "1.0"; "4.0"]%string) (sv ["0.2"; "0.0"; "0.1"; "0.15"]%string).
Definition s3 := mkVC 20 (nm "1.0") (sv ["5.0"; "6.0"; "7.0"; "18.0"]%string) (sv ["0.2"; "0.2"; "0.2"; "0.07"]%string).
Definition ex_src : list (nat * voxel) := [(1, mkVox (nm "8.0") [s1; s2]); (3, mkVox (nm "8.0") [s3])].
Definition sv1 := map s2l ["2 0.5 0.5 1.5 8.0 2"; "10 0.25 9.0 0.05"; "1.0 2.0"; "4.0"; "0.1 0.1 0.1"; "20 0.75 4.0 0.15"; "3.0 0.0 1.0"; "0.2"; "0.0 0.1"]%string.
Definition sv3 := map s2l ["4 1.5 0.5 1.5 8.0 1"; "20 1.0 18.0 0.07"; "5.0 6.0 7.0"; "0.2 0.2 0.2"]%string.
Definition src_lines := sv1 ++ sv3 ++ map s2l ["end_source_data"; ""]%string.
Ltac wrapped := eexists; split; [reflexivity|]; split; [vm_compute; reflexivity|]; split; [right; vm_compute; discriminate|];
  let c := fresh in let w := fresh in let H := fresh in intros c w H; vm_compute in H;
  repeat (destruct c as [|c]; [injection H as <-; vm_compute; reflexivity|]); destruct c; discriminate H.
Ltac src_cell h lv le := exists h; do 3 eexists; exists lv, le; split; [reflexivity|]; split; [vm_compute; reflexivity|];
  split; [eexists; split; [vm_compute; reflexivity|reflexivity]|]; split; [vm_compute; reflexivity|];
  split; [vm_compute; split; reflexivity|]; split; wrapped.
Example C55_witness : SrcText 3 ex_src src_lines /\ Listed 0 (2 * 1 * 2) ex_src /\ (forall i v, In (i, v) ex_src -> Fills v /\ LoneFull v)
  /\ (intensity 1 ex_src 3 == 21 # 4)%Q /\ intensity 2 ex_src 0 = 0%Q.
Proof.
  split; [|split; [|split; [|split]]].
  - exists [sv1; sv3], (s2l "end_source_data"), [], [[]]. split; [reflexivity|]. split; [reflexivity|].
    apply Forall2_cons; [|apply Forall2_cons; [|apply Forall2_nil]].
    + exists (nth 0 sv1 []), [s2l "0.5"; s2l "0.5"; s2l "1.5"], (s2l "2"), (s2l "8.0"), (s2l "2"), [firstn 4 (tl sv1); skipn 5 sv1].
      split; [reflexivity|]. split; [vm_compute; reflexivity|]. split; [eexists; split; [vm_compute; reflexivity|reflexivity]|].
      split; [vm_compute; reflexivity|]. split; [eexists; split; [vm_compute; reflexivity|reflexivity]|].
      apply Forall2_cons; [|apply Forall2_cons; [|apply Forall2_nil]].
      * src_cell (nth 1 sv1 []) (firstn 2 (skipn 2 sv1)) (firstn 1 (skipn 4 sv1)).
      * src_cell (nth 5 sv1 []) (firstn 1 (skipn 6 sv1)) (firstn 2 (skipn 7 sv1)).
    + exists (nth 0 sv3 []), [s2l "1.5"; s2l "0.5"; s2l "1.5"], (s2l "4"), (s2l "8.0"), (s2l "1"), [tl sv3].
      split; [reflexivity|]. split; [vm_compute; reflexivity|]. split; [eexists; split; [vm_compute; reflexivity|reflexivity]|].
      split; [vm_compute; reflexivity|]. split; [eexists; split; [vm_compute; reflexivity|reflexivity]|].
      apply Forall2_cons; [|apply Forall2_nil].
      src_cell (nth 1 sv3 []) (firstn 1 (skipn 2 sv3)) (firstn 1 (skipn 3 sv3)).
  - cbn. lia.
  - intros i v [E|[E|[]]]; injection E as <- <-; (split; [intros H; vm_compute in H; discriminate H|vm_compute; reflexivity || exact I]).
  - vm_compute. reflexivity.
  - reflexivity.
Qed.

(** The same voxels in another order: the second is dropped without a word. *)
Example C55_order_refuted : exists a, cdgs_data 0 4 2 1 2 (sv3 ++ sv1 ++ [s2l "end_source_data"]) = Some (Ok a)
  /\ (exists e, a 0 3 1 0 1 = Some (nm "18.0", e)) /\ a 0 3 1 0 0 = Some (0, 0)%Q.
Proof. eexists. split; [vm_compute; reflexivity|]. split; [eexists|]; vm_compute; reflexivity. Qed.
