(** Volume sampling errors of CUV files (C43) *)
From Coq Require Import Lia ZArith QArith Reals Lra Qreals.
From Verif Require Import PyBase PyLemmas PyStr PyStrLemmas MeshModel MeshSpec MeshProofs CuvErrModel CuvErrSpec CuvErrProofs.
Open Scope nat_scope.

(** ** C43: sampling errors *)
Section C43.
  Context (root : Q -> Q).

  (** Every voxel printed after the first line that mentions INDEX is returned under its number minus 1, with
      one error per cell, computed from the fraction printed for that cell; nothing else is returned.  When a number
      is printed twice the last one counts. *)
  Theorem C43_every_voxel_is_read points pre vs ls rest : (0 < points)%Z -> Preamble pre -> PVoxels vs ls -> Stops rest -> Forall Fractions vs ->
    exists d, volume_errors root points (pre ++ ls ++ rest) = Ok d /\
      forall i, match last_with pv_index (i + 1) vs with
                | None => dget Z.eqb i d = None
                | Some v => exists cs, dget Z.eqb i d = Some cs /\
                    forall c, dget Z.eqb c cs = option_map (fun cq => Real (error_value root points (snd cq))) (last_with fst c (pv_cells v))
                end.
  Proof.
    intros Hp Hpre Hv Hs Hf. eexists. split; [apply (volume_ok root points pre vs ls rest Hp Hpre Hv); [apply stops; exact Hs|exact Hf]|].
    intros i. rewrite all_voxels_get. destruct (last_with pv_index (i + 1) vs) as [v|]; [|reflexivity].
    eexists. split; [reflexivity|]. apply dict_of_get.
  Qed.

  (** A file without voxels gives no errors. *)
  Theorem C43_no_voxels points f : Forall (fun x => ~ mentions "INDEX" x) f -> volume_errors root points f = Ok [].
  Proof. induction 1 as [|l f Hl _ IH]; [reflexivity|]. cbn [volume_errors]. rewrite (has_not "INDEX" l Hl). exact IH. Qed.

  (** Not every damaged file is noticed: a file that ends inside the cell lines of a voxel is read as if that voxel
      had not been printed at all. *)
  Theorem C43_truncated_voxel_refuted points pre vs ls v h cs : (0 < points)%Z -> Preamble pre -> PVoxels vs ls -> Forall Fractions vs ->
    HeadLine v h -> Fractions v -> length cs < length (pv_cells v) -> Forall2 CellLine (firstn (length cs) (pv_cells v)) cs ->
    volume_errors root points (pre ++ ls ++ h :: cs) = volume_errors root points (pre ++ ls).
  Proof.
    intros Hp Hpre Hv Hf Hh Hfv Hl Hcs.
    assert (R : read_voxel root points (h :: cs) = Err IndexError).
    { rewrite (read_head root points v h Hh).
      assert (G : forall (qs : list (Z * Q)) cs, Forall (fun c => Fraction (snd c)) qs -> length cs < length qs -> Forall2 CellLine (firstn (length cs) qs) cs ->
                  loop (length qs) (read_cell root points) cs = Err IndexError).
      { induction qs as [|q qs IH]; intros cs0 Hfr Hlen H; [cbn in Hlen; lia|]. cbn [length loop].
        destruct cs0 as [|c cs0]; [reflexivity|]. cbn [length firstn] in H. inversion H; subst. inversion Hfr; subst.
        rewrite (read_cell_ok root points q) by assumption. cbn [bind]. rewrite IH; [reflexivity|assumption|cbn [length] in Hlen; lia|assumption]. }
      rewrite G by assumption. reflexivity. }
    rewrite (volume_ok root points pre vs ls (h :: cs) Hp Hpre Hv R Hf).
    rewrite <- (app_nil_r ls) at 1. rewrite (volume_ok root points pre vs ls [] Hp Hpre Hv eq_refl Hf). reflexivity.
  Qed.

  (** The text after the first mesh has to be separated by an empty line: otherwise its first word is taken for the
      number of a voxel. *)
  Theorem C43_following_text_refuted points pre vs ls l w ws rest : (0 < points)%Z -> Preamble pre -> PVoxels vs ls -> Forall Fractions vs ->
    split l = w :: ws -> parse_int w = Err ValueError -> volume_errors root points (pre ++ ls ++ l :: rest) = Err ValueError.
  Proof.
    intros Hp Hpre (ts & -> & Ht) Hf Hs Hw. rewrite (find_index root points pre _ Hpre).
    assert (G : forall vs ts d fuel, Forall2 PVoxelText vs ts -> Forall Fractions vs -> length (concat ts) < fuel ->
      read_cuv_data root fuel points d (concat ts ++ l :: rest) = Err ValueError).
    { induction vs0 as [|v vs0 IH]; intros ts0 d fuel H Hf0 Hlen; inversion H; subst.
      - destruct fuel; [lia|]. cbn [concat app read_cuv_data]. unfold read_voxel. cbn [readline hd tl]. rewrite Hs, Hw. reflexivity.
      - inversion Hf0; subst. destruct fuel; [lia|]. cbn [concat read_cuv_data] in *. rewrite <- app_assoc.
        rewrite (read_voxel_ok root points v) by assumption. apply IH; [assumption..|].
        rewrite app_length in Hlen. pose proof (voxel_nonempty v y ltac:(assumption)). lia. }
    apply (G vs ts); [assumption..|]. rewrite app_length. cbn [length]. lia.
  Qed.

  (** A cell of zero volume stops the reading of the whole file. *)
  Theorem C43_zero_fraction points q : (q == 0)%Q -> sampling_error root q points = Err ZeroDivisionError.
  Proof. intros H. unfold sampling_error. destruct (Z.eqb points 0); [reflexivity|]. apply Qeq_bool_iff in H. rewrite H. reflexivity. Qed.

  (** The error of a cell is the relative standard deviation of the estimate of its volume from the number of sampled
      points that fall in it. *)
  Theorem C43_error_is_the_relative_deviation points q : (0 < points)%Z -> Fraction q ->
    exists x, sampling_error root q points = Ok (Real (root x / q)%Q) /\ (0 <= x)%Q
      /\ (sqrt (Q2R x) / Q2R q)%R = relative_deviation (Q2R q) (IZR points).
  Proof.
    intros Hp Hq. exists ((q - q * q) / inject_Z points)%Q. split; [exact (sampling_ok root q points Hq Hp)|].
    split; [exact (nonneg_x q points Hq Hp)|].
    assert (Hi : (~ inject_Z points == 0)%Q). { intros C. unfold Qeq, inject_Z in C. cbn in C. lia. }
    rewrite Q2R_div, Q2R_minus, Q2R_mult by exact Hi.
    assert (E : Q2R (inject_Z points) = IZR points) by (unfold Q2R, inject_Z; cbn; field). rewrite E.
    apply formula_R; [|apply IZR_lt; exact Hp]. destruct Hq as [H _]. apply Qlt_Rlt in H. rewrite RMicromega.Q2R_0 in H. exact H.
  Qed.

  (** The array added to a grid has one number per grid cell: for the cell number n the largest of the errors of the
      (last) voxel printed under number n+1, and 0 when there is no such voxel or it has no cells. *)
  Theorem C43_grid_shows_the_largest_error n points pre vs ls rest : (0 < points)%Z -> Preamble pre -> PVoxels vs ls -> Stops rest -> Forall Fractions vs ->
    exists a, add_sampling_error root n points (pre ++ ls ++ rest) = Ok a /\ length a = n /\
      forall i, i < n -> exists e, nth_error a i = Some e /\
        match last_with pv_index (Z.of_nat i + 1) vs with
        | None => e = 0%Q
        | Some v => (pv_cells v = [] /\ e = 0%Q)
                    \/ ((exists c cq, last_with fst c (pv_cells v) = Some cq /\ e = error_value root points (snd cq))
                        /\ forall c cq, last_with fst c (pv_cells v) = Some cq -> (error_value root points (snd cq) <= e)%Q)
        end.
  Proof.
    intros Hp Hpre Hv Hs Hf. unfold add_sampling_error. rewrite (volume_ok root points pre vs ls rest Hp Hpre Hv (stops root points rest Hs) Hf). cbn [bind].
    assert (G : forall m k, exists a, mapM (cell_error (all_voxels root points vs)) (seq k m) = Ok a /\ length a = m /\
      forall i, i < m -> exists e, nth_error a i = Some e /\ cell_error (all_voxels root points vs) (k + i) = Ok e).
    { induction m as [|m IH]; intros k; [exists []; repeat split; intros i Hi; lia|]. cbn [seq mapM].
      destruct (cell_error_ok root points vs k) as (e & E & _). rewrite E. cbn [bind].
      destruct (IH (S k)) as (a & Ea & La & Ha). rewrite Ea. cbn [bind]. exists (e :: a). split; [reflexivity|]. split; [cbn; lia|].
      intros [|i] Hi; [exists e; rewrite Nat.add_0_r; auto|]. cbn [nth_error]. destruct (Ha i) as (e' & E1 & E2); [lia|]. exists e'. split; [exact E1|].
      rewrite <- E2. f_equal. lia. }
    destruct (G n 0) as (a & Ea & La & Ha). exists a. split; [exact Ea|]. split; [exact La|]. intros i Hi.
    destruct (Ha i Hi) as (e & E1 & E2). exists e. split; [exact E1|].
    destruct (cell_error_ok root points vs i) as (e' & E3 & Hm). cbn [Nat.add] in E2. rewrite E2 in E3. injection E3 as <-. exact Hm.
  Qed.
End C43.
Print Assumptions C43_every_voxel_is_read.
Print Assumptions C43_no_voxels.
Print Assumptions C43_truncated_voxel_refuted.
Print Assumptions C43_following_text_refuted.
Print Assumptions C43_zero_fraction.
Print Assumptions C43_error_is_the_relative_deviation.
Print Assumptions C43_grid_shows_the_largest_error.

(** For a mesh whose voxels are all printed, [vox i j k] being the cells of voxel (i, j, k): the grid cell at (i, j, k)
    shows the largest error of the voxel (i', j', k') that is printed under the number of that grid cell. *)
Theorem C43_cell_shows_the_voxel_of_its_number root nx ny nz (vox : nat -> nat -> nat -> list (Z * Q)) points pre vs ls rest : (0 < points)%Z ->
  Preamble pre -> PVoxels vs ls -> Stops rest -> Forall Fractions vs ->
  (forall i j k, i < nx -> j < ny -> k < nz -> last_with pv_index (Z.of_nat (printed ny nz i j k) + 1) vs
                 = Some (mkPV (Z.of_nat (printed ny nz i j k) + 1) (vox i j k))) ->
  exists a, add_sampling_error root (nx * ny * nz) points (pre ++ ls ++ rest) = Ok a /\
    forall i j k i' j' k', i < nx -> j < ny -> k < nz -> i' < nx -> j' < ny -> k' < nz -> vtk_cell nx ny i j k = printed ny nz i' j' k' ->
    vox i' j' k' <> [] ->
    exists e, nth_error a (vtk_cell nx ny i j k) = Some e
      /\ (exists c cq, last_with fst c (vox i' j' k') = Some cq /\ e = error_value root points (snd cq))
      /\ forall c cq, last_with fst c (vox i' j' k') = Some cq -> (error_value root points (snd cq) <= e)%Q.
Proof.
  intros Hp Hpre Hv Hs Hf Hall.
  destruct (C43_grid_shows_the_largest_error root (nx * ny * nz) points pre vs ls rest Hp Hpre Hv Hs Hf) as (a & Ea & _ & Ha).
  exists a. split; [exact Ea|]. intros i j k i' j' k' Hi Hj Hk Hi' Hj' Hk' E Hne.
  destruct (Ha (vtk_cell nx ny i j k)) as (e & E1 & E2). { unfold vtk_cell. assert (j + ny * k + 1 <= ny * nz) by nia. nia. }
  exists e. split; [exact E1|]. rewrite E, (Hall i' j' k' Hi' Hj' Hk') in E2. cbn [pv_cells] in E2.
  destruct E2 as [[C _]|E2]; [destruct (Hne C)|exact E2].
Qed.
Print Assumptions C43_cell_shows_the_voxel_of_its_number.

(** Among the cells of a voxel the smallest one has the largest deviation. *)
Theorem C43_smallest_cell_is_worst p q n : (0 < p)%R -> (p <= q)%R -> (q <= 1)%R -> (0 < n)%R -> (relative_deviation q n <= relative_deviation p n)%R.
Proof. apply deviation_decreases. Qed.
Print Assumptions C43_smallest_cell_is_worst.

(** The voxels of a file are numbered with the last coordinate running fastest, the cells of a grid with the first one.
    So grid cell and voxel of the same number are the same place for meshes along a single axis ... *)
Theorem C43_grid_cell_is_the_voxel nx ny nz i j k : i < nx -> j < ny -> k < nz ->
  (nx = 1 /\ ny = 1) \/ (nx = 1 /\ nz = 1) \/ (ny = 1 /\ nz = 1) -> vtk_cell nx ny i j k = printed ny nz i j k.
Proof. unfold vtk_cell, printed. intros Hi Hj Hk [[-> ->]|[[-> ->]|[-> ->]]]; nia. Qed.
Print Assumptions C43_grid_cell_is_the_voxel.
(** ... and for no other mesh: the cell next to the origin cell along the first long axis gets the number of another voxel. *)
Theorem C43_grid_order_refuted nx ny nz : 1 <= nx -> 1 <= ny -> 1 <= nz ->
  ~ ((nx = 1 /\ ny = 1) \/ (nx = 1 /\ nz = 1) \/ (ny = 1 /\ nz = 1)) ->
  exists i j k, i < nx /\ j < ny /\ k < nz /\ vtk_cell nx ny i j k <> printed ny nz i j k.
Proof.
  unfold vtk_cell, printed. intros Hx Hy Hz H.
  destruct (Nat.eq_dec nx 1) as [->|Nx].
  - exists 0, 1, 0. repeat split; nia.
  - exists 1, 0, 0. repeat split; nia.
Qed.
Print Assumptions C43_grid_order_refuted.

(** A file with two voxels, of two cells and of one cell; the second has index 3 *)
Definition c43_file : file := map s2l ["Mesh tally"; "  INDEX  X Y Z Volume ncel"; " 1 0.0 0.0 0.0 2.5E+02 2"; "  1 0.25"; " 10 0.75"; " 1"; " 2"; " 3"; " 4";
  " 3 0.0 0.0 0.0 2.5E+02 1"; " 7 1.00000"; " 5"; " 6"]%string.
Example C43_witness : exists pre vs ls, Preamble pre /\ PVoxels vs ls /\ Forall Fractions vs /\ c43_file = pre ++ ls ++ []
  /\ map pv_index vs = [1; 3]%Z /\ map (fun v => map fst (pv_cells v)) vs = [[1; 10]; [7]]%Z /\
  exists a, add_sampling_error (fun x => x) 4 10 c43_file = Ok a /\ map Qreduction.Qred a = [3 # 40; 0; 0; 0]%Q.
Proof.
  exists (firstn 2 c43_file), [mkPV 1 [(1%Z, 25 # 100); (10%Z, 75 # 100)]; mkPV 3 [(7%Z, 100000 # 100000)]]%Q, (skipn 2 c43_file).
  split; [|split; [|split; [|split; [|split; [|split]]]]]; [| | |reflexivity..|].
  - exists (firstn 1 c43_file), (s2l "  INDEX  X Y Z Volume ncel"). split; [reflexivity|]. split.
    + apply has_iff. reflexivity.
    + repeat constructor. intros C. apply has_iff in C. discriminate C.
  - exists [firstn 7 (skipn 2 c43_file); skipn 9 c43_file]. split; [reflexivity|]. constructor; [|constructor; [|constructor]].
    + exists (nth 2 c43_file []), (firstn 2 (skipn 3 c43_file)), (firstn 4 (skipn 5 c43_file)). split; [reflexivity|].
      split; [do 7 eexists; split; [vm_compute; reflexivity|split; vm_compute; reflexivity]|split; [|reflexivity]].
      repeat constructor; do 3 eexists; (split; [vm_compute; reflexivity|split; vm_compute; reflexivity]).
    + exists (nth 9 c43_file []), (firstn 1 (skipn 10 c43_file)), (skipn 11 c43_file). split; [reflexivity|].
      split; [do 7 eexists; split; [vm_compute; reflexivity|split; vm_compute; reflexivity]|split; [|reflexivity]].
      repeat constructor; do 3 eexists; (split; [vm_compute; reflexivity|split; vm_compute; reflexivity]).
  - repeat constructor; cbn; discriminate.
  - eexists. split; vm_compute; reflexivity.
Qed.
