(** Property C135: from the text of a meshtal file to the grids of its tallies, those of a part of the bins, and their export. *)
From Coq Require Import Lia ZArith Lqa.
From Verif Require Import PyBase PyStr PyText DataModel MeshModel MeshSpec MeshProps FmeshModel FmeshSpec FmeshProps TrsfModel GvrModel GvrSpec GvrProofs GvrProps MeshAllSpec MeshAllProofs.
Open Scope nat_scope.

(** For every file with the text of some tallies, all of which are read, every tally (a cylindrical one needs an angular interval) has
    its mesh and grid. *)
Theorem C135_grid_is_made sn cs old ss f (s : tally_text placement) : FileText (get_transformation true) ss f -> In s ss ->
  (bd_cyl (t_bounds s) = true -> 2 <= length (bd_x3 (t_bounds s))) -> exists x, Made sn cs old f s x.
Proof. intros HF Hs. exact (made_one sn cs old ss f s HF Hs). Qed.
Print Assumptions C135_grid_is_made.
(** The grid has two arrays for every time and energy of the tally and no others. They list the values and errors which the text of the
    file has for that time and energy, the first coordinate running fastest: those of voxel (k, j, i) are at place (k * ny + j) * nx + i.
    (A full turn in one interval is cut in two, which both show the values of the whole.)  The points of the grid are the corners of
    the voxels given in the file, placed by the origin, the axes and the transformation given there. *)
Theorem C135_grid_shows_the_file sn cs old ss f (s : tally_text placement) x : FileText (get_transformation true) ss f -> In s ss -> Made sn cs old f s x ->
  exists sl, Slices (bd_cyl (t_bounds s)) (bd_x3 (t_bounds s)) (md_x3 (f_mesh x)) sl
    /\ GridShows (f_grid x) (bins_of (bd_t (t_bounds s))) (bins_of (bd_e (t_bounds s))) (intervals (md_x3 (f_mesh x))) (intervals (bd_x2 (t_bounds s))) (intervals (bd_x1 (t_bounds s)))
         (fun t e k j i => t_values s t e (sl k) j i)
    /\ forall k j i a b c, nth_error (md_x3 (f_mesh x)) k = Some c -> nth_error (bd_x2 (t_bounds s)) j = Some b -> nth_error (bd_x1 (t_bounds s)) i = Some a ->
         exists p, nth_error (g_points (f_grid x)) ((k * length (bd_x2 (t_bounds s)) + j) * length (bd_x1 (t_bounds s)) + i) = Some p
           /\ Veq p (place sn cs (bd_cyl (t_bounds s)) (option_map (fun p => (pl_origin p, p)) (bd_trsf (t_bounds s))) a b c).
Proof. intros HF Hs. exact (made_shows sn cs old ss f s HF Hs x). Qed.
Print Assumptions C135_grid_shows_the_file.
(** The mesh made of one energy or time bin (or the total, or all) exists for every selection in range, and the arrays of its grid list
    the values and errors of the file for the bins selected. *)
Theorem C135_filtered_grid sn cs old ss f (s : tally_text placement) x d id es ts : FileText (get_transformation true) ss f -> In s ss ->
  Made sn cs old f s x -> dget Z.eqb id d = Some x -> InRange (bd_e (t_bounds s)) es -> InRange (bd_t (t_bounds s)) ts ->
  exists x' oe ot sl, create_filtered_mesh sn cs d id column_labels es ts = Ok x'
    /\ Selects (bd_e (t_bounds s)) es (md_e (f_mesh x')) oe /\ Selects (bd_t (t_bounds s)) ts (md_t (f_mesh x')) ot
    /\ Slices (bd_cyl (t_bounds s)) (bd_x3 (t_bounds s)) (md_x3 (f_mesh x')) sl
    /\ GridShows (f_grid x') (bins_of (md_t (f_mesh x'))) (bins_of (md_e (f_mesh x'))) (intervals (md_x3 (f_mesh x'))) (intervals (bd_x2 (t_bounds s))) (intervals (bd_x1 (t_bounds s)))
         (fun t e k j i => t_values s (ot t) (oe e) (sl k) j i).
Proof. intros HF Hs. exact (made_filtered sn cs old ss f s HF Hs x d id es ts). Qed.
Print Assumptions C135_filtered_grid.
(** The point cloud written for a time and an energy of a tally has a header and one line per voxel, in the same order, with the
    coordinates of its point and, with three decimals, the value which the text of the file has for it. *)
Theorem C135_exported_points sn cs old ss f (s : tally_text placement) x pts t e : FileText (get_transformation true) ss f -> In s ss -> Made sn cs old f s x ->
  t < bins_of (bd_t (t_bounds s)) -> e < bins_of (bd_e (t_bounds s)) ->
  length pts = intervals (md_x3 (f_mesh x)) * intervals (bd_x2 (t_bounds s)) * intervals (bd_x1 (t_bounds s)) ->
  exists rows sl, Slices (bd_cyl (t_bounds s)) (bd_x3 (t_bounds s)) (md_x3 (f_mesh x)) sl
    /\ cloud_file (f_grid x) pts (label (s2l "Value - Total") (bins_of (bd_t (t_bounds s))) (bins_of (bd_e (t_bounds s))) t e)
         = Ok (concat (map (fun r => r ++ [nl]) (s2l "x, y, z, value" :: rows)))
    /\ length rows = length pts
    /\ forall k j i, k < intervals (md_x3 (f_mesh x)) -> j < intervals (bd_x2 (t_bounds s)) -> i < intervals (bd_x1 (t_bounds s)) ->
         let n := (k * intervals (bd_x2 (t_bounds s)) + j) * intervals (bd_x1 (t_bounds s)) + i in
         exists r a b c ws, nth_error pts n = Some (a, b, c) /\ nth_error rows n = Some r
           /\ Forall2 Field ws [a; b; c; fst (t_values s t e (sl k) j i)] /\ r = joined_by (s2l ",") ws.
Proof.
  intros HF Hs HM Ht He L. destruct (made_shows sn cs old ss f s HF Hs x HM) as (sl & S1 & G & _).
  destruct (cloud_of_shown _ _ _ _ _ _ _ pts t e G Ht He L) as (rows & E & Lr & R). exists rows, sl. rewrite L. auto.
Qed.
Print Assumptions C135_exported_points.

(* the file of C108 with a rectangular tally and two cylindrical ones *)
Example C135_witness sn cs old : exists x, Made sn cs old gfile g24 x.
Proof. apply (C135_grid_is_made sn cs old [g24; g14; g34]); [exact C108_witness_file|left; reflexivity|intros _; apply Nat.leb_le; reflexivity]. Qed.
Example C135_witness_filter : InRange (bd_e (t_bounds g24)) (Some (-1)%Z) /\ InRange (bd_t (t_bounds g24)) None /\ In g24 [g24; g14; g34].
Proof. split; [vm_compute; split; [discriminate|reflexivity]|]. split; [exact I|left; reflexivity]. Qed.
(* the grid of tally 24, whose turn is cut in two, shows the values 1.5 and 2.5 of the file in each half *)
Example C135_computed : match scan_meshfile gfile with
  | Ok d => match read_mesh (get_transformation true) (fun _ _ _ _ _ _ => Err OtherError) Every d with
            | Some (Ok r) => match dget Z.eqb 24%Z r with
                | Some m => match fmesh_of sn0 cs0 m with
                    | Ok x => match dget str_eqb (s2l "Value - Total") (g_arrays (f_grid x)) with Some v => map Qred v = [3 # 2; 5 # 2; 3 # 2; 5 # 2]%Q | None => False end
                    | Err _ => False end
                | None => False end
            | _ => False end
  | Err _ => False
  end.
Proof. vm_compute. reflexivity. Qed.
