(** Model of the weight windows made from a mesh tally, src/f4enix/input/ww_gvr/weight_window.py 76-138, 168-181,
    ww_parser.py 186-281 and geometry.py 24-69, on top of the models of the meshtal reader (MeshModel.v, TrsfModel.v,
    FmeshModel.v) and of the windows (B2Model.v, WWModel.v).  Numbers are exact; the points of the grid are in GridModel.v. *)
From Coq Require Import Qabs.
From Verif Require Import PyBase PyStr PyText D1SModel DataModel B2Model WWModel WWTextModel MeshModel FmeshModel TrsfModel.
Open Scope nat_scope.

(** None: the call does not return *)
Definition orun {A B} (m : option (res A)) (f : A -> option (res B)) : option (res B) :=
  match m with None => None | Some (Err e) => Some (Err e) | Some (Ok a) => f a end.

(** meshtal.py 242-244 mesh_ids: sorted(int(x) for x in get_meshlist()) *)
Fixpoint insert_z (z : Z) (l : list Z) : list Z :=
  match l with [] => [z] | x :: l' => if (z <=? x)%Z then z :: l else x :: insert_z z l' end.
Definition mesh_ids (d : list (str * pos)) : res (list Z) :=
  do l <- mapM parse_int (dkeys d); Ok (fold_right insert_z [] l).

(** mesh_parser.py 51-96 with fmesh.py 238-286: the mesh as the constructor leaves it, and its placement *)
Definition data_of (m : MeshModel.fmesh placement) : mdata :=
  let b := fm_bounds m in mkMD (bd_cyl b) (bd_x1 b) (bd_x2 b) (bd_x3 b) (bd_e b) (bd_t b) (fm_data m).
Definition trsf_of (m : MeshModel.fmesh placement) : option (vec * placement) :=
  option_map (fun p => (pl_origin p, p)) (bd_trsf (fm_bounds m)).
Definition fmesh_of (sn cs : Q -> Q) (m : MeshModel.fmesh placement) : res (FmeshModel.fmesh (R := placement)) :=
  make_fmesh sn cs (data_of m) (fm_tally m) (trsf_of m) column_labels.

Definition vlist (v : vec) : list Q := [v1 v; v2 v; v3 v].
Definition zero3 (v : vec) : bool := Qeq_bool (v1 v) 0 && Qeq_bool (v2 v) 0 && Qeq_bool (v3 v) 0.
(** ww_parser.py 212-264 _read_header_from_meshtally_file.  The third coordinate of the origin comes first (232) *)
Definition header_of (f : FmeshModel.fmesh (R := placement)) : res header :=
  let m := f_mesh f in
  if (1 <? Z.of_nat (length (x_vals (md_e m))) - 1)%Z then Err ValueError else
  let n (x : list Q) := (Z.of_nat (length x) - 1)%Z in
  let '(nx, ny, nz) := (n (md_x1 m), n (md_x2 m), n (md_x3 m)) in
  let org := match f_trsf f with
             | Some (o, _) => if zero3 o then [0; 0; 0]%Q else [v3 o; v2 o; v1 o]
             | None => [0; 0; 0]%Q
             end in
  let h nr o dirs := mkheader 1 1 1 nr (s2l "Generated by f4enix_ww") [1%Z] nx ny nz o nx ny nz dirs in
  if md_cyl m then
    match f_trsf f with
    | None => Err AttributeError
    | Some (_, p) =>
        let d1 := pl_axis p in
        let d2 := match pl_vec p with
                  | Some v => v
                  | None => if Qeq_bool (v1 d1) 1 then (0, 1, 0)%Q else (1, 0, 0)%Q
                  end in
        Ok (h 16%Z org (Some (vlist d1, vlist d2)))
    end
  else Ok (h 10%Z [0; 0; 0]%Q None).

(** 271-284 _calculate_b2_vectors_from_meshtally, one axis: every coarse interval holds one fine one *)
Definition b2_of (x : list Q) : res (list Q) := compose_b2 x (repeat 1%Z (length x - 1)).

(** 186-209 read_meshtally_file.  [old]: the reader of old CUV files (MeshModel.v); [sn], [cs]: sine and cosine.
    A mesh without bins of time or energy: IndexError of data[0, 0] *)
Definition read_meshtally (sn cs : Q -> Q) old (f : file) (tally : Z) : option (res parsed) :=
  orun (Some (scan_meshfile f)) (fun d =>
  orun (Some (if (tally =? 0)%Z then do ids <- mesh_ids d; of_opt IndexError (nth_error ids 0) else Ok tally)) (fun id =>
  orun (read_mesh (get_transformation true) old (One id) d) (fun ms =>
  Some (do ms' <- mapM (fun km => do x <- fmesh_of sn cs (snd km); Ok (fst km, x)) ms;
        do x <- of_opt KeyError (dget Z.eqb id ms');
        let m := f_mesh x in
        do h <- header_of x;
        do bi <- b2_of (md_x1 m); do bj <- b2_of (md_x2 m); do bk <- b2_of (md_x3 m);
        if (nt m =? 0) || (ne m =? 0) then Err IndexError else
        Ok (mkparsed h bi bj bk [[100%Q]] [ravel m 0 0 fst]))))).

(** geometry.py 24-69, 147-171 Geometry: the mesh vectors, the origin and the directors.  The grid is refused when its axis points
    down (meshgrids.py 158-167: a rotation by half a turn about the zero vector; pyvista refuses it with ValueError) *)
Record geometry := mkGeo { geo_i : list Q * list Z; geo_j : list Q * list Z; geo_k : list Q * list Z; geo_org : list Q; geo_dirs : option (list Q * list Q) }.
Definition downward (a : list Q) : bool :=
  match a with [x; y; z] => Qeq_bool x 0 && Qeq_bool y 0 && Qle_bool z 0 | _ => false end.
(** weight_window.py 114-116 _create_geometry *)
Definition create_geometry (p : parsed) : res geometry :=
  do i <- decompose_b2 (p_b2i p); do j <- decompose_b2 (p_b2j p); do k <- decompose_b2 (p_b2k p);
  let h := p_header p in
  if match h_dirs h with Some (a, _) => downward a | None => false end then Err ValueError else
  Ok (mkGeo i j k (h_origin h) (h_dirs h)).
(** geometry.py 151-153 vectors *)
Definition axis_vector (c : list Q * list Z) : res (list Q) := build_1d (fst c) (snd c).
(** meshgrids.py 85-87, 104-119 with geometry.py 133-138: one or two angular intervals are drawn as twenty *)
Definition drawn (g : geometry) : geom :=
  match geo_dirs g with
  | None => Cartesian
  | Some _ => let n := length (fst (geo_k g)) - 1 in Cylindrical (if n =? 1 then 20 else if n =? 2 then 10 else 1)
  end.

(** weight_window.py 76-107 create_gvr_from_meshtally_file; [pow] is numpy's power.  The grid of this geometry has one fine interval
    per coarse one, so [drawn] counts the coarse ones *)
Definition create_gvr (sn cs : Q -> Q) old (pow : Q -> Q -> Q) (f : file) (tally : Z) (ratio soft : Q) : option (res (geometry * ww Q)) :=
  orun (read_meshtally sn cs old f tally) (fun p =>
  Some (do g <- create_geometry p;
        let h := p_header p in
        do v <- nested_to_values (Z.to_nat (h_ni h)) (Z.to_nat (h_nfz h)) (Z.to_nat (h_nfy h)) (Z.to_nat (h_nfx h)) (p_energies p) (p_values p);
        do b <- of_opt KeyError (dget particle_eqb Neutron v);
        do b' <- flux_to_gvr Qops (2 / (ratio + 1))%Q b;
        let w := new_ww Qops (drawn g) (dset particle_eqb Neutron b' v) in
        Ok (g, if Qeq_bool soft 1 then w else soften Qops pow w soft))).
