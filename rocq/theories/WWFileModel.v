(** Model of a weight window from file to file: WW.load_from_ww_file, WW.write_to_ww_file and the parts of Geometry they use
    (src/f4enix/input/ww_gvr/weight_window.py 33-73, 111-168, 401-454 and geometry.py 25-57, 147-206).  The readers and writers of the
    text are those of WWTextModel, the mesh vectors those of B2Model, the values those of WWModel.  The points of the pyvista grid
    (geometry.py 59-69) are in GridModel; here only how often a theta interval is repeated in it is kept. *)
From Coq Require Import ZArith QArith.
From Verif Require Import PyBase PyStr B2Model WWModel WWTextModel CliModel.

(** geometry.py 25-57 Geometry.__init__: the coarse and fine vectors of the three axes, the directors (cylindrical windows only) and
    the origin *)
Record geometry := mkGeo { g_ci : list Q; g_cj : list Q; g_ck : list Q; g_fi : list Z; g_fj : list Z; g_fk : list Z;
  g_dirs : option (list Q * list Q); g_origin : list Q }.

(** geometry.py 183-196 i_ints, j_ints, k_ints: np.sum *)
Definition ints (fine : list Z) : Z := fold_right Z.add 0%Z fine.
(** geometry.py 198-211 i_coarse_ints, ...: len(vector) - 1 *)
Definition coarse_ints (coarse : list Q) : Z := (Z.of_nat (length coarse) - 1)%Z.

(** meshgrids.py 112-125 with geometry.py 135-138: a mesh of one theta interval is drawn with twenty, one of two with twenty *)
Definition theta_repeat (k_ints : Z) : nat := if (k_ints =? 1)%Z then 20 else if (k_ints =? 2)%Z then 10 else 1.
Definition geom_of (g : geometry) : geom :=
  match g_dirs g with None => Cartesian | Some _ => Cylindrical (theta_repeat (ints (g_fk g))) end.

(** weight_window.py 111-116 _create_geometry *)
Definition create_geometry (p : parsed) : res geometry :=
  do '(ci, fi) <- decompose_b2 (p_b2i p);
  do '(cj, fj) <- decompose_b2 (p_b2j p);
  do '(ck, fk) <- decompose_b2 (p_b2k p);
  Ok (mkGeo ci cj ck fi fj fk (h_dirs (p_header p)) (h_origin (p_header p))).

(** a WW object: its geometry and the values, ratios and arrays of WWModel *)
Definition window := (geometry * ww Q)%type.

(** weight_window.py 118-138, from the header of the file.  (numpy would infer one count that is -1; a negative count is a
    ValueError here.) *)
Definition values_of_file (p : parsed) : res (pvals Q) :=
  let h := p_header p in
  if ((h_nfx h <? 0) || (h_nfy h <? 0) || (h_nfz h <? 0))%Z then Err ValueError
  else nested_to_values (Z.to_nat (h_ni h)) (Z.to_nat (h_nfz h)) (Z.to_nat (h_nfy h)) (Z.to_nat (h_nfx h)) (p_energies p) (p_values p).

(** weight_window.py 53-73 load_from_ww_file and 33-50 __init__; [fuel] bounds the loops of the reader *)
Definition load_from_ww_file (fuel : nat) (f : list str) : outcome window :=
  run p <- parse fuel f;
  run g <- Done (create_geometry p);
  run v <- Done (values_of_file p);
  Done (Ok (g, new_ww Qops (geom_of g) v)).

(** weight_window.py 221-244 particles and energies, as _build_header (429-454) uses them *)
Definition energy_counts (v : pvals Q) : res (list nat) :=
  mapM (fun p => do b <- of_opt KeyError (dget particle_eqb p v); Ok (length b)) (particles v).
Definition header_of (x : window) : res header :=
  let (g, w) := x in
  do ne <- energy_counts (vals w);
  Ok (mkheader 1 1 (Z.of_nat (length (particles (vals w)))) (match g_dirs g with None => 10 | Some _ => 16 end)
        (s2l "Created by f4enix_ww") (map Z.of_nat ne) (ints (g_fi g)) (ints (g_fj g)) (ints (g_fk g)) (g_origin g)
        (coarse_ints (g_ci g)) (coarse_ints (g_cj g)) (coarse_ints (g_ck g)) (g_dirs g)).

(** weight_window.py 401-427 write_to_ww_file: the lines of the file *)
Definition write_to_ww_file (x : window) : res (list str) :=
  let (g, w) := x in
  do '(es, vs) <- format_nested (vals w);
  do h <- header_of x;
  do bi <- compose_b2 (g_ci g) (g_fi g);
  do bj <- compose_b2 (g_cj g) (g_fj g);
  do bk <- compose_b2 (g_ck g) (g_fk g);
  write (mkparsed h bi bj bk es vs).

(** weight_window.py 417-419: the name of the file when none is given *)
Definition default_name (name : str) : str := stem_of_name name ++ s2l "_written".

(** the calls of WWModel on a whole window: the geometry is never touched *)
Definition window_run (pow : Q -> Q -> Q) (x : window) (cs : list (ww_call Q)) : window := (fst x, ww_run Qops pow (snd x) cs).
