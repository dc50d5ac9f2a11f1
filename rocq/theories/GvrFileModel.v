(** Model of the script that makes a weight-window file from a mesh tally: WW.create_gvr_from_meshtally_file and WW.write_to_ww_file
    (src/f4enix/input/ww_gvr/weight_window.py 76-107, 401-427).  Nothing new happens: the geometry of the one model is written as the
    geometry of the other. *)
From Coq Require Import ZArith QArith.
From Verif Require Import PyBase PyStr WWModel WWTextModel MeshModel TrsfModel GvrModel WWFileModel.

(** geometry.py 24-57: the object Geometry, which GvrModel and WWFileModel describe each in its own record *)
Definition saved (g : GvrModel.geometry) : WWFileModel.geometry :=
  mkGeo (fst (geo_i g)) (fst (geo_j g)) (fst (geo_k g)) (snd (geo_i g)) (snd (geo_j g)) (snd (geo_k g)) (geo_dirs g) (geo_org g).
(** weight_window.py 76-107 and 401-427; None: the call does not return *)
Definition tally_to_file (sn cs : Q -> Q) old (pow : Q -> Q -> Q) (f : file) (tally : Z) (ratio soft : Q) : option (res (list str)) :=
  orun (create_gvr sn cs old pow f tally ratio soft) (fun x => Some (write_to_ww_file (saved (fst x), snd x))).
