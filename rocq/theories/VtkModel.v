(** The file that WW.export_as_vtk writes (input/ww_gvr/weight_window.py 456-474, input/ww_gvr/geometry.py 256-268).
    A path is its folder and its last name. *)
From Verif Require Import PyBase PyStr PyText LibModel CliModel.
Open Scope nat_scope.

(** pathlib.PurePath.suffix of a name: what stem leaves out *)
Definition suffix_of_name (n : str) : str := skipn (length (stem_of_name n)) n.
(** PurePath.with_suffix: ValueError for an empty name *)
Definition with_suffix (n s : str) : res str := match n with [] => Err ValueError | _ => Ok (stem_of_name n ++ s) end.
Definition vts : str := s2l ".vts".
(** geometry.py 265-268: the name of the file that is saved *)
Definition grid_file (n : str) : res str := if str_eqb (suffix_of_name n) vts then Ok n else with_suffix n vts.
(** weight_window.py 470-474; [own] is the path of the weight window *)
Definition vtk_file (own : str * str) (given : option (str * str)) : res (str * str) :=
  let p := match given with None => (fst own, stem_of_name (snd own)) | Some p => p end in
  do n <- grid_file (snd p); Ok (fst p, n).
