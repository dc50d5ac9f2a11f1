(** output/rssa.py: the files and the colour scale of the plots of an RSSA file (RSSA.plot_cyl).  The tracks and the values of
    the plots are in RssaModel.v.  Numbers are exact: the rounding of np.log10 is not modelled. *)
From Coq Require Import ZArith QArith.
From Verif Require Import PyBase PyStr PyText AceModel RssaModel RssaInfoModel.
Open Scope nat_scope.

(** the text of the particle, as plot_cyl gets it *)
Definition particle_text (p : particle) : str := match p with Neutron => s2l "n" | Photon => s2l "p" | BadParticle => s2l "?" end.
(** rssa.py 292-295 the default name of the plots; [file] is the path of the RSSA file *)
Definition plot_name (file : str) (p : particle) (nz nt : Z) : str :=
  rssa_name file ++ s2l "_" ++ particle_text p ++ s2l "_z" ++ str_of_Z nz ++ s2l "_theta" ++ str_of_Z nt.
(** rssa.py 290-302 the paths of the two pictures (values, errors) written by plot_cyl, in order *)
Definition plot_files (file : str) (p : particle) (nz nt : Z) (outfolder filename : option str) : list str :=
  match outfolder with
  | None => []
  | Some folder =>
      let name := match filename with None => plot_name file p nz nt | Some n => n end in
      let outval := join_path folder (name ++ s2l ".jpeg") in
      let outerr := join_path folder (name ++ s2l "_errors.jpeg") in
      [outval; outerr ++ s2l "_errors.jpeg"]
  end.

(** int(np.log10(v)): towards zero; log10 of 0 is -inf (OverflowError), of a negative number NaN (ValueError) *)
Definition int_log10 (v : Q) : res Z :=
  if Qeq_bool v 0 then Err OtherError
  else if Qle_bool v 0 then Err ValueError
  else let x := ilog10 v in
       Ok (if Qle_bool 1 v then x else if Qeq_bool v (p10 x) then x else (x + 1)%Z).
(** rssa.py 177-191 the decades of the colour scale, (log_min, log_max); [top] is the largest value of the plot *)
Definition colour_scale (value_range : option (Q * Q)) (top : Q) : res (Z * Z) :=
  match value_range with
  | Some (a, b) => do hi <- int_log10 b; do lo <- int_log10 a; Ok (lo, hi)
  | None => do m <- int_log10 top; Ok (m + 1 - 10, m + 1)%Z
  end.
