(** output/rssa.py: the surface type and the description of an RSSA file (RSSA.type, str(rssa), rssa.filename).
    Simplified: the square root and the standard deviation are those of the real numbers; infinite and NaN coordinates are not
    modelled (read as 0); the text of the radius, "%.2f", is a parameter. *)
From Coq Require Import Reals Qreals Qabs.
From Verif Require Import PyBase PyStr RssaModel PyText.
Open Scope nat_scope.

(** np.std of a non-empty array *)
Definition rsum (l : list R) : R := fold_right Rplus 0%R l.
Definition mean (l : list R) : R := (rsum l / INR (length l))%R.
Definition std (l : list R) : R := sqrt (mean (map (fun x => (x - mean l) * (x - mean l))%R l)).

(** rssa.py 411: distance of a track from the z axis *)
Definition radius (t : track) : R := sqrt (Q2R (t_x t) * Q2R (t_x t) + Q2R (t_y t) * Q2R (t_y t)).
Inductive kind := Multiple | Cyl | Plane.
(** rssa.py 402-415 type; the standard deviation of an empty array is NaN, and NaN < 1e-4 is false *)
Definition rssa_type (p : params) (ts : list track) : kind :=
  if 1 <? length (surfaces p) then Multiple
  else match ts with
       | [] => Plane
       | _ => if Rlt_dec (std (map radius ts)) (1 / 10000) then Cyl else Plane
       end.

(** rssa.py 85: os.path.basename(file).split(".")[0] *)
Fixpoint base_from (acc : str) (s : str) : str :=
  match s with [] => acc | c :: s' => if Ascii.eqb c "/"%char then base_from [] s' else base_from (acc ++ [c]) s' end.
Definition rssa_name (file : str) : str := before_dot (base_from [] file).

(** rssa.py 302-327 _get_info, the text of str(rssa) and repr(rssa) *)
Definition rssa_info (f2 : R -> str) (file : str) (p : params) (ts : list track) : str :=
  s2l "RSSA file " ++ rssa_name file ++ s2l " was recorded using the following surfaces:" ++ [nl]
  ++ concat (map (fun s => s2l "  Surface id: " ++ str_of_Z (su_id s) ++ [nl]) (surfaces p))
  ++ (match rssa_type p ts with
      | Cyl => match ts with t :: _ => s2l "The surface type is a cylinder with a radius of " ++ f2 (radius t) ++ [nl] | [] => [] end
      | Plane => s2l "The surface type is a plane..." ++ [nl]
      | Multiple => []
      end)
  ++ s2l "The total amount of tracks recorded is " ++ str_of_Z (nrss p) ++ s2l ", of which " ++ str_of_N (N.of_nat (length (mask_neutron ts)))
  ++ s2l " were neutrons and " ++ str_of_N (N.of_nat (length (mask_photon ts))) ++ s2l " were photons." ++ [nl]
  ++ s2l "The simulation that produced this RSSA run " ++ str_of_Z (Z.abs (np1 p)) ++ s2l " histories" ++ [nl]
  ++ s2l "The amount of independent histories that reached the RSSA surfaces was " ++ str_of_Z (niss p) ++ s2l "." ++ [nl].

(** rssa.py 395-400 histories: the absolute values of the first column *)
Definition histories (ts : list track) : list Q := map (fun t => Qabs (fin (nth 0 t NaN))) ts.
