(** Specification vocabulary for C117. *)
From Coq Require Import Reals Qreals.
From Verif Require Import PyBase PyStr RssaModel RssaInfoModel.
Open Scope nat_scope.

(** the distance of a track from the z axis, and the average of some numbers *)
Definition distance (t : track) : R := sqrt (Rsqr (Q2R (t_x t)) + Rsqr (Q2R (t_y t))).
Definition average (l : list R) : R := (fold_right Rplus 0 l / INR (length l))%R.
(** every track is less than 1e-4 away from the cylinder of radius r around the z axis *)
Definition on_cylinder (r : R) (ts : list track) : Prop := Forall (fun t => Rabs (distance t - r) < 1 / 10000)%R ts.
(** the tracks of a mask: the numbers of the neutrons, or of the photons *)
Definition count (p : track -> bool) (ts : list track) : nat := length (filter p ts).
Definition is_neutron (t : track) : bool := abs_lt (word_b t).
Definition is_photon (t : track) : bool := abs_ge (word_b t).
(** [part] is somewhere in [whole] *)
Definition within (part whole : str) : Prop := exists a b, whole = a ++ part ++ b.
