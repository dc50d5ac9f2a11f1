(** C132: what a plot of current needs, and the total weight of the tracks written in a file. *)
From Verif Require Import PyBase RssaModel.
Open Scope nat_scope.

(** some two tracks have different positions, some two have different angles *)
Definition spread (angle : Q -> Q -> Q) (sel : list track) : Prop :=
  (exists t u, In t sel /\ In u sel /\ ~ (t_z t == t_z u)%Q) /\
  (exists t u, In t sel /\ In u sel /\ ~ (angle (t_x t) (t_y t) == angle (t_x u) (t_y u))%Q).
(** the ranges that can be asked for: a range along the perimeter only with a range of z *)
Definition askable (xr zr : option (Q * Q)) : Prop := xr = None \/ zr <> None.
(** the weight of a track as the 64-bit word of its third column; the particle as its second *)
Definition weight_word (t : list Z) : Q := match f64 (nth 2 t 0%Z) with Fin q => q | _ => 0%Q end.
Definition has_particle (t : list Z) : Prop := f64 (nth 1 t 0%Z) <> NaN.
(** the whole current of a map: its cells times the area of a cell and the source particles *)
Definition current (pl : plot) (np : Z) : Q := (qsum (concat (pl_values pl)) * pl_area pl * inject_Z (Z.abs np))%Q.
