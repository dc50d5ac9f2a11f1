(** C37, C52: what an activation path of the materials is. *)
From Verif Require Import PyBase PyStr D1SModel LibModel MatModel PathsModel.
(** the material list has a zaid with this number, and the activation library lists for it the
    reaction [mt] to [daughter] *)
Definition material_path (D : actdata) (lib : str) (ms : list material) (parent mt daughter : str) : Prop :=
  exists m s z l, In m ms /\ In s (mt_subs m) /\ In z (s_zaids s) /\ z_elem z ++ z_iso z = parent /\
    get_reactions (a_iso D) (a_sheets D) lib parent = Ok l /\ In (mt, daughter) l.
(** parent, then MT, then daughter, in the order of Python strings *)
Definition before (a b : str * str * str) : Prop := triple_leb a b = true.
Definition in_materials (ms : list material) (num : str) : Prop := exists m s z, In m ms /\ In s (mt_subs m) /\ In z (s_zaids s) /\ z_elem z ++ z_iso z = num.
