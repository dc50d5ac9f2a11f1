(** Model of src/f4enix/input/ace.py 333-394 get_xs: the cross section of a material.  The nuclides are those of the Ace part. *)
From Verif Require Import PyBase PyStr MatModel AceModel.
Open Scope nat_scope.

Section GetXs.
  (** the library: grid, tables and integration points of the Ace part *)
  Variable E : matenv.
  Variable grid : str -> res (list Q).
  Variable table : str -> nat -> Q -> Q.
  Variable points : Q -> Q -> list Q.
  (** ace.py 375-394: the switches are made in the material that was given; the answer is the material afterwards, the energies and the rows.
      For a text the material is that of from_zaids (MatInfoModel). *)
  Definition get_xs (m : material) (types : list str) (group : option (list Q)) : res (material * (list Q * list (list Q))) :=
    do '(m1, _) <- switch_inplace Mass E m;
    do '(m2, _) <- switch_inplace Atom E m1;
    do r <- get_xs_list grid table points (all_zaids m2) types group;
    Ok (m2, r).
End GetXs.
