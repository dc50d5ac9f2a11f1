(** A material over its life: the calls a script makes on one material, one after the other.  The calls are those of MatModel. *)
From Verif Require Import PyBase PyStr PyText LibModel MatModel.
Open Scope nat_scope.

(** input/materials.py: Material.translate 1041-1079, switch_fraction (in place) 1114-1211, get_tad 1213-1240, get_density 1242-1270,
    and SubMaterial.scale_fractions 744-762 called with one factor for every submaterial *)
Inductive mop := MTranslate (nl : newlib) | MSwitch (t : ftype) | MTad (density : Q) | MDensity (tad : Q) | MScale (k : Q).
(** one call (the same lines); the material after it.  An exception ends the life. *)
Definition mstep (nav : Q) (E : matenv) (m : material) (o : mop) : res material :=
  match o with
  | MTranslate nl => match translate_mat E nl m with (m', None) => Ok m' | (_, Some e) => Err e end
  | MSwitch t => do '(m', _) <- switch_inplace t E m; Ok m'
  | MTad d => do '(m', _) <- get_tad nav E d m; Ok m'
  | MDensity t => do '(m', _) <- get_density nav E t m; Ok m'
  | MScale k => Ok (mkmat (mt_name m) (map (scale_sub k) (mt_subs m)))
  end.
(** the calls of a life (the same lines) *)
Fixpoint mlife (nav : Q) (E : matenv) (m : material) (os : list mop) : res material :=
  match os with [] => Ok m | o :: os' => do m' <- mstep nav E m o; mlife nav E m' os' end.
