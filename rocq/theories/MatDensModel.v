(** Model of src/f4enix/input/materials.py 1764-1782 MatCardsList.fractions_to_atom_densities, with what is left when a material cannot be converted. *)
From Verif Require Import PyBase PyStr LibModel MatModel.
Open Scope nat_scope.

(** materials.py 1362-1387 Material.fractions_to_atom_densities: the material afterwards, also when it raises.  A switch that raises
    changes nothing: the masses are looked up before any fraction is set.  get_tad (1213-1240) sets nothing after its own switch. *)
Definition densities_state (nav : Q) (E : matenv) (d : Q) (m : material) : material * option exn :=
  match switch_inplace Mass E m with
  | Err e => (m, Some e)
  | Ok (m1, _) =>
      match switch_inplace Atom E m1 with
      | Err e => (m1, Some e)
      | Ok (m2, _) =>
          match get_tad nav E d m2 with
          | Err e => (match switch_inplace Atom E m2 with Ok (m3, _) => m3 | Err _ => m2 end, Some e)
          | Ok (m3, tad) => (mkmat (mt_name m3) (map (scale_sub tad) (mt_subs m3)), None)
          end
      end
  end.
(** materials.py 1781-1782: one material after the other *)
Fixpoint list_densities (nav : Q) (E : matenv) (d : Q) (ms : list material) : list material * option exn :=
  match ms with
  | [] => ([], None)
  | m :: r => match densities_state nav E d m with
              | (m', Some e) => (m' :: r, Some e)
              | (m', None) => let (r', o) := list_densities nav E d r in (m' :: r', o)
              end
  end.
