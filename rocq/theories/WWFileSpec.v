(** Vocabulary for windows saved to a file and loaded back, independent of the reader and the writer. *)
From Coq Require Import ZArith QArith.
From Verif Require Import PyBase PyStr B2Spec WWModel WWSpec WWTextSpec WWFileModel.

(** A proper axis: one more coarse point than numbers of fine intervals, at least one interval, all numbers of fine intervals positive
    and less than 100000 in total *)
Definition axis_ok (coarse : list Q) (fine : list Z) : Prop :=
  length coarse = S (length fine) /\ fine <> [] /\ Forall (fun n => 0 < n)%Z fine /\ (zsum fine < 100000)%Z /\ Forall in_range coarse.
Definition point_ok (l : list Q) : Prop := length l = 3%nat /\ Forall in_range l.
Definition geometry_ok (g : geometry) : Prop :=
  axis_ok (g_ci g) (g_fi g) /\ axis_ok (g_cj g) (g_fj g) /\ axis_ok (g_ck g) (g_fk g) /\ point_ok (g_origin g) /\
  match g_dirs g with None => True | Some (d1, d2) => point_ok d1 /\ point_ok d2 end.

(** Energies that can be told apart in the file: the five digits that are printed of them differ *)
Definition printed_apart (l : list Q) : Prop := ForallOrdPairs (fun a b => fmt_g a <> fmt_g b) l.
Definition energies_ok (v : pvals Q) : Prop :=
  Forall (fun pb => snd pb <> [] /\ (Z.of_nat (length (snd pb)) < 1000000000)%Z /\ Forall in_range (dkeys (snd pb)) /\ printed_apart (dkeys (snd pb))) v.
Definition values_ok (v : pvals Q) : Prop :=
  forall p b e a x y, In (p, b) v -> In (e, a) b -> voxel a x = Some y -> in_range y.

(** A window that can be saved: its arrays have the shape of its mesh *)
Definition mesh_shaped (g : geometry) (v : pvals Q) : Prop :=
  shaped (Z.to_nat (zsum (g_fk g))) (Z.to_nat (zsum (g_fj g))) (Z.to_nat (zsum (g_fi g))) v.
Definition window_ok (x : window) : Prop :=
  geometry_ok (fst x) /\ standard (vals (snd x)) /\ mesh_shaped (fst x) (vals (snd x)) /\
  energies_ok (vals (snd x)) /\ values_ok (vals (snd x)).

(** The same mesh, energies and values, to five significant digits: same particles in the same order, the energies pairwise, and under
    each energy the same voxels *)
Definition opt5 (a b : option Q) : Prop := match a, b with Some x, Some y => close5 x y | None, None => True | _, _ => False end.
Definition geometry5 (g g' : geometry) : Prop :=
  g_fi g' = g_fi g /\ g_fj g' = g_fj g /\ g_fk g' = g_fk g /\
  Forall2 close5 (g_ci g) (g_ci g') /\ Forall2 close5 (g_cj g) (g_cj g') /\ Forall2 close5 (g_ck g) (g_ck g') /\
  Forall2 close5 (g_origin g) (g_origin g') /\
  match g_dirs g, g_dirs g' with
  | None, None => True
  | Some (a, b), Some (a', b') => Forall2 close5 a a' /\ Forall2 close5 b b'
  | _, _ => False
  end.
Definition values5 (v v' : pvals Q) : Prop :=
  Forall2 (fun pb pb' => fst pb' = fst pb /\
    Forall2 (fun ea ea' => close5 (fst ea) (fst ea') /\ forall x, opt5 (voxel (snd ea) x) (voxel (snd ea') x)) (snd pb) (snd pb')) v v'.
Definition window5 (x x' : window) : Prop := geometry5 (fst x) (fst x') /\ values5 (vals (snd x)) (vals (snd x')).
