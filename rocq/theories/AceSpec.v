(** The cross section of a material and the files of a library, independently of how they are computed. *)
From Coq Require Import Sorted.
From Verif Require Import PyBase PyStr PyText OutSpec MatModel XsModel XsSpec AceModel.
Open Scope nat_scope.

(* what the cross section of a material should be: the sum over its nuclides of the fraction times their own one *)
Definition weighted (f : str -> Q) (zaids : list zaid) : Q := qsum (map (fun z => (z_frac z * f (z_elem z ++ z_iso z))%Q) zaids).
(* what it is: each fraction times the one of the nuclide before it, the last for the first *)
Definition before_each (zaids : list zaid) : list zaid := match rev zaids with [] => [] | z :: r => z :: rev r end.
Definition weighted_before (f : str -> Q) (zaids : list zaid) : Q :=
  qsum (map (fun p => (z_frac (snd p) * f (z_elem (fst p) ++ z_iso (fst p)))%Q) (combine (before_each zaids) zaids)).
(* the energies of all the nuclides, in increasing order and without repetitions *)
Definition Union (gs : list (list Q)) (es : list Q) : Prop := StronglySorted Qlt es
  /\ (forall e g, In g gs -> In e g -> exists e', In e' es /\ (e' == e)%Q) /\ (forall e, In e es -> exists g e', In g gs /\ In e' g /\ (e' == e)%Q).
(* points for an integral from a to b *)
Definition Points (a b : Q) (l : list Q) : Prop := (exists r, l = a :: r) /\ (exists r, l = r ++ [b]) /\ StronglySorted Qle l.
(* the bounds of the groups after the lowest energy *)
Definition Bounds (low : Q) (es : list Q) : Prop := StronglySorted Qlt (low :: es).
(* the first table for a zaid and a suffix *)
Definition FirstTable (z s : str) (t : xtable) (ts : list xtable) : Prop := exists a b, ts = a ++ t :: b /\ Table z s t /\ Forall (fun t' => ~ Table z s t') a.
