(** What the attributes of a mesh may hold, and what they hold after a history of assignments. *)
From Verif Require Import PyBase PyStr MeshModel FmeshModel FmInfoModel.

(* type, comments and particle are texts; strength and cooling time are numbers (a bool counts as one); None clears any of them *)
Definition Acceptable (a : attr) (v : pyval) : Prop :=
  v = VNone \/ match a with
               | AType | AComments | AParticle => exists s, v = VStr s
               | AStrength | ACooling => (exists q, v = VFloat q) \/ (exists z, v = VInt z) \/ (exists b, v = VBool b)
               end.
(* v is what a holds after the assignments: the last acceptable one to a, or what it held before *)
Definition Holds (a : attr) (before : pyval) (ops : list (attr * pyval)) (v : pyval) : Prop :=
  (v = before /\ forall w, In (a, w) ops -> ~ Acceptable a w)
  \/ exists l1 l2, ops = l1 ++ (a, v) :: l2 /\ Acceptable a v /\ forall w, In (a, w) l2 -> ~ Acceptable a w.
(* what two states share when they are the same mesh *)
Definition same_mesh {T} (s s' : fminfo T) : Prop := fi_mesh s' = fi_mesh s /\ fi_tally s' = fi_tally s /\ fi_trsf s' = fi_trsf s.
