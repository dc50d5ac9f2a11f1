(** C118: the attributes of a mesh and what it says about itself. *)
From Coq Require Import Lia.
From Verif Require Import PyBase PyStr MeshModel FmeshModel FmInfoModel FmInfoSpec.

(** C118.  An assignment is accepted exactly when the value is None, a text (type, comments, particle) or a number (strength,
    cooling time); then the attribute holds that very value, and nothing else of the mesh has changed.  A refused one raises TypeError. *)
Theorem C118_assignment : forall T (s : fminfo T) a v,
  (Acceptable a v -> exists s', set a v s = Ok s' /\ get a s' = v /\ same_mesh s s' /\ forall b, b <> a -> get b s' = get b s)
  /\ (~ Acceptable a v -> set a v s = Err TypeError).
Proof.
  intros T s a v. split.
  - intros [->|H].
    + destruct a; eexists; (split; [reflexivity|]); (split; [reflexivity|]); (split; [repeat split|]); intros b B; destruct b; solve [reflexivity|congruence].
    + destruct a; repeat (match goal with H : _ \/ _ |- _ => destruct H as [H|H] | H : exists _, _ |- _ => destruct H as [? H] end); subst v;
        eexists; (split; [reflexivity|]); (split; [reflexivity|]); (split; [repeat split|]); intros b B; destruct b; solve [reflexivity|congruence].
  - intros N. destruct a, v; try reflexivity; exfalso; apply N; unfold Acceptable; eauto 6.
Qed.
Print Assumptions C118_assignment.

(** After every history of assignments, accepted or refused, each attribute holds the last acceptable value it was given, or what
    it held at the start (None for a new mesh); the mesh itself is untouched. *)
Theorem C118_history : forall T (s : fminfo T) ops a, Holds a (get a s) ops (get a (run s ops)) /\ same_mesh s (run s ops).
Proof.
  intros T s ops a. assert (D : forall b w, Acceptable b w \/ ~ Acceptable b w).
  { intros b w. destruct (set b w s) as [s'|e] eqn:E.
    - left. destruct b, w; cbn in E; try discriminate E; unfold Acceptable; eauto 6.
    - right. intros H. destruct (proj1 (C118_assignment T s b w) H) as (s' & E' & _). rewrite E' in E. discriminate E. }
  revert s D. induction ops as [|[b w] ops IH]; intros s D.
  - split; [left; split; [reflexivity|intros w []]|repeat split].
  - change (run s ((b, w) :: ops)) with (run (match set b w s with Ok s' => s' | Err _ => s end) ops). set (s1 := match set b w s with Ok s' => s' | Err _ => s end).
    specialize (IH s1 D). destruct IH as [H M]. pose proof (C118_assignment T s b w) as [A1 A2].
    assert (M1 : same_mesh s s1). { unfold s1. destruct (D b w) as [A|A]; [destruct (A1 A) as (s' & -> & _ & X & _); exact X|rewrite (A2 A); repeat split]. }
    split; [|destruct M as (X1 & X2 & X3), M1 as (Y1 & Y2 & Y3); repeat split; congruence].
    destruct H as [[E N]|(l1 & l2 & E & R)]; [|right; exists ((b, w) :: l1), l2; split; [rewrite E at 1; reflexivity|exact R]].
    assert (AD : a = b \/ a <> b) by (destruct a, b; auto; right; discriminate). destruct AD as [<-|AB].
    + destruct (D a w) as [A|A].
      * right. exists [], ops. destruct (A1 A) as (s' & X & G & _). unfold s1 in E at 2. rewrite X in E. rewrite E, G. split; [reflexivity|]. split; [exact A|exact N].
      * left. unfold s1 in E at 2. rewrite (A2 A) in E. split; [exact E|]. intros w' [X|X]; [injection X as <-; exact A|exact (N w' X)].
    + left. split.
      * rewrite E. unfold s1. destruct (D b w) as [A|A]; [destruct (A1 A) as (s' & -> & _ & _ & G); apply G; exact AB|rewrite (A2 A); reflexivity].
      * intros w' [X|X]; [injection X as X _; congruence|exact (N w' X)].
Qed.
Print Assumptions C118_history.

(** A new mesh has its label and transformation, and no attribute. *)
Theorem C118_new : forall T m label (tr : option T), let s := new_fmesh m label tr in
  fi_mesh s = m /\ fi_tally s = label /\ fi_trsf s = tr /\ forall a, get a s = VNone.
Proof. intros T m label tr s. repeat split. intros []; reflexivity. Qed.
Print Assumptions C118_new.

(** print_info reports the tally, type, comments, particle, first axis, energy and time bins and geometry the mesh has ... *)
Theorem C118_info : forall T (s : fminfo T), let d k := dget str_eqb (s2l k) (print_info s) in
  d "tally"%string = Some (IVal (VStr (fi_tally s))) /\ d "type"%string = Some (IVal (get AType s)) /\ d "comments"%string = Some (IVal (get AComments s))
  /\ d "particle"%string = Some (IVal (get AParticle s)) /\ d "x1bin"%string = Some (IAxis (md_x1 (fi_mesh s)))
  /\ d "ebin"%string = Some (IBin (md_e (fi_mesh s))) /\ d "tbin"%string = Some (IBin (md_t (fi_mesh s))) /\ d "geometry"%string = Some (IGeom (md_cyl (fi_mesh s)))
  /\ length (print_info s) = 10.
Proof. intros T s d. repeat split; reflexivity. Qed.
Print Assumptions C118_info.

(** ... but not the second and third axes: their entries repeat the first one. *)
Theorem C118_info_axes : forall T (s : fminfo T),
  dget str_eqb (s2l "x2bin") (print_info s) = Some (IAxis (md_x1 (fi_mesh s))) /\ dget str_eqb (s2l "x3bin") (print_info s) = Some (IAxis (md_x1 (fi_mesh s))).
Proof. intros T s. split; reflexivity. Qed.
Print Assumptions C118_info_axes.

Theorem C118_second_axis_refuted : ~ forall T (s : fminfo T), dget str_eqb (s2l "x2bin") (print_info s) = Some (IAxis (md_x2 (fi_mesh s))).
Proof.
  intros H. specialize (H unit (new_fmesh (mkMD false [0; 1]%Q [0; 2]%Q [0; 3]%Q (mkBin [0; 20]%Q Erg true) (mkBin [0; 1]%Q Tme false) (fun _ _ _ _ _ => None)) (s2l "124") None)).
  vm_compute in H. discriminate H.
Qed.
Print Assumptions C118_second_axis_refuted.

Theorem C118_third_axis_refuted : ~ forall T (s : fminfo T), dget str_eqb (s2l "x3bin") (print_info s) = Some (IAxis (md_x3 (fi_mesh s))).
Proof.
  intros H. specialize (H unit (new_fmesh (mkMD false [0; 1]%Q [0; 2]%Q [0; 3]%Q (mkBin [0; 20]%Q Erg true) (mkBin [0; 1]%Q Tme false) (fun _ _ _ _ _ => None)) (s2l "124") None)).
  vm_compute in H. discriminate H.
Qed.
Print Assumptions C118_third_axis_refuted.

(** A history with accepted and refused assignments: the strength is the last number, the comments the last text. *)
Example C118_case : let s0 : fminfo unit := new_fmesh (mkMD false [0; 1]%Q [0; 2]%Q [0; 3]%Q (mkBin [0; 20]%Q Erg true) (mkBin [0; 1]%Q Tme false) (fun _ _ _ _ _ => None)) (s2l "124") None in
  let ops := [(AStrength, VFloat (5 # 2)%Q); (AComments, VStr (s2l "first")); (AStrength, VStr (s2l "3")); (AComments, VInt 4); (AStrength, VBool true); (AType, VStr (s2l "CDGS")); (AType, VNone)] in
  map (fun a => get a (run s0 ops)) [AType; AComments; AParticle; AStrength; ACooling] = [VNone; VStr (s2l "first"); VNone; VBool true; VNone].
Proof. reflexivity. Qed.
