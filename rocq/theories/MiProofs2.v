(** Proofs about keeping, saving, loading and comparing the meshes of a meshinfo file. *)
From Coq Require Import Lia ZArith Permutation Sorted QArith.
From Verif Require Import PyBase PyLemmas PyStr PyText MctalProofs8 DataModel MeshModel MeshSpec MiModel MiSpec MiProofs.
Open Scope nat_scope.

Lemma keys_same tp (ms : list (Z * mesh)) rs : Forall2 (fun a b => fst a = fst b /\ KeptAs tp (snd a) (snd b)) ms rs -> map fst rs = map fst ms.
Proof. induction 1 as [|a b ms rs [E _] _ IH]; [reflexivity|]. cbn [map]. rewrite IH, E. reflexivity. Qed.
Theorem read_distinct tp ms f : FileText ms f -> NoDup (map fst ms) ->
  exists rs, read_meshinfo tp f = Ok rs /\ Forall2 (fun a b => fst a = fst b /\ KeptAs tp (snd a) (snd b)) ms rs.
Proof.
  intros H HN. destruct (file_ok tp ms f (length f) [] H (le_n _)) as (rs & HF & E). exists rs. split; [|exact HF].
  unfold read_meshinfo. rewrite E. f_equal. apply (fold_dset_nodup rs []). cbn [app]. match goal with |- NoDup ?x => replace x with (map fst ms) by (symmetry; exact (keys_same tp ms rs HF)) end. exact HN.
Qed.
(* the last mesh with a number is the one that is kept *)
Lemma fold_dset_get {V} (l : list (Z * V)) : forall k d, dget Z.eqb k (fold_left (fun d kv => dset Z.eqb (fst kv) (snd kv) d) l d)
  = match dget Z.eqb k (rev l) with Some v => Some v | None => dget Z.eqb k d end.
Proof.
  induction l as [|[a b] l IH]; intros k d; [reflexivity|]. cbn [fold_left rev fst snd]. rewrite IH.
  assert (G : forall (x y : list (Z * V)), dget Z.eqb k (x ++ y) = match dget Z.eqb k x with Some v => Some v | None => dget Z.eqb k y end).
  { induction x as [|[p q] x IHx]; intros y; [reflexivity|]. cbn [app dget]. destruct (Z.eqb k p); [reflexivity|apply IHx]. }
  rewrite G. destruct (dget Z.eqb k (rev l)); [reflexivity|]. cbn [dget]. destruct (Z.eqb_spec k a) as [->|N].
  - rewrite (dget_dset_same Z.eqb Z.eqb_eq). reflexivity.
  - rewrite (dget_dset_other Z.eqb Z.eqb_eq) by congruence. reflexivity.
Qed.
Theorem read_last tp ms f i m : FileText ms f -> dget Z.eqb i (rev ms) = Some m ->
  exists info r, read_meshinfo tp f = Ok info /\ dget Z.eqb i info = Some r /\ KeptAs tp m r.
Proof.
  intros H Hd. destruct (file_ok tp ms f (length f) [] H (le_n _)) as (rs & HF & E). unfold read_meshinfo. rewrite E. eexists.
  assert (G : forall a b, Forall2 (fun a b => fst a = fst b /\ KeptAs tp (snd a) (snd b)) a b -> dget Z.eqb i a = Some m -> exists r, dget Z.eqb i b = Some r /\ KeptAs tp m r).
  { induction 1 as [|[x y] [x' y'] a b [Ex K] _ IH]; intros D; [discriminate D|]. cbn [fst snd dget] in *. subst x'. destruct (Z.eqb i x); [injection D as <-; exists y'; auto|apply IH; exact D]. }
  assert (HR : Forall2 (fun a b => fst a = fst b /\ KeptAs tp (snd a) (snd b)) (rev ms) (rev rs)).
  { clear - HF. induction HF as [|a b ms rs H HF IH]; [constructor|]. cbn [rev]. apply Forall2_app; [exact IH|constructor; [exact H|constructor]]. }
  destruct (G _ _ HR Hd) as (r & D & K). exists r. split; [reflexivity|]. split; [|exact K]. rewrite fold_dset_get, D. reflexivity.
Qed.

(** ** saving and loading *)
Definition whole (m : meshinfo) : Prop := exists rows, m_mass m = Some rows /\ StronglySorted before rows /\ (m_cyl m = true <-> m_extra m <> None).
Theorem load_save m d : whole m -> load (save m d) = Ok m.
Proof.
  destruct m as [cyl ex i j k mass]. intros (rows & Hm & HS & HC). cbn [m_mass m_cyl m_extra] in *. subst mass. unfold load, save. cbn [m_mass m_cyl m_extra m_i m_j m_k f_mass f_params of_opt bind p_cyl p_extra p_i p_j p_k].
  rewrite (sort_sorted _ HS). destruct cyl, ex as [x|]; try reflexivity.
  - exfalso. apply (proj1 HC eq_refl). reflexivity.
  - exfalso. assert (X : false = true) by (apply HC; discriminate). discriminate X.
Qed.
Lemma kept_whole tp m r : KeptAs tp m r -> whole r.
Proof.
  intros (He & Hc & _ & _ & _ & rows & Hr & _ & HS). exists rows. split; [exact Hr|]. split; [exact HS|]. rewrite Hc, He. destruct (h_extra m); split; congruence.
Qed.

(** ** comparing *)
Definition qs_eq (a b : list Q) : Prop := Forall2 Qeq a b.
Lemma forallb_combine a : forall b, length a = length b -> (forallb (fun p => Qeq_bool (fst p) (snd p)) (combine a b) = true <-> qs_eq a b).
Proof.
  induction a as [|x a IH]; intros [|y b] H; try discriminate H; cbn [combine forallb fst snd].
  - split; [constructor|reflexivity].
  - rewrite Bool.andb_true_iff, IH by (injection H; auto). rewrite Qeq_bool_iff. split; [intros [A B]; constructor; assumption|intros A; inversion A; subst; auto].
Qed.
Lemma arr_eq_same a b : length a = length b -> exists x, arr_eq a b = Ok x /\ (x = true <-> qs_eq a b).
Proof.
  intros H. destruct a as [|x [|x' a]], b as [|y [|y' b]]; try discriminate H; unfold arr_eq.
  - exists true. split; [reflexivity|]. split; [constructor|reflexivity].
  - eexists. split; [reflexivity|]. cbn [forallb]. rewrite Bool.andb_true_r, Qeq_bool_iff. split; [intros A; constructor; [exact A|constructor]|intros A; inversion A; assumption].
  - rewrite H, Nat.eqb_refl. eexists. split; [reflexivity|]. apply forallb_combine. exact H.
Qed.
Lemma row_eq_iff a b : row_eq a b = true <-> fst a = fst b /\ (snd a == snd b)%Q.
Proof.
  destruct a as [[[v m] c] q], b as [[[v' m'] c'] q']. unfold row_eq, r_voxel, r_mat, r_cell, r_mass. cbn [fst snd].
  rewrite !Bool.andb_true_iff, !Z.eqb_eq, Qeq_bool_iff. split; [intros [[[-> ->] ->] E]; auto|intros [E F]; injection E; auto].
Qed.
Lemma rows_eq_iff a : forall b, rows_eq a b = true <-> Forall2 (fun x y : mrow => fst x = fst y /\ (snd x == snd y)%Q) a b.
Proof.
  induction a as [|x a IH]; intros [|y b]; cbn [rows_eq].
  - split; [constructor|reflexivity].
  - split; [discriminate|intros H; inversion H].
  - split; [discriminate|intros H; inversion H].
  - rewrite Bool.andb_true_iff, row_eq_iff, IH. split; [intros [A B]; constructor; assumption|intros A; inversion A; subst; auto].
Qed.
