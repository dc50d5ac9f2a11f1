(** Generic lemmas about PyBase (proofs only). *)
From Verif Require Import PyBase.
From Coq Require Import Permutation.

Section DictL.
  Context {K V : Type} (eqb : K -> K -> bool) (eqb_ok : forall a b, eqb a b = true <-> a = b).

  Lemma eqb_refl' k : eqb k k = true. Proof. apply eqb_ok; reflexivity. Qed.
  Lemma eqb_neq k k' : k <> k' -> eqb k k' = false.
  Proof. intros H; destruct (eqb k k') eqn:E; [apply eqb_ok in E; contradiction|reflexivity]. Qed.

  Lemma dget_dset_same k v (d : list (K * V)) : dget eqb k (dset eqb k v d) = Some v.
  Proof. induction d as [|[k' v'] d IH]; simpl.
    - now rewrite eqb_refl'.
    - destruct (eqb k k') eqn:E; simpl; rewrite E; [reflexivity|exact IH]. Qed.

  Lemma dget_dset_other k k' v (d : list (K * V)) : k <> k' ->
    dget eqb k (dset eqb k' v d) = dget eqb k d.
  Proof. intros H; induction d as [|[k0 v0] d IH]; simpl.
    - now rewrite eqb_neq.
    - destruct (eqb k' k0) eqn:E; simpl.
      + apply eqb_ok in E; subst. now rewrite eqb_neq.
      + now rewrite IH. Qed.

  Lemma dset_new k v (d : list (K * V)) : dget eqb k d = None -> dset eqb k v d = d ++ [(k, v)].
  Proof. induction d as [|[k0 v0] d IH]; simpl; intros H; [reflexivity|].
    destruct (eqb k k0) eqn:E; [discriminate|]. now rewrite IH. Qed.

  Lemma dget_none_iff k (d : list (K * V)) : dget eqb k d = None <-> ~ In k (dkeys d).
  Proof. induction d as [|[k0 v0] d IH]; simpl; [tauto|].
    destruct (eqb k k0) eqn:E.
    - apply eqb_ok in E; subst. split; [discriminate|intros H; exfalso; tauto].
    - rewrite IH. split; intros H; [intros [->|H1]; [rewrite eqb_refl' in E; discriminate|tauto]|tauto]. Qed.

  Lemma dget_some_in k v (d : list (K * V)) : dget eqb k d = Some v -> In (k, v) d.
  Proof. induction d as [|[k0 v0] d IH]; simpl; [discriminate|].
    destruct (eqb k k0) eqn:E; [apply eqb_ok in E; subst|]; intros H.
    - left; congruence. - right; auto. Qed.

  Lemma in_dget k v (d : list (K * V)) : NoDup (dkeys d) -> In (k, v) d -> dget eqb k d = Some v.
  Proof. induction d as [|[k0 v0] d IH]; simpl; [tauto|]. intros Hnd [H|H].
    - inversion H; subst. now rewrite eqb_refl'.
    - inversion Hnd; subst. rewrite eqb_neq; [auto|].
      intros ->. apply H2. apply (in_map fst) in H. exact H. Qed.

  Lemma dset_keys_in k v (d : list (K * V)) : In k (dkeys d) -> dkeys (dset eqb k v d) = dkeys d.
  Proof. induction d as [|[k0 v0] d IH]; simpl; [tauto|]. intros H.
    destruct (eqb k k0) eqn:E; simpl; [reflexivity|]. rewrite IH; [reflexivity|].
    destruct H as [->|H]; [rewrite eqb_refl' in E; discriminate|exact H]. Qed.

  Lemma dset_keys k v (d : list (K * V)) x : In x (dkeys (dset eqb k v d)) <-> x = k \/ In x (dkeys d).
  Proof. induction d as [|[k0 v0] d IH]; simpl; [intuition|].
    destruct (eqb k k0) eqn:E; simpl.
    - apply eqb_ok in E; subst; intuition.
    - rewrite IH; intuition. Qed.

  Lemma dset_nodup k v (d : list (K * V)) : NoDup (dkeys d) -> NoDup (dkeys (dset eqb k v d)).
  Proof. induction d as [|[k0 v0] d IH]; simpl; intros H; [repeat constructor; tauto|].
    inversion H; subst. destruct (eqb k k0) eqn:E; simpl; [exact H|].
    constructor; [|auto]. rewrite dset_keys. intros [->|H1]; [rewrite eqb_refl' in E; discriminate|tauto]. Qed.

  (** Building a dictionary by successive assignments of pairwise different keys
      keeps the assignments, in order. *)
  Lemma fold_dset_fresh (l d : list (K * V)) :
    NoDup (dkeys d ++ dkeys l) ->
    fold_left (fun d kv => dset eqb (fst kv) (snd kv) d) l d = d ++ l.
  Proof. revert d; induction l as [|[k v] l IH]; simpl; intros d H; [now rewrite app_nil_r|].
    rewrite dset_new.
    - rewrite IH; [now rewrite <- app_assoc|]. unfold dkeys in *. rewrite map_app. simpl.
      rewrite <- app_assoc. exact H.
    - apply dget_none_iff. apply NoDup_remove_2 in H. intros Hi. apply H. apply in_or_app; tauto. Qed.
End DictL.

Lemma memb_in {A} eqb (eqb_ok : forall a b : A, eqb a b = true <-> a = b) x l :
  memb eqb x l = true <-> In x l.
Proof. induction l as [|y l IH]; simpl; [intuition discriminate|].
  rewrite orb_true_iff, IH, eqb_ok. intuition. Qed.

Lemma nth_error_ext {A} (l1 l2 : list A) :
  (forall n, nth_error l1 n = nth_error l2 n) -> l1 = l2.
Proof. revert l2; induction l1 as [|x l1 IH]; intros [|y l2] H; [reflexivity|specialize (H 0); discriminate|specialize (H 0); discriminate|].
  f_equal; [specialize (H 0); simpl in H; congruence|]. apply IH. intros n. exact (H (S n)). Qed.

Lemma skipn_length_lt {A} n (l : list A) : 0 < n -> l <> [] -> length (skipn n l) < length l.
Proof. intros Hn Hl. rewrite skipn_length. destruct l; [contradiction|cbn [length]; lia]. Qed.

Lemma packs_aux_fuel {A} n f1 f2 (l : list A) : 0 < n -> length l <= f1 -> length l <= f2 ->
  packs_aux f1 n l = packs_aux f2 n l.
Proof. intros Hn; revert f2 l; induction f1 as [|f1 IH]; intros f2 l H1 H2.
  - destruct l; simpl in H1; [|lia]. destruct f2; reflexivity.
  - destruct f2 as [|f2]; [destruct l; simpl in H2; [reflexivity|lia]|].
    cbn [packs_aux]. destruct l as [|x l]; [reflexivity|]. f_equal.
    pose proof (skipn_length_lt n (x :: l) Hn ltac:(discriminate)) as Hs.
    apply IH; simpl in *; lia. Qed.

Lemma packs_nil {A} n : packs n (@nil A) = []. Proof. reflexivity. Qed.
Lemma packs_cons {A} n (l : list A) : 0 < n -> l <> [] -> packs n l = firstn n l :: packs n (skipn n l).
Proof. intros Hn Hl. pose proof (skipn_length_lt n l Hn Hl) as Hs. unfold packs at 1.
  destruct (length l) as [|m] eqn:E; [destruct l; [contradiction|discriminate]|].
  cbn [packs_aux]. destruct l as [|x l']; [contradiction|]. f_equal.
  unfold packs. apply packs_aux_fuel; auto; lia. Qed.

Lemma packs_concat {A} n (l : list A) : 0 < n -> concat (packs n l) = l.
Proof. intros Hn. remember (length l) as m eqn:Hm. revert l Hm.
  induction m as [m IH] using lt_wf_ind; intros l ->.
  destruct l as [|x l]; [reflexivity|].
  rewrite packs_cons by (auto; discriminate). simpl concat.
  rewrite (IH (length (skipn n (x :: l)))); [apply firstn_skipn|apply skipn_length_lt; [auto|discriminate]|reflexivity]. Qed.
