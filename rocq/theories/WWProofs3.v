From Verif Require Import PyBase PyLemmas WWModel WWSpec WWProofs WWProofs2.
From Coq Require Import Lqa.
Open Scope Q_scope.

(** ** C03: reshape and flatten *)
Lemma nth_error_firstn {A} n (l : list A) i : (i < n)%nat -> nth_error (firstn n l) i = nth_error l i.
Proof. revert l i; induction n as [|n IH]; intros l i H; [lia|]. destruct l as [|x l]; [destruct i; reflexivity|].
  destruct i as [|i]; simpl; [reflexivity|]. apply IH. lia. Qed.
Lemma nth_error_skipn {A} n (l : list A) i : nth_error (skipn n l) i = nth_error l (n + i).
Proof. revert l; induction n as [|n IH]; intros l; [reflexivity|]. destruct l; [destruct i; reflexivity|]. simpl. apply IH. Qed.

Lemma packs_spec {A} n m (l : list A) : (0 < n)%nat -> length l = (m * n)%nat ->
  length (packs n l) = m /\ Forall (fun row => length row = n) (packs n l) /\
  (forall q i, (q < m)%nat -> (i < n)%nat ->
     exists row, nth_error (packs n l) q = Some row /\ nth_error row i = nth_error l (q * n + i)).
Proof. intros Hn. revert l; induction m as [|m IH]; intros l Hl.
  - destruct l; [|simpl in Hl; lia]. rewrite packs_nil. repeat split; [constructor|lia].
  - assert (Hne : l <> []) by (intros ->; simpl in Hl; lia).
    rewrite packs_cons by auto.
    destruct (IH (skipn n l)) as [H1 [H2 H3]]; [rewrite skipn_length; lia|].
    split; [simpl; lia|]. split.
    + constructor; [rewrite firstn_length; nia|exact H2].
    + intros q i Hq Hi. destruct q as [|q].
      * eexists; split; [reflexivity|]. rewrite nth_error_firstn by lia. reflexivity.
      * destruct (H3 q i) as [row [R1 R2]]; [lia|lia|]. exists row. split; [exact R1|].
        rewrite R2, nth_error_skipn. f_equal. lia. Qed.

Lemma reshape_spec {A} ne nz ny nx (l : list A) : (0 < nz)%nat -> (0 < ny)%nat -> (0 < nx)%nat ->
  length l = (ne * nz * ny * nx)%nat ->
  exists as_, reshape4 ne nz ny nx l = Ok as_ /\ length as_ = ne /\ Forall (rect nz ny nx) as_ /\
    concat (map flatten3 as_) = l /\
    (forall e k j i, (e < ne)%nat -> (k < nz)%nat -> (j < ny)%nat -> (i < nx)%nat ->
      exists a, nth_error as_ e = Some a /\ voxel a (k, j, i) = nth_error l (((e * nz + k) * ny + j) * nx + i)).
Proof. intros Hz Hy Hx Hl. unfold reshape4. rewrite Hl, Nat.eqb_refl. eexists; split; [reflexivity|].
  destruct (packs_spec nx (ne * nz * ny) l) as [A1 [A2 A3]]; [lia|lia|].
  destruct (packs_spec ny (ne * nz) (packs nx l)) as [B1 [B2 B3]]; [lia|lia|].
  destruct (packs_spec nz ne (packs ny (packs nx l))) as [C1 [C2 C3]]; [lia|lia|].
  split; [exact C1|]. split; [|split].
  - apply Forall_forall. intros a Ha. split; [rewrite Forall_forall in C2; auto|].
    apply Forall_forall. intros p Hp.
    assert (Hp' : In p (packs ny (packs nx l))).
    { rewrite <- (packs_concat nz (packs ny (packs nx l))) by exact Hz. apply in_concat. eauto. }
    rewrite Forall_forall in B2. split; [auto|]. apply Forall_forall. intros r Hr.
    rewrite Forall_forall in A2. apply A2. rewrite <- (packs_concat ny (packs nx l)) by exact Hy. apply in_concat. eauto.
  - transitivity (concat (concat (concat (packs nz (packs ny (packs nx l)))))).
    + generalize (packs nz (packs ny (packs nx l))). intros x. induction x as [|y x IH]; [reflexivity|].
      simpl. rewrite IH. unfold flatten3. rewrite !concat_app. reflexivity.
    + rewrite !packs_concat by assumption. reflexivity.
  - intros e k j i He Hk Hj Hi.
    destruct (C3 e k He Hk) as [a [Ha1 Ha2]].
    assert (Q1 : (e * nz + k < ne * nz)%nat).
    { apply Nat.lt_le_trans with (S e * nz)%nat; [simpl; lia|]. apply Nat.mul_le_mono_r; lia. }
    assert (Q2 : ((e * nz + k) * ny + j < ne * nz * ny)%nat).
    { apply Nat.lt_le_trans with (S (e * nz + k) * ny)%nat; [simpl; lia|]. apply Nat.mul_le_mono_r; lia. }
    destruct (B3 (e * nz + k)%nat j) as [p [Hp1 Hp2]]; [exact Q1|exact Hj|].
    destruct (A3 ((e * nz + k) * ny + j)%nat i) as [r [Hr1 Hr2]]; [exact Q2|exact Hi|].
    exists a. split; [exact Ha1|]. unfold voxel. rewrite Ha2, Hp1, Hp2, Hr1. exact Hr2. Qed.

(** dictionaries keyed by energies *)
Lemma dset_fresh {K V} (eqb : K -> K -> bool) k (v : V) d :
  (forall k', In k' (dkeys d) -> eqb k k' = false) -> dset eqb k v d = d ++ [(k, v)].
Proof. induction d as [|[k0 v0] d IH]; simpl; intros H; [reflexivity|].
  rewrite H by (left; reflexivity). rewrite IH; [reflexivity|]. intros k' Hk. apply H. right; exact Hk. Qed.

Lemma energy_dict_distinct {A} es (as_ : list (arr A)) : distinct_energies es -> length as_ = length es ->
  energy_dict es as_ = combine es as_.
Proof. intros Hd Hl. unfold energy_dict.
  assert (G : forall l d, ForallOrdPairs (fun a b => ~ a == b) (dkeys d ++ dkeys l) ->
     fold_left (fun d kv => dset Qeq_bool (fst kv) (snd kv) d) l d = d ++ l :> ebin A).
  { induction l as [|[k v] l IH]; intros d H; simpl; [now rewrite app_nil_r|].
    rewrite dset_fresh.
    - rewrite IH; [now rewrite <- app_assoc|]. unfold dkeys in *. rewrite map_app. simpl. rewrite <- app_assoc. exact H.
    - intros k' Hk. destruct (Qeqb_spec k k') as [E|E]; [|reflexivity]. exfalso.
      unfold dkeys in *. revert H Hk. generalize (map fst d). intros ks. induction ks as [|x ks IHk]; simpl; intros H Hk; [tauto|].
      inversion H as [|? ? Hx H']; subst. destruct Hk as [->|Hk]; [|auto].
      rewrite Forall_forall in Hx. apply (Hx k); [apply in_or_app; right; left; reflexivity|symmetry; exact E]. }
  rewrite G; [reflexivity|]. simpl. unfold dkeys.
  assert (map fst (combine es as_) = es) as ->; [|exact Hd].
  clear - Hl. revert as_ Hl; induction es as [|x es IH]; intros [|y as_] H; simpl in *; try lia; [reflexivity|]. f_equal. apply IH. lia. Qed.

Lemma dkeys_combine {K V} (ks : list K) (vs : list V) : length vs = length ks -> dkeys (combine ks vs) = ks /\ dvals (combine ks vs) = vs.
Proof. revert vs; induction ks as [|k ks IH]; intros [|v vs] H; simpl in *; try lia; [split; reflexivity|].
  destruct (IH vs) as [H1 H2]; [lia|]. unfold dkeys, dvals in *. simpl. split; congruence. Qed.

Lemma distinct_nth_dget {V} es (vs : list V) n e v : distinct_energies es -> length vs = length es ->
  nth_error es n = Some e -> nth_error vs n = Some v -> dget Qeq_bool e (combine es vs) = Some v.
Proof. revert vs n; induction es as [|x es IH]; intros vs n Hd Hl He Hv; [destruct n; discriminate|].
  destruct vs as [|y vs]; [discriminate|]. inversion Hd as [|? ? Hx Hd']; subst. destruct n as [|n]; simpl in He, Hv |- *.
  - inversion He; inversion Hv; subst. destruct (Qeqb_spec e e) as [_|N]; [reflexivity|exfalso; apply N; reflexivity].
  - destruct (Qeqb_spec e x) as [E|E].
    + exfalso. rewrite Forall_forall in Hx. apply (Hx e); [eapply nth_error_In; eauto|symmetry; exact E].
    + apply (IH vs n); auto. Qed.

Lemma one_particle {A} nz ny nx es (vs : list A) :
  (0 < nz)%nat -> (0 < ny)%nat -> (0 < nx)%nat -> distinct_energies es -> length vs = (length es * nz * ny * nx)%nat ->
  exists as_, reshape4 (length es) nz ny nx vs = Ok as_ /\ length as_ = length es /\
    energy_dict es as_ = combine es as_ /\ Forall (rect nz ny nx) as_ /\
    dkeys (energy_dict es as_) = es /\ concat (map flatten3 (dvals (energy_dict es as_))) = vs /\
    forall n e k j i, nth_error es n = Some e -> (k < nz)%nat -> (j < ny)%nat -> (i < nx)%nat ->
      exists a, dget Qeq_bool e (energy_dict es as_) = Some a /\
        voxel a (k, j, i) = nth_error vs (((n * nz + k) * ny + j) * nx + i).
Proof. intros Hz Hy Hx Hd Hl.
  destruct (reshape_spec (length es) nz ny nx vs Hz Hy Hx Hl) as [as_ [H1 [H2 [H3 [H4 H5]]]]].
  exists as_. split; [exact H1|]. split; [exact H2|]. pose proof (energy_dict_distinct es as_ Hd H2) as Hed. split; [exact Hed|].
  split; [exact H3|]. rewrite Hed. destruct (dkeys_combine es as_ H2) as [K1 K2]. rewrite K1, K2.
  split; [reflexivity|]. split; [exact H4|].
  intros n e k j i He Hk Hj Hi.
  destruct (H5 n k j i) as [a [Ha1 Ha2]]; auto.
  - apply nth_error_Some. congruence.
  - exists a. split; [|exact Ha2]. eapply distinct_nth_dget; eauto. Qed.


Lemma nested_spec {A} ni nz ny nx energies (values : list (list A)) :
  well_formed_nested ni nz ny nx energies values ->
  exists v, nested_to_values ni nz ny nx energies values = Ok v /\
    format_nested v = Ok (energies, values) /\ shaped nz ny nx v /\ length (particles v) = ni /\
    forall p n es vs e k j i, nth_error energies (pcode p) = Some es -> nth_error values (pcode p) = Some vs ->
      nth_error es n = Some e -> (k < nz)%nat -> (j < ny)%nat -> (i < nx)%nat ->
      at_ v p e (k, j, i) = nth_error vs (((n * nz + k) * ny + j) * nx + i).
Proof. intros [Hni [Hz [Hy [Hx [Hle [Hlv [Hd H2]]]]]]].
  destruct Hni as [->| ->].
  - destruct energies as [|es [|? ?]]; try discriminate. destruct values as [|vs [|? ?]]; try discriminate.
    inversion Hd as [|? ? Hd1 _]; subst. inversion H2 as [|? ? ? ? Hl1 _]; subst.
    destruct (one_particle nz ny nx es vs Hz Hy Hx Hd1 Hl1) as [as_ [R1 [R2 [R3 [R4 [R5 [R6 R7]]]]]]].
    exists [(Neutron, energy_dict es as_)]. unfold nested_to_values; simpl. rewrite R1. simpl. split; [reflexivity|].
    unfold format_nested; simpl. rewrite R5, R6. split; [reflexivity|]. split; [|split; [reflexivity|]].
    + constructor; [|constructor]. simpl. rewrite R3. apply Forall_forall. intros [e a] Hin. simpl.
      apply in_combine_r in Hin. rewrite Forall_forall in R4. auto.
    + intros p n es' vs' e k j i He Hv Hn Hk Hj Hi. destruct p; simpl in He, Hv; [|discriminate].
      inversion He; inversion Hv; subst es' vs'. destruct (R7 n e k j i Hn Hk Hj Hi) as [a [Ha1 Ha2]].
      unfold at_; simpl. rewrite Ha1. exact Ha2.
  - destruct energies as [|es [|es2 [|? ?]]]; try discriminate. destruct values as [|vs [|vs2 [|? ?]]]; try discriminate.
    inversion Hd as [|? ? Hd1 Hd']; subst. inversion Hd' as [|? ? Hd2 _]; subst.
    inversion H2 as [|? ? ? ? Hl1 H2']; subst. inversion H2' as [|? ? ? ? Hl2 _]; subst.
    destruct (one_particle nz ny nx es vs Hz Hy Hx Hd1 Hl1) as [as_ [R1 [R2 [R3 [R4 [R5 [R6 R7]]]]]]].
    destruct (one_particle nz ny nx es2 vs2 Hz Hy Hx Hd2 Hl2) as [as2 [S1 [S2 [S3 [S4 [S5 [S6 S7]]]]]]].
    exists [(Neutron, energy_dict es as_); (Photon, energy_dict es2 as2)].
    unfold nested_to_values; simpl. rewrite R1. simpl. rewrite S1. simpl. split; [reflexivity|].
    unfold format_nested; simpl. rewrite R5, R6, S5, S6. split; [reflexivity|]. split; [|split; [reflexivity|]].
    + constructor; [|constructor; [|constructor]]; simpl; [rewrite R3|rewrite S3]; apply Forall_forall; intros [e a] Hin; simpl;
      apply in_combine_r in Hin; [rewrite Forall_forall in R4|rewrite Forall_forall in S4]; auto.
    + intros p n es' vs' e k j i He Hv Hn Hk Hj Hi. destruct p; simpl in He, Hv; inversion He; inversion Hv; subst es' vs'.
      * destruct (R7 n e k j i Hn Hk Hj Hi) as [a [Ha1 Ha2]]. unfold at_; simpl. rewrite Ha1. exact Ha2.
      * destruct (S7 n e k j i Hn Hk Hj Hi) as [a [Ha1 Ha2]]. unfold at_; simpl. rewrite Ha1. exact Ha2. Qed.

(** ** C12: the cylindrical display grid *)
Lemma nth_error_repeat0 {X} m (l : list X) q : (0 < m)%nat ->
  nth_error (flat_map (fun p => repeat p m) l) q = nth_error l (q / m).
Proof. intros Hm. revert q; induction l as [|x l IH]; intros q; simpl.
  - rewrite !(proj2 (nth_error_None (@nil X) _)) by (simpl; lia). reflexivity.
  - destruct (Nat.lt_ge_cases q m) as [H|H].
    + rewrite nth_error_app1 by (rewrite repeat_length; lia). rewrite (Nat.div_small q m) by lia. simpl.
      rewrite (nth_error_nth' _ x) by (rewrite repeat_length; lia). f_equal.
      clear. revert q; induction m as [|m IHm]; intros [|q]; simpl; auto.
    + rewrite nth_error_app2 by (rewrite repeat_length; lia). rewrite repeat_length, IH.
      assert (E : (q / m = S ((q - m) / m))%nat).
      { replace q with (q - m + 1 * m)%nat at 1 by lia. rewrite Nat.div_add by lia. lia. }
      rewrite E. reflexivity. Qed.

Lemma repeat0_rect {A} m nz ny nx (a : arr A) : rect nz ny nx a -> rect (nz * m) ny nx (repeat0 m a).
Proof. intros [H1 H2]. split.
  - subst nz. clear H2. unfold repeat0. induction a as [|p a IH]; [reflexivity|]. simpl. rewrite app_length, repeat_length, IH. lia.
  - unfold repeat0. apply Forall_flat_map. eapply Forall_impl; [|exact H2]. intros p Hp.
    apply Forall_forall. intros x Hx. apply repeat_spec in Hx. subst; exact Hp. Qed.

Lemma swap01_voxel {A} nz ny nx (a : arr A) j k i : (0 < nz)%nat -> rect nz ny nx a ->
  voxel (swap01 a) (j, k, i) = voxel a (k, j, i).
Proof. intros Hz Hr. destruct (rect_hd _ _ _ _ Hr Hz) as [Hd _]. pose proof Hr as [Hl Hf].
  unfold swap01. unfold voxel at 1. rewrite nth_error_map_seq, Hd. unfold dim0. rewrite Hl.
  unfold voxel.
  destruct (Nat.ltb_spec j ny) as [Hj|Hj].
  - rewrite nth_error_map_seq. destruct (Nat.ltb_spec k nz) as [Hk|Hk].
    + destruct (nth_error a k) as [p|] eqn:Ek; [|apply nth_error_None in Ek; lia].
      rewrite (nth_error_nth _ _ _ Ek).
      destruct (nth_error p j) as [r|] eqn:Ej.
      * rewrite (nth_error_nth _ _ _ Ej). reflexivity.
      * apply nth_error_None in Ej. rewrite Forall_forall in Hf. destruct (Hf p (nth_error_In _ _ Ek)). lia.
    + rewrite (proj2 (nth_error_None a k)) by lia. reflexivity.
  - destruct (nth_error a k) as [p|] eqn:Ek; [|reflexivity].
    rewrite Forall_forall in Hf. destruct (Hf p (nth_error_In _ _ Ek)) as [Hp _].
    rewrite (proj2 (nth_error_None p j)) by lia. reflexivity. Qed.

Lemma prepare_cyl_voxel {A} m nz ny nx (a : arr A) j k s i : (0 < nz)%nat -> (s < m)%nat -> rect nz ny nx a ->
  voxel (prepare_cyl m a) (j, k * m + s, i)%nat = voxel a (k, j, i).
Proof. intros Hz Hs Hr. unfold prepare_cyl. destruct (Nat.ltb_spec 1 m) as [Hm|Hm].
  - rewrite (swap01_voxel (nz * m) ny nx); [|nia|now apply repeat0_rect].
    unfold voxel, repeat0. rewrite nth_error_repeat0 by lia.
    replace ((k * m + s) / m)%nat with k; [reflexivity|]. rewrite Nat.add_comm, Nat.div_add by lia.
    rewrite Nat.div_small by lia. reflexivity.
  - assert (m = 1 /\ s = 0)%nat as [-> ->] by lia.
    rewrite (swap01_voxel nz ny nx) by auto. f_equal. f_equal. f_equal. lia. Qed.

Lemma prepare_cyl_size {A} m nz ny nx (a : arr A) : (0 < nz)%nat -> (0 < ny)%nat -> (0 < m)%nat -> rect nz ny nx a ->
  rect ny (nz * m) nx (prepare_cyl m a).
Proof. intros Hz Hy Hm Hr. unfold prepare_cyl.
  assert (G : forall n (b : arr A), (0 < n)%nat -> rect n ny nx b -> rect ny n nx (swap01 b)).
  { intros n b Hn Hb. destruct (rect_hd _ _ _ _ Hb Hn) as [Hd _]. pose proof Hb as [Hl Hf]. split.
    - unfold swap01. now rewrite map_length, seq_length.
    - unfold swap01. apply Forall_forall. intros p Hp. apply in_map_iff in Hp. destruct Hp as [j [<- Hj]].
      apply in_seq in Hj. rewrite map_length, seq_length. split; [exact Hl|].
      apply Forall_forall. intros r Hr'. apply in_map_iff in Hr'. destruct Hr' as [k [<- Hk]]. apply in_seq in Hk.
      unfold dim0 in Hk. rewrite Forall_forall in Hf. destruct (nth_error b k) as [p|] eqn:Ek; [|apply nth_error_None in Ek; lia].
      rewrite (nth_error_nth _ _ _ Ek). destruct (Hf p (nth_error_In _ _ Ek)) as [Hp1 Hp2].
      destruct (nth_error p j) as [r|] eqn:Ej; [|apply nth_error_None in Ej; lia].
      rewrite (nth_error_nth _ _ _ Ej). rewrite Forall_forall in Hp2. apply Hp2. eapply nth_error_In; eauto. }
  destruct (Nat.ltb_spec 1 m) as [H|H].
  - apply G; [nia|]. now apply repeat0_rect.
  - assert (m = 1)%nat as -> by lia. rewrite Nat.mul_1_r. now apply G. Qed.

(** ** C09: flux to GVR *)

Lemma in_flatten3 {A} (a : arr A) v : In v (flatten3 a) <-> exists x, voxel a x = Some v.
Proof. unfold flatten3. rewrite in_concat. split.
  - intros [r [Hr Hv]]. apply in_concat in Hr. destruct Hr as [p [Hp Hr]].
    apply In_nth_error in Hp. destruct Hp as [k Hk]. apply In_nth_error in Hr. destruct Hr as [j Hj].
    apply In_nth_error in Hv. destruct Hv as [i Hi]. exists (k, j, i). unfold voxel. now rewrite Hk, Hj.
  - intros [[[k j] i] Hx]. unfold voxel in Hx. destruct (nth_error a k) as [p|] eqn:Ek; [|discriminate].
    destruct (nth_error p j) as [r|] eqn:Ej; [|discriminate].
    exists r. split; [apply in_concat; exists p; split; eapply nth_error_In; eauto|eapply nth_error_In; eauto]. Qed.

Lemma dget_in_q {V} e (b : list (Q * V)) a : dget Qeq_bool e b = Some a -> In a (dvals b).
Proof. induction b as [|[k v] b IH]; simpl; [discriminate|]. destruct (Qeq_bool e k); intros H; [left; congruence|right; auto]. Qed.
Lemma in_dget_q {V} (b : list (Q * V)) a : distinct_energies (dkeys b) -> In a (dvals b) -> exists e, dget Qeq_bool e b = Some a.
Proof. unfold dkeys, dvals. induction b as [|[k v] b IH]; simpl; [tauto|]. intros Hd [->|H].
  - exists k. destruct (Qeqb_spec k k) as [_|N]; [reflexivity|exfalso; apply N; reflexivity].
  - inversion Hd as [|? ? Hx Hd']; subst. destruct (IH Hd' H) as [e He]. exists e.
    destruct (Qeqb_spec e k) as [E|E]; [|exact He]. exfalso.
    assert (G : exists e', In e' (map fst b) /\ e == e').
    { clear - He. induction b as [|[k' v'] b IH]; simpl in He; [discriminate|].
      destruct (Qeqb_spec e k') as [E|E]; [exists k'; simpl; auto|]. destruct (IH He) as [x [H1 H2]]. exists x. simpl; auto. }
    destruct G as [e' [H1 H2]]. rewrite Forall_forall in Hx. apply (Hx e' H1). rewrite <- H2. symmetry. exact E. Qed.

Lemma pair_ratio_compat a a' b b' : a == a' -> b == b' -> pair_ratio a b == pair_ratio a' b'.
Proof. intros Ha Hb. unfold pair_ratio.
  assert (E : Qle_bool a b = Qle_bool a' b').
  { destruct (Qle_bool a b) eqn:E1, (Qle_bool a' b') eqn:E2; try reflexivity; exfalso.
    - apply Qle_bool_iff in E1. assert (H : a' <= b') by lra. apply Qle_bool_iff in H. congruence.
    - apply Qle_bool_iff in E2. assert (H : a <= b) by lra. apply Qle_bool_iff in H. congruence. }
  rewrite E. destruct (Qle_bool a' b'); now rewrite Ha, Hb. Qed.

Lemma gvr_spec r b :
  distinct_energies (dkeys b) -> -1 < r ->
  (forall e x v, ebin_at b e x = Some v -> 0 <= v) -> (exists e x v, ebin_at b e x = Some v /\ 0 < v) ->
  exists b' m, flux_to_gvr Qops (2 / (r + 1)) b = Ok b' /\ 0 < m /\
    (forall e x, match ebin_at b e x, ebin_at b' e x with
       | Some v, Some g => g == v / m * (2 / (r + 1)) /\ 0 <= g <= 2 / (r + 1) /\ (g == 0 <-> v == 0)
       | None, None => True | _, _ => False end) /\
    (exists e x g, ebin_at b' e x = Some g /\ g == 2 / (r + 1)) /\
    (forall e x e2 x2 v v2 g g2, ebin_at b e x = Some v -> ebin_at b e2 x2 = Some v2 ->
       ebin_at b' e x = Some g -> ebin_at b' e2 x2 = Some g2 -> 0 < v -> 0 < v2 ->
       pair_ratio g g2 == pair_ratio v v2 /\ (v <= v2 <-> g <= g2)).
Proof. intros Hd Hr Hnn [e0 [x0 [v0 [H0 Hp0]]]].
  assert (Hin : forall e x v, ebin_at b e x = Some v -> In v (concat (map flatten3 (dvals b)))).
  { intros e x v. unfold ebin_at. destruct (dget Qeq_bool e b) as [a|] eqn:E; [|discriminate]. intros Hv.
    apply in_concat. exists (flatten3 a). split; [apply in_map; eapply dget_in_q; eauto|]. apply in_flatten3. eauto. }
  assert (Hout : forall v, In v (concat (map flatten3 (dvals b))) -> exists e x, ebin_at b e x = Some v).
  { intros v Hv. apply in_concat in Hv. destruct Hv as [l [Hl Hv]]. apply in_map_iff in Hl. destruct Hl as [a [<- Ha]].
    apply in_flatten3 in Hv. destruct Hv as [x Hx]. destruct (in_dget_q b a Hd Ha) as [e He].
    exists e, x. unfold ebin_at. now rewrite He. }
  unfold flux_to_gvr, flux_max. pose proof (Hin _ _ _ H0) as Hi0.
  destruct (concat (map flatten3 (dvals b))) as [|y ys] eqn:El; [destruct Hi0|].
  set (m := lmax Qops y ys). assert (Hm0 : v0 <= m) by (apply lmax_ge; exact Hi0).
  assert (Hm : 0 < m) by lra. simpl. destruct (Qeqb_spec m 0) as [E|_]; [exfalso; lra|].
  set (c := 2 / (r + 1)). assert (Hc : 0 < c) by (apply div_pos; lra).
  eexists; exists m; split; [reflexivity|]. split; [exact Hm|].
  set (b' := map (fun ea : Q * arr Q => (fst ea, map3 (fun x => x / m * c) (snd ea))) b).
  assert (Hat : forall e x, ebin_at b' e x = option_map (fun v => v / m * c) (ebin_at b e x)).
  { intros e x. unfold ebin_at, b'.
    pose proof (dget_map_q (fun _ a => map3 (fun x => x / m * c) a) e b) as H.
    destruct (dget Qeq_bool e b) as [a|]; [destruct H as [e' [_ ->]]; apply voxel_map3|]. now rewrite H. }
  assert (Hle : forall e x v, ebin_at b e x = Some v -> v <= m) by (intros e x v Hv; apply lmax_ge; eapply Hin; eauto).
  repeat split.
  - intros e x. rewrite Hat. destruct (ebin_at b e x) as [v|] eqn:Ev; simpl; [|exact I].
    pose proof (Hnn _ _ _ Ev) as Hv. pose proof (Hle _ _ _ Ev) as Hv2.
    assert (Hq0 : 0 <= v / m) by (apply Qle_shift_div_l; lra). assert (Hq1 : v / m <= 1) by (apply Qle_shift_div_r; lra).
    repeat split; try reflexivity; try nra.
    + intros G. assert (Hz : v / m == 0) by (destruct (Qlt_le_dec 0 (v / m)); nra).
      assert (v == v / m * m) as -> by (field; lra). rewrite Hz. ring.
    + intros ->. unfold Qdiv. ring.
  - destruct (Hout m (lmax_in y ys)) as [e [x Hx]]. exists e, x, (m / m * c). rewrite Hat, Hx. split; [reflexivity|].
    field. lra.
  - intros. rewrite Hat, H in H2. rewrite Hat, H1 in H3. simpl in H2, H3. inversion H2; inversion H3; subst.
    assert (Q1 : forall z, z / m * c == z * (c / m)) by (intros z; field; lra).
    assert (Hcm : 0 < c / m) by (apply div_pos; lra).
    transitivity (pair_ratio (v * (c / m)) (v2 * (c / m))).
    + apply pair_ratio_compat; apply Q1.
    + apply pair_ratio_scale; assumption.
  - intros Hvv. rewrite Hat, H in H2. rewrite Hat, H1 in H3. simpl in H2, H3. inversion H2; inversion H3; subst.
    assert (v / m <= v2 / m). { apply Qle_shift_div_l; [exact Hm|]. assert (v / m * m == v) as -> by (field; lra). exact Hvv. } nra.
  - intros Hgg. rewrite Hat, H in H2. rewrite Hat, H1 in H3. simpl in H2, H3. inversion H2; inversion H3; subst.
    assert (v / m <= v2 / m) by nra. assert (v == v / m * m) as -> by (field; lra). assert (v2 == v2 / m * m) as -> by (field; lra). nra.
Qed.
