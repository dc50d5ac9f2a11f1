From Verif Require Import PyBase PyLemmas WWModel WWSpec.
From Coq Require Import Lqa.
Open Scope Q_scope.

Lemma Qltb_lt a b : Qltb a b = true <-> a < b.
Proof. unfold Qltb. rewrite negb_true_iff. split; intros H.
  - apply Qnot_le_lt. intros Hc. apply Qle_bool_iff in Hc. congruence.
  - destruct (Qle_bool b a) eqn:E; [|reflexivity]. apply Qle_bool_iff in E. exfalso. lra. Qed.
Lemma Qltb_ge a b : Qltb a b = false <-> b <= a.
Proof. split; intros H.
  - apply Qnot_lt_le. intros Hc. apply Qltb_lt in Hc. congruence.
  - destruct (Qltb a b) eqn:E; [|reflexivity]. apply Qltb_lt in E. lra. Qed.
Lemma Qltb_spec a b : BoolSpec (a < b) (b <= a) (Qltb a b).
Proof. destruct (Qltb a b) eqn:E; constructor; [now apply Qltb_lt|now apply Qltb_ge]. Qed.
Lemma Qeqb_spec a b : BoolSpec (a == b) (~ a == b) (Qeq_bool a b).
Proof. destruct (Qeq_bool a b) eqn:E; constructor; [now apply Qeq_bool_iff|now apply Qeq_bool_neq]. Qed.

(** ** maximum *)
Lemma lmax_in x l : In (lmax Qops x l) (x :: l).
Proof. revert x; induction l as [|y l IH]; intros x; cbn [lmax]; [left; reflexivity|].
  destruct (IH (omax Qops x y)) as [H|H]; [|right; right; exact H].
  rewrite <- H. unfold omax; simpl. destruct (Qltb x y); auto. Qed.
Lemma lmax_ge x l y : In y (x :: l) -> y <= lmax Qops x l.
Proof. revert x y; induction l as [|z l IH]; intros x y H; cbn [lmax].
  - destruct H as [->|[]]. lra.
  - assert (Hm : x <= omax Qops x z /\ z <= omax Qops x z).
    { unfold omax; simpl. destruct (Qltb_spec x z); split; lra. }
    destruct H as [->|[->|H]].
    + eapply Qle_trans; [apply Hm|]. apply IH; left; reflexivity.
    + eapply Qle_trans; [apply Hm|]. apply IH; left; reflexivity.
    + apply IH; right; exact H. Qed.

(** ** one pair *)
Lemma div_pos a b : 0 < a -> 0 < b -> 0 < a / b.
Proof. intros Ha Hb. apply Qlt_shift_div_l; [exact Hb|]. lra. Qed.
Lemma pair_ratio_ge1 a b : 0 < a -> 0 < b -> 1 <= pair_ratio a b.
Proof. intros Ha Hb. unfold pair_ratio. destruct (Qle_bool a b) eqn:E.
  - apply Qle_bool_iff in E. apply Qle_shift_div_l; lra.
  - apply Qle_shift_div_l; [lra|]. assert (~ a <= b) by (intros H; apply Qle_bool_iff in H; congruence). lra. Qed.

Lemma inv_div_pos v b : 0 <= v -> 0 <= b ->
  match invert_small Qops (divx Qops v b) with
  | Fin x => 0 < v /\ 0 < b /\ x == pair_ratio v b
  | _ => v == 0 \/ b == 0
  end.
Proof. intros Hv Hb. unfold divx; simpl.
  destruct (Qeqb_spec b 0) as [Eb|Eb].
  - destruct (Qeqb_spec v 0) as [Ev|Ev]; simpl; [now left|].
    destruct (Qltb_spec 0 v) as [Hlt|Hge]; simpl; [now right|]. exfalso. apply Ev. lra.
  - assert (Hb' : 0 < b) by lra. simpl.
    destruct (Qltb_spec (v / b) 1) as [Hlt|Hge].
    + destruct (Qeqb_spec (v / b) 0) as [E0|E0].
      * left. assert (v == v / b * b) as -> by (field; exact Eb). rewrite E0. ring.
      * assert (Hv' : 0 < v).
        { destruct (Qlt_le_dec 0 v) as [H|H]; [exact H|]. exfalso. apply E0.
          assert (v == 0) as -> by lra. unfold Qdiv. ring. }
        repeat split; auto. unfold pair_ratio.
        assert (Hle : v <= b).
        { assert (v == v / b * b) as -> by (field; exact Eb). nra. }
        apply Qle_bool_iff in Hle. rewrite Hle. field. split; [lra|]. lra.
    + assert (Hv' : 0 < v).
      { assert (v == v / b * b) as -> by (field; exact Eb). nra. }
      repeat split; auto. unfold pair_ratio.
      destruct (Qle_bool v b) eqn:El; [|reflexivity].
      apply Qle_bool_iff in El.
      assert (b <= v) by (assert (v == v / b * b) as -> by (field; exact Eb); nra).
      assert (Heq : v == b) by lra. rewrite Heq. reflexivity. Qed.

Lemma finite_only_in {A} (x : A) l : In x (finite_only l) <-> In (Fin x) l.
Proof. unfold finite_only. rewrite in_flat_map. split.
  - intros [[y| | |] [H1 H2]]; simpl in H2; try tauto. destruct H2 as [->|[]]; exact H1.
  - intros H. exists (Fin x). split; [exact H|left; reflexivity]. Qed.

Lemma max_ratio_of_spec v nbs : 0 <= v -> (forall b, In b nbs -> 0 <= b) ->
  let r := max_ratio_of Qops v nbs in
  1 <= r /\ (forall b, In b nbs -> 0 < v -> 0 < b -> pair_ratio v b <= r) /\
  (r == 1 \/ exists b, In b nbs /\ 0 < v /\ 0 < b /\ r == pair_ratio v b).
Proof. intros Hv Hnb r.
  set (fs := finite_only (map (fun b => invert_small Qops (divx Qops v b)) nbs)).
  assert (Hin : forall x, In x fs -> exists b, In b nbs /\ 0 < v /\ 0 < b /\ x == pair_ratio v b).
  { intros x Hx. apply finite_only_in in Hx. apply in_map_iff in Hx. destruct Hx as [b [Hb1 Hb2]].
    pose proof (inv_div_pos v b Hv (Hnb b Hb2)) as H. rewrite Hb1 in H. exists b. tauto. }
  assert (Hall : forall b, In b nbs -> 0 < v -> 0 < b -> exists x, In x fs /\ x == pair_ratio v b).
  { intros b Hb Hv' Hb'. pose proof (inv_div_pos v b Hv (Hnb b Hb)) as H.
    destruct (invert_small Qops (divx Qops v b)) as [x| | |] eqn:E; try (exfalso; lra).
    exists x. split; [|tauto]. apply finite_only_in. rewrite <- E. apply (in_map (fun b => invert_small Qops (divx Qops v b))). exact Hb. }
  unfold max_ratio_of in r. fold fs in r.
  destruct fs as [|x xs] eqn:Efs; subst r.
  - repeat split; [simpl; lra| |left; reflexivity].
    intros b Hb Hv' Hb'. destruct (Hall b Hb Hv' Hb') as [x [[] _]].
  - destruct (Hin _ (lmax_in x xs)) as [b [Hb1 [Hb2 [Hb3 Hb4]]]].
    repeat split.
    + rewrite Hb4. now apply pair_ratio_ge1.
    + intros c Hc Hv' Hc'. destruct (Hall c Hc Hv' Hc') as [y [Hy1 Hy2]]. rewrite <- Hy2. now apply lmax_ge.
    + right. exists b. auto. Qed.

(** ** arrays *)
Lemma get3z_voxel {A} (a : arr A) k j i : get3z a (Z.of_nat k) (Z.of_nat j) (Z.of_nat i) = voxel a (k, j, i).
Proof. unfold get3z, voxel. 
  destruct (Z.ltb_spec (Z.of_nat k) 0), (Z.ltb_spec (Z.of_nat j) 0), (Z.ltb_spec (Z.of_nat i) 0); try lia.
  simpl. now rewrite !Nat2Z.id. Qed.

Lemma get3z_some {A} (a : arr A) k j i v : get3z a k j i = Some v ->
  exists k' j' i', k = Z.of_nat k' /\ j = Z.of_nat j' /\ i = Z.of_nat i' /\ voxel a (k', j', i') = Some v.
Proof. unfold get3z. destruct (Z.ltb_spec k 0), (Z.ltb_spec j 0), (Z.ltb_spec i 0); simpl; try discriminate.
  intros Hv. exists (Z.to_nat k), (Z.to_nat j), (Z.to_nat i). repeat split; try lia. exact Hv. Qed.

Lemma neighbour_in a k j i b :
  In b (neighbour_values Qops a (Z.of_nat k) (Z.of_nat j) (Z.of_nat i)) ->
  b = 0 \/ exists q, adjacent (k, j, i) q /\ voxel a q = Some b.
Proof. unfold neighbour_values. intros H. apply in_map_iff in H. destruct H as [[[k' j'] i'] [H1 H2]].
  destruct (get3z a k' j' i') as [v|] eqn:E; [|left; subst; reflexivity]. subst b. right.
  destruct (get3z_some _ _ _ _ _ E) as [k2 [j2 [i2 [-> [-> [-> Hv]]]]]].
  exists (k2, j2, i2). split; [|exact Hv]. unfold adjacent, next.
  repeat (destruct H2 as [H2|H2]; [injection H2; clear H2; intros; lia|]). destruct H2. Qed.

Lemma neighbour_all a k j i q b : adjacent (k, j, i) q -> voxel a q = Some b ->
  In b (neighbour_values Qops a (Z.of_nat k) (Z.of_nat j) (Z.of_nat i)).
Proof. destruct q as [[k' j'] i']. intros Ha Hv. unfold neighbour_values. apply in_map_iff.
  exists (Z.of_nat k', Z.of_nat j', Z.of_nat i'). rewrite get3z_voxel, Hv. split; [reflexivity|].
  unfold adjacent, next in Ha. simpl.
  destruct Ha as [[-> [-> [Ha|Ha]]]|[[-> [[Ha|Ha] ->]]|[[Ha|Ha] [-> ->]]]]; subst.
  - right; left. repeat f_equal; lia.
  - left. repeat f_equal; lia.
  - do 3 right; left. repeat f_equal; lia.
  - do 2 right; left. repeat f_equal; lia.
  - do 5 right; left. repeat f_equal; lia.
  - do 4 right; left. repeat f_equal; lia. Qed.

Lemma nth_error_map_seq {A} (f : nat -> A) n i : nth_error (map f (seq 0 n)) i = if (i <? n)%nat then Some (f i) else None.
Proof. rewrite nth_error_map. destruct (Nat.ltb_spec i n).
  - rewrite (nth_error_nth' _ 0%nat) by (rewrite seq_length; lia). now rewrite seq_nth.
  - rewrite (proj2 (nth_error_None _ _)); [reflexivity|rewrite seq_length; lia]. Qed.

Lemma rect_hd {A} nz ny nx (a : arr A) : rect nz ny nx a -> (0 < nz)%nat -> dim1 a = ny /\ ((0 < ny)%nat -> dim2 a = nx).
Proof. intros [H1 H2] Hz. destruct a as [|p a]; [simpl in H1; lia|].
  inversion H2 as [|? ? [Hp Hr] _]; subst. unfold dim1, dim2; simpl. split; [reflexivity|].
  intros Hy. destruct p as [|r p]; [simpl in Hy; lia|]. inversion Hr; subst; auto. Qed.

Lemma rect_voxel {A} nz ny nx (a : arr A) k j i : rect nz ny nx a ->
  ((k < nz)%nat /\ (j < ny)%nat /\ (i < nx)%nat) <-> exists v, voxel a (k, j, i) = Some v.
Proof. intros [H1 H2]. unfold voxel. split.
  - intros [Hk [Hj Hi]].
    destruct (nth_error a k) as [p|] eqn:Ek; [|apply nth_error_None in Ek; lia].
    rewrite Forall_forall in H2. destruct (H2 p (nth_error_In _ _ Ek)) as [Hp Hr].
    destruct (nth_error p j) as [r|] eqn:Ej; [|apply nth_error_None in Ej; lia].
    rewrite Forall_forall in Hr. specialize (Hr r (nth_error_In _ _ Ej)).
    destruct (nth_error r i) as [v|] eqn:Ei; [eauto|apply nth_error_None in Ei; lia].
  - intros [v Hv].
    destruct (nth_error a k) as [p|] eqn:Ek; [|discriminate].
    rewrite Forall_forall in H2. destruct (H2 p (nth_error_In _ _ Ek)) as [Hp Hr].
    destruct (nth_error p j) as [r|] eqn:Ej; [|discriminate].
    rewrite Forall_forall in Hr. specialize (Hr r (nth_error_In _ _ Ej)).
    repeat split; [rewrite <- H1|rewrite <- Hp|rewrite <- Hr]; apply nth_error_Some; congruence. Qed.

Lemma calc_voxel {A} (O : ops A) nz ny nx a k j i : rect nz ny nx a ->
  voxel (calc_ratios O a) (k, j, i) =
  match voxel a (k, j, i) with Some _ => Some (ratio_at O a k j i) | None => None end.
Proof. intros Hr. pose proof (rect_voxel nz ny nx a k j i Hr) as Hv.
  pose proof (rect_hd _ _ _ _ Hr) as Hd. destruct Hr as [Hl _].
  unfold calc_ratios. unfold voxel at 1. rewrite nth_error_map_seq.
  unfold dim0. rewrite Hl.
  destruct (Nat.ltb_spec k nz) as [Hk|Hk].
  - destruct Hd as [Hd1 Hd2]; [lia|]. rewrite nth_error_map_seq, Hd1.
    destruct (Nat.ltb_spec j ny) as [Hj|Hj].
    + rewrite nth_error_map_seq, Hd2 by lia.
      destruct (Nat.ltb_spec i nx) as [Hi|Hi].
      * destruct (proj1 Hv) as [v Hv']; [auto|]. rewrite Hv'. reflexivity.
      * destruct (voxel a (k, j, i)) as [v|]; [|reflexivity]. destruct Hv as [_ Hv]; specialize (Hv (ex_intro _ _ eq_refl)). lia.
    + destruct (voxel a (k, j, i)) as [v|]; [|reflexivity]. destruct Hv as [_ Hv]; specialize (Hv (ex_intro _ _ eq_refl)). lia.
  - destruct (voxel a (k, j, i)) as [v|]; [|reflexivity]. destruct Hv as [_ Hv]; specialize (Hv (ex_intro _ _ eq_refl)). lia.
Qed.

Lemma calc_rect {A} (O : ops A) nz ny nx a : rect nz ny nx a -> rect nz ny nx (calc_ratios O a).
Proof. intros Hr. pose proof (rect_hd _ _ _ _ Hr) as Hd. destruct Hr as [Hl _]. split.
  - unfold calc_ratios. rewrite map_length, seq_length. exact Hl.
  - apply Forall_forall. intros p Hp. unfold calc_ratios in Hp. apply in_map_iff in Hp. destruct Hp as [k [<- Hk]].
    apply in_seq in Hk. unfold dim0 in Hk. destruct Hd as [Hd1 Hd2]; [lia|].
    rewrite map_length, seq_length. split; [exact Hd1|].
    apply Forall_forall. intros r Hr. apply in_map_iff in Hr. destruct Hr as [j [<- Hj]]. apply in_seq in Hj.
    rewrite map_length, seq_length. apply Hd2. lia. Qed.

Lemma ratio_is_ratio nz ny nx a p v : rect nz ny nx a -> nonneg a -> voxel a p = Some v ->
  exists r, voxel (calc_ratios Qops a) p = Some r /\ is_ratio a p r.
Proof. destruct p as [[k j] i]. intros Hr Hn Hv. rewrite (calc_voxel _ nz ny nx) by exact Hr. rewrite Hv.
  eexists; split; [reflexivity|]. unfold ratio_at. rewrite get3z_voxel, Hv.
  destruct (max_ratio_of_spec v (neighbour_values Qops a (Z.of_nat k) (Z.of_nat j) (Z.of_nat i))) as [H1 [H2 H3]].
  - eapply Hn; eauto.
  - intros b Hb. destruct (neighbour_in _ _ _ _ _ Hb) as [->|[q [_ Hq]]]; [lra|eapply Hn; eauto].
  - split; [exact H1|]. split.
    + intros q v' b Ha Hv' Hb Hp Hp'. rewrite Hv in Hv'; inversion Hv'; subst v'.
      apply H2; auto. eapply neighbour_all; eauto.
    + destruct H3 as [H3|[b [Hb [Hp [Hp' He]]]]]; [left; exact H3|].
      destruct (neighbour_in _ _ _ _ _ Hb) as [->|[q [Ha Hq]]]; [exfalso; lra|].
      right. exists q, v, b. auto 10. Qed.

Lemma is_ratio_unique a p r r' : is_ratio a p r -> is_ratio a p r' -> r == r'.
Proof. assert (H : forall r r', is_ratio a p r -> is_ratio a p r' -> r <= r').
  { intros x y [_ [_ H3]] [G1 [G2 _]]. destruct H3 as [->|[q [v [b [Ha [Hv [Hb [Hp [Hp' ->]]]]]]]]]; [exact G1|].
    eapply G2; eauto. }
  intros H1 H2. pose proof (H _ _ H1 H2). pose proof (H _ _ H2 H1). lra. Qed.

(** ** mitigation of one array *)
Lemma nth_error_zipw {X Y Z} (f : X -> Y -> Z) l l' i :
  nth_error (zipw f l l') i =
  match nth_error l i, nth_error l' i with Some x, Some y => Some (f x y) | _, _ => None end.
Proof. revert l' i; induction l as [|x l IH]; intros [|y l'] [|i]; simpl; try reflexivity.
  - destruct (nth_error l i); reflexivity.
  - apply IH. Qed.

Lemma zipw_length {X Y Z} (f : X -> Y -> Z) l l' : length l = length l' -> length (zipw f l l') = length l'.
Proof. revert l'; induction l as [|x l IH]; intros [|y l'] H; simpl in *; try lia. rewrite IH; lia. Qed.

Lemma voxel_zip3 {X Y Z} (f : X -> Y -> Z) (a : arr X) (b : arr Y) p :
  voxel (zipw (zipw (zipw f)) a b) p =
  match voxel a p, voxel b p with Some x, Some y => Some (f x y) | _, _ => None end.
Proof. destruct p as [[k j] i]. unfold voxel. rewrite nth_error_zipw.
  destruct (nth_error a k) as [pa|]; [|reflexivity].
  destruct (nth_error b k) as [pb|]; [|destruct (nth_error pa j) as [ra|]; [destruct (nth_error ra i)|]; reflexivity].
  rewrite nth_error_zipw.
  destruct (nth_error pa j) as [ra|]; [|reflexivity].
  destruct (nth_error pb j) as [rb|]; [|destruct (nth_error ra i); reflexivity].
  apply nth_error_zipw. Qed.

Lemma zipw_nil_r {X Y Z} (f : X -> Y -> Z) l : zipw f l [] = [].
Proof. destruct l; reflexivity. Qed.
Lemma zip3_rect {X Y Z} (f : X -> Y -> Z) nz ny nx (a : arr X) (b : arr Y) :
  rect nz ny nx a -> rect nz ny nx b -> rect nz ny nx (zipw (zipw (zipw f)) a b).
Proof. intros [H1 H2] [H3 H4]. split; [rewrite zipw_length; congruence|].
  clear H1 H3. revert b H4. induction H2 as [|pa a [Hp Hr] H2 IH]; intros b H4; [constructor|].
  destruct b as [|pb b]; [constructor|]. inversion H4 as [|? ? [Hp' Hr'] H4']; subst.
  simpl. constructor; [|apply IH; exact H4'].
  split; [rewrite zipw_length; congruence|]. clear - Hr Hr'.
  revert pb Hr'. induction Hr as [|ra pa Hra Hr IHr]; intros pb Hr'; [constructor|].
  destruct pb as [|rb pb]; [constructor|]. inversion Hr'; subst. simpl. constructor.
  - rewrite zipw_length; congruence.
  - apply IHr; assumption. Qed.

Lemma arr_ext {A} nz ny nx (a b : arr A) : rect nz ny nx a -> rect nz ny nx b ->
  (forall p, voxel a p = voxel b p) -> a = b.
Proof. intros [Ha1 Ha2] [Hb1 Hb2] H. apply nth_error_ext. intros k.
  destruct (nth_error a k) as [pa|] eqn:Ea, (nth_error b k) as [pb|] eqn:Eb; try reflexivity.
  - f_equal. rewrite Forall_forall in Ha2, Hb2.
    destruct (Ha2 _ (nth_error_In _ _ Ea)) as [Hpa Hra]. destruct (Hb2 _ (nth_error_In _ _ Eb)) as [Hpb Hrb].
    apply nth_error_ext. intros j.
    destruct (nth_error pa j) as [ra|] eqn:Ea2, (nth_error pb j) as [rb|] eqn:Eb2; try reflexivity.
    + f_equal. apply nth_error_ext. intros i. specialize (H (k, j, i)). unfold voxel in H.
      rewrite Ea, Eb, Ea2, Eb2 in H. exact H.
    + apply nth_error_None in Eb2. assert (nth_error pa j <> None) as Hx by congruence. apply nth_error_Some in Hx. lia.
    + apply nth_error_None in Ea2. assert (nth_error pb j <> None) as Hx by congruence. apply nth_error_Some in Hx. lia.
  - apply nth_error_None in Eb. assert (nth_error a k <> None) as Hx by congruence. apply nth_error_Some in Hx. lia.
  - apply nth_error_None in Ea. assert (nth_error b k <> None) as Hx by congruence. apply nth_error_Some in Hx. lia.
Qed.

Definition mit (r : Q) (a : arr Q) : arr Q := mask3 Qops r (calc_ratios Qops a) a.

Lemma mit_voxel nz ny nx r a p : rect nz ny nx a ->
  voxel (mit r a) p = match voxel a p, voxel (calc_ratios Qops a) p with
                      | Some v, Some rv => Some (if Qltb r rv then 0 else v) | _, _ => None end.
Proof. intros H. unfold mit, mask3. rewrite voxel_zip3. simpl.
  destruct (voxel (calc_ratios Qops a) p), (voxel a p); reflexivity. Qed.

Lemma mit_rect nz ny nx r a : rect nz ny nx a -> rect nz ny nx (mit r a).
Proof. intros H. apply zip3_rect; [apply calc_rect|]; exact H. Qed.

Lemma mit_nonneg nz ny nx r a : rect nz ny nx a -> nonneg a -> nonneg (mit r a).
Proof. intros H Hn p v. rewrite (mit_voxel nz ny nx) by exact H.
  destruct (voxel a p) as [x|] eqn:E; [|discriminate].
  destruct (voxel (calc_ratios Qops a) p); [|discriminate].
  intros Hv; inversion Hv. destruct (Qltb r q); [lra|]. eapply Hn; eauto. Qed.

Lemma mit_pos nz ny nx r a p v : rect nz ny nx a -> voxel (mit r a) p = Some v -> 0 < v ->
  voxel a p = Some v /\ exists rv, voxel (calc_ratios Qops a) p = Some rv /\ rv <= r.
Proof. intros H. rewrite (mit_voxel nz ny nx) by exact H.
  destruct (voxel a p) as [x|]; [|discriminate]. destruct (voxel (calc_ratios Qops a) p) as [rv|]; [|discriminate].
  intros Hv Hp. inversion Hv. destruct (Qltb_spec r rv); [exfalso; subst; lra|]. eauto. Qed.

Lemma mit_ratio nz ny nx r a p rv rv' : rect nz ny nx a -> nonneg a -> 
  voxel (calc_ratios Qops a) p = Some rv -> voxel (calc_ratios Qops (mit r a)) p = Some rv' ->
  rv' <= rv /\ (1 <= r -> rv' <= r).
Proof. intros Hr Hn H1 H2.
  assert (Hm : rect nz ny nx (mit r a)) by (apply mit_rect; exact Hr).
  assert (Hvm : exists v', voxel (mit r a) p = Some v').
  { destruct p as [[k j] i]. apply (rect_voxel nz ny nx _ k j i Hm).
    apply (rect_voxel nz ny nx _ k j i (calc_rect Qops _ _ _ _ Hm)). eauto. }
  destruct Hvm as [v' Hv'].
  destruct (ratio_is_ratio nz ny nx (mit r a) p v' Hm (mit_nonneg nz ny nx r a Hr Hn) Hv') as [x [Hx1 Hx2]].
  rewrite H2 in Hx1; inversion Hx1; subst x.
  assert (Hva : exists v, voxel a p = Some v).
  { destruct p as [[k j] i]. apply (rect_voxel nz ny nx _ k j i Hr).
    apply (rect_voxel nz ny nx _ k j i (calc_rect Qops _ _ _ _ Hr)). eauto. }
  destruct Hva as [v Hv].
  destruct (ratio_is_ratio nz ny nx a p v Hr Hn Hv) as [x [Hx1' Hx2']].
  rewrite H1 in Hx1'; inversion Hx1'; subst x.
  destruct Hx2 as [_ [_ [->|[q [w [b [Ha [Hw [Hb [Hpw [Hpb ->]]]]]]]]]]].
  - destruct Hx2' as [G _]. split; lra.
  - destruct (mit_pos nz ny nx r a p w Hr Hw Hpw) as [Hw' [rw [Hrw1 Hrw2]]].
    destruct (mit_pos nz ny nx r a q b Hr Hb Hpb) as [Hb' _].
    rewrite H1 in Hrw1; inversion Hrw1; subst rw.
    destruct Hx2' as [_ [G2 _]]. specialize (G2 q w b Ha Hw' Hb' Hpw Hpb). split; [exact G2|intros; lra]. Qed.

Lemma mit_idem nz ny nx r a : rect nz ny nx a -> nonneg a -> 1 <= r -> mit r (mit r a) = mit r a.
Proof. intros Hr Hn H1. apply (arr_ext nz ny nx); try (apply mit_rect; try apply mit_rect; exact Hr).
  intros p. rewrite (mit_voxel nz ny nx) by (apply mit_rect; exact Hr).
  destruct (voxel (mit r a) p) as [v|] eqn:E; [|reflexivity].
  destruct p as [[k j] i].
  assert (Hex : exists x, voxel (calc_ratios Qops (mit r a)) (k, j, i) = Some x).
  { apply (rect_voxel nz ny nx); [apply calc_rect, mit_rect; exact Hr|]. apply (rect_voxel nz ny nx _ k j i (mit_rect _ _ _ r _ Hr)). eauto. }
  destruct Hex as [x Hx]. rewrite Hx.
  assert (Hex : exists y, voxel (calc_ratios Qops a) (k, j, i) = Some y).
  { apply (rect_voxel nz ny nx); [apply calc_rect; exact Hr|]. apply (rect_voxel nz ny nx _ k j i (mit_rect _ _ _ r _ Hr)). eauto. }
  destruct Hex as [y Hy].
  destruct (mit_ratio nz ny nx r a (k, j, i) y x Hr Hn Hy Hx) as [_ Hle]. specialize (Hle H1).
  destruct (Qltb_spec r x); [exfalso; lra|reflexivity]. Qed.
