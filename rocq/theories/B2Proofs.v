From Verif Require Import PyBase PyLemmas B2Model B2Spec.
From Coq Require Import Lqa.
Open Scope Q_scope.

(** 3-step characterisation of the index filters. *)
Fixpoint every3 (v : list Q) : list Q :=
  match v with
  | x :: _ :: _ :: v' => x :: every3 v'
  | x :: _ => [x]
  | [] => []
  end.
Fixpoint third (v : list Q) : list Z :=
  match v with
  | _ :: _ :: z :: v' => qtrunc z :: third v'
  | _ => []
  end.

Lemma list3_ind (P : list Q -> Prop) :
  P [] -> (forall x, P [x]) -> (forall x y, P [x; y]) ->
  (forall x y z v, P v -> P (x :: y :: z :: v)) -> forall v, P v.
Proof. intros H0 H1 H2 H3. fix IH 1. intros [|x [|y [|z v]]]; [apply H0|apply H1|apply H2|apply H3, IH]. Qed.

Lemma seq_map_add k n : seq k n = map (fun i => (k + i)%nat) (seq 0 n).
Proof. induction k as [|k IH]; [now rewrite map_id|].
  rewrite <- seq_shift, IH, map_map. reflexivity. Qed.

Lemma mod3_add i : (S (S (S i)) mod 3 = i mod 3)%nat.
Proof. replace (S (S (S i)))%nat with (i + 1 * 3)%nat by lia. apply Nat.mod_add; lia. Qed.

Lemma filter_map_comm {A B} (f : A -> B) p l : filter p (map f l) = map f (filter (fun x => p (f x)) l).
Proof. induction l as [|x l IH]; simpl; [reflexivity|]. destruct (p (f x)); simpl; now rewrite IH. Qed.

Lemma seq3 n : seq 0 (3 + n) = 0%nat :: 1%nat :: 2%nat :: map (fun i => S (S (S i))) (seq 0 n).
Proof. cbn [Nat.add seq]. rewrite (seq_map_add 3). reflexivity. Qed.

Lemma coarse_every3 v : coarse_of v = every3 v.
Proof. unfold coarse_of. induction v as [| | |x y z v IH] using list3_ind; try reflexivity.
  change (length (x :: y :: z :: v)) with (3 + length v)%nat. rewrite seq3.
  change (filter _ (0%nat :: 1%nat :: 2%nat :: ?l)) with (0%nat :: filter (fun i => Nat.eqb (i mod 3) 0) l).
  rewrite filter_map_comm. cbn [map nth every3]. rewrite map_map. f_equal. rewrite <- IH.
  assert (E : filter (fun x0 : nat => (S (S (S x0)) mod 3 =? 0)%nat) (seq 0 (length v))
          = filter (fun i => (i mod 3 =? 0)%nat) (seq 0 (length v))).
  { apply filter_ext. intros i. now rewrite mod3_add. }
  rewrite E. reflexivity. Qed.

Lemma fine_third v : fine_of v = third v.
Proof. unfold fine_of. induction v as [| | |x y z v IH] using list3_ind; try reflexivity.
  change (length (x :: y :: z :: v)) with (3 + length v)%nat. rewrite seq3.
  change (filter _ (0%nat :: 1%nat :: 2%nat :: ?l)) with
    (0%nat :: filter (fun j => Nat.eqb (j mod 3) 0 && Nat.ltb (j + 2) (3 + length v)) l).
  rewrite filter_map_comm. cbn [map nth third Nat.add]. rewrite map_map. f_equal. rewrite <- IH.
  match goal with |- map ?f (filter ?p ?l) = map ?g (filter ?q ?l) =>
    replace (filter p l) with (filter q l) by (apply filter_ext; intros i; cbn [Nat.add]; rewrite mod3_add; reflexivity) end.
  apply map_ext. intros i. reflexivity. Qed.

Lemma qtrunc_inject n : qtrunc (inject_Z n) = n.
Proof. unfold qtrunc, inject_Z; simpl. apply Z.quot_1_r. Qed.


Lemma layout_dec c0 rest :
  every3 (c0 :: 1 :: b2_tail rest) = c0 :: map snd rest /\
  third (c0 :: 1 :: b2_tail rest) = map fst rest.
Proof. revert c0; induction rest as [|[n c] r IH]; intros c0; [split; reflexivity|].
  destruct (IH c) as [H1 H2].
  unfold b2_tail in *; cbn [flat_map app fst snd] in *. cbn [every3 third map fst snd] in *.
  rewrite qtrunc_inject. split; f_equal; assumption. Qed.

Lemma decompose_layout c0 rest :
  decompose_b2 (b2_layout c0 rest) = Ok (c0 :: map snd rest, map fst rest).
Proof. unfold decompose_b2, b2_layout; simpl. rewrite coarse_every3, fine_third.
  destruct (layout_dec c0 rest) as [-> ->]. reflexivity. Qed.

Lemma compose_loop_full c0 rest :
  compose_loop (c0 :: map snd rest) (map fst rest) = Ok (c0 :: 1 :: b2_tail rest).
Proof. revert c0; induction rest as [|[n c] r IH]; intros c0; [reflexivity|].
  cbn [map snd fst].
  change (compose_loop (c0 :: c :: map snd r) (n :: map fst r)) with
    (do r0 <- compose_loop (c :: map snd r) (map fst r); Ok (c0 :: 1 :: inject_Z n :: r0)).
  rewrite IH. reflexivity. Qed.

Lemma qlist_eq_refl l : qlist_eq l l.
Proof. induction l; constructor; auto; reflexivity. Qed.

Lemma compose_layout c0 rest :
  exists v, compose_b2 (c0 :: map snd rest) (map fst rest) = Ok v /\ qlist_eq v (b2_layout c0 rest).
Proof. unfold compose_b2. rewrite compose_loop_full. simpl bind.
  eexists; split; [reflexivity|]. cbn [remove_first].
  destruct (Qeq_bool c0 1) eqn:E.
  - apply Qeq_bool_iff in E. unfold b2_layout. constructor; [symmetry; exact E|apply qlist_eq_refl].
  - apply qlist_eq_refl. Qed.

Lemma zip_split {A B} (l : list A) (l' : list B) : length l = length l' ->
  exists r, l = map fst r /\ l' = map snd r.
Proof. intros H. exists (combine l l'). revert l' H; induction l as [|x l IH]; intros [|y l'] H; try discriminate; [split; reflexivity|].
  simpl. destruct (IH l') as [H1 H2]; [simpl in H; lia|]. split; congruence. Qed.

Lemma forall2_nth v v' i : qlist_eq v v' -> nth i v 0 == nth i v' 0.
Proof. intros H. revert i. induction H as [|x y l l' Hx Hl IH]; intros [|i]; simpl; auto; reflexivity. Qed.

Lemma qtrunc_compat a b : a == b -> qtrunc a = qtrunc b.
Proof. unfold qtrunc, Qeq. destruct a as [n d], b as [n' d']; simpl. intros H.
  rewrite <- (Z.quot_mul_cancel_r n (Zpos d) (Zpos d')) by lia.
  rewrite <- (Z.quot_mul_cancel_r n' (Zpos d') (Zpos d)) by lia.
  rewrite H. f_equal. lia. Qed.

Lemma every3_compat v v' : qlist_eq v v' -> qlist_eq (every3 v) (every3 v') /\ third v = third v'.
Proof. revert v'. induction v as [| | |x y z v IH] using list3_ind; intros v' H.
  - inversion H; subst. split; [constructor|reflexivity].
  - inversion H as [|? ? ? ? Hx H']; subst. inversion H'; subst. split; [repeat constructor; auto|reflexivity].
  - inversion H as [|? ? ? ? Hx H']; subst. inversion H' as [|? ? ? ? Hy H'']; subst. inversion H''; subst.
    split; [repeat constructor; auto|reflexivity].
  - inversion H as [|? ? ? ? Hx H']; subst. inversion H' as [|? ? ? ? Hy H'']; subst. inversion H'' as [|? ? ? ? Hz H3]; subst.
    destruct (IH _ H3) as [I1 I2]. cbn [every3 third]. split; [constructor; auto|].
    f_equal; auto. now apply qtrunc_compat. Qed.

(** compose then decompose *)
Lemma compose_decompose coarse fine : length coarse = S (length fine) ->
  exists b2 coarse', compose_b2 coarse fine = Ok b2 /\
    decompose_b2 b2 = Ok (coarse', fine) /\ qlist_eq coarse' coarse.
Proof. intros H. destruct coarse as [|c0 cs]; [discriminate|].
  destruct (zip_split fine cs) as [r [-> ->]]; [simpl in H; lia|].
  destruct (compose_layout c0 r) as [v [Hv Heq]].
  exists v. destruct v as [|v0 vs]; [inversion Heq|].
  inversion Heq as [|? ? ? ? H0 Ht]; subst.
  assert (Hq : qlist_eq (v0 :: 1 :: vs) (c0 :: 1 :: b2_tail r)) by (constructor; [auto|constructor; [reflexivity|auto]]).
  destruct (every3_compat _ _ Hq) as [E1 E2].
  eexists; split; [exact Hv|]. unfold decompose_b2; cbn [insert_filler bind].
  rewrite coarse_every3, fine_third, E2. destruct (layout_dec c0 r) as [L1 L2].
  rewrite L2. split; [reflexivity|]. now rewrite L1 in E1. Qed.

(** decompose then compose *)
Lemma decompose_compose c0 rest :
  exists coarse fine v, decompose_b2 (b2_layout c0 rest) = Ok (coarse, fine) /\
    compose_b2 coarse fine = Ok v /\ qlist_eq v (b2_layout c0 rest).
Proof. destruct (compose_layout c0 rest) as [v [H1 H2]].
  exists (c0 :: map snd rest), (map fst rest), v. rewrite decompose_layout. auto. Qed.

(** ** Fine mesh *)
Lemma linspace_length a b n : length (linspace a b n) = S n.
Proof. destruct n as [|m]; [reflexivity|]. cbn [linspace]. rewrite app_length, map_length, seq_length. simpl; lia. Qed.

Lemma linspace_nth a b n i : (0 < n)%nat -> (i <= n)%nat ->
  exists x, nth_error (linspace a b n) i = Some x /\
    x == a + inject_Z (Z.of_nat i) * ((b - a) / inject_Z (Z.of_nat n)).
Proof. intros Hn Hi. destruct n as [|m]; [lia|]. cbn [linspace].
  destruct (Nat.eq_dec i (S m)) as [->|Hne].
  - exists b. split.
    + rewrite nth_error_app2; rewrite map_length, seq_length; [|lia]. now rewrite Nat.sub_diag.
    + field. intros E. apply (f_equal (fun x => x)) in E. unfold Qeq in E; simpl in E. lia.
  - eexists; split.
    + rewrite nth_error_app1; [|rewrite map_length, seq_length; lia].
      rewrite nth_error_map.
      rewrite (nth_error_nth' _ 0%nat) by (rewrite seq_length; lia). rewrite seq_nth by lia. reflexivity.
    + reflexivity. Qed.


Lemma build_loop_step a b cs n ns : (0 < n)%Z ->
  build_1d_loop (a :: b :: cs) (n :: ns) =
  (do r <- build_1d_loop (b :: cs) ns; Ok (tl (linspace a b (Z.to_nat n)) ++ r)).
Proof. intros H. cbn [build_1d_loop].
  destruct (Z.ltb_spec n (-1)); [lia|]. destruct (Z.ltb_spec n 0); [lia|]. reflexivity. Qed.

Lemma linspace_hd a b n : (0 < n)%nat -> exists x, hd_error (linspace a b n) = Some x /\ x == a.
Proof. intros H. destruct (linspace_nth a b n 0 H) as [x [H1 H2]]; [lia|].
  exists x. split; [destruct (linspace a b n); auto|]. rewrite H2. change (inject_Z (Z.of_nat 0)) with 0. ring. Qed.

Lemma build_loop_spec : forall fine a cs,
  length cs = length fine -> Forall (fun n => 0 < n)%Z fine ->
  exists r, build_1d_loop (a :: cs) fine = Ok r /\
    length r = Z.to_nat (zsum fine) /\
    forall i c c' n s, nth_error (a :: cs) i = Some c -> nth_error (a :: cs) (S i) = Some c' ->
      nth_error fine i = Some n -> (s <= Z.to_nat n)%nat ->
      exists x, nth_error (a :: r) (fine_index fine i + s) = Some x /\
        x == c + inject_Z (Z.of_nat s) * ((c' - c) / inject_Z n).
Proof.
  induction fine as [|n ns IH]; intros a cs Hlen Hpos.
  - destruct cs; [|discriminate]. exists []. repeat split. intros i c c' n s H1 H2. destruct i; discriminate.
  - destruct cs as [|b cs]; [discriminate|]. inversion Hpos as [|? ? Hn Hns]; subst.
    destruct (IH b cs) as [r [Hr [Hl Hx]]]; [simpl in Hlen; lia|exact Hns|].
    rewrite build_loop_step by exact Hn. rewrite Hr. cbn [bind].
    eexists; split; [reflexivity|].
    assert (Hns0 : (0 <= zsum ns)%Z) by (clear - Hns; induction Hns; unfold zsum in *; simpl; lia).
    assert (Hll := linspace_length a b (Z.to_nat n)).
    destruct (linspace a b (Z.to_nat n)) as [|l0 ls] eqn:El; [discriminate|]. cbn [tl].
    split.
    { rewrite app_length, Hl. unfold zsum in *; cbn [fold_right]. simpl in Hll. lia. }
    intros i c c' m s H1 H2 H3 Hs.
    assert (Hn' : (0 < Z.to_nat n)%nat) by lia.
    assert (Hzn : inject_Z (Z.of_nat (Z.to_nat n)) = inject_Z n) by (rewrite Z2Nat.id by lia; reflexivity).
    destruct i as [|i].
    + simpl in H1, H2, H3. inversion H1; inversion H2; inversion H3; subst. cbn [fine_index Nat.add].
      destruct (linspace_nth c c' (Z.to_nat m) s Hn' Hs) as [x [Hx1 Hx2]].
      rewrite El in Hx1. rewrite Hzn in Hx2.
      destruct s as [|s].
      * exists c. split; [reflexivity|]. change (inject_Z (Z.of_nat 0)) with 0. ring.
      * exists x. split; [|exact Hx2]. simpl in Hx1 |- *. rewrite nth_error_app1; [exact Hx1|].
        apply nth_error_Some. congruence.
    + cbn [nth_error] in H1, H2, H3. cbn [fine_index].
      destruct (Hx i c c' m s H1 H2 H3 Hs) as [x [Hx1 Hx2]].
      destruct (fine_index ns i + s)%nat as [|q] eqn:Eq.
      * (* the shared coarse point: last of the linspace *)
        destruct (linspace_nth a b (Z.to_nat n) (Z.to_nat n) Hn' (Nat.le_refl _)) as [y [Hy1 Hy2]].
        rewrite El in Hy1. simpl in Hx1. inversion Hx1; subst x.
        exists y. split.
        -- replace (Z.to_nat n + fine_index ns i + s)%nat with (Z.to_nat n) by lia.
           destruct (Z.to_nat n) as [|k]; [lia|]. simpl in Hy1 |- *. rewrite nth_error_app1; [exact Hy1|].
           apply nth_error_Some; congruence.
        -- rewrite <- Hx2, Hy2, Hzn. field. intros E. unfold Qeq in E; simpl in E; lia.
      * exists x. split; [|exact Hx2].
        replace (Z.to_nat n + fine_index ns i + s)%nat with (S (length ls + q)) by (simpl in Hll; lia).
        cbn [nth_error]. rewrite nth_error_app2 by lia.
        replace (length ls + q - length ls)%nat with q by lia. exact Hx1.
Qed.

Lemma fine_index_cover fine p : Forall (fun n => 0 < n)%Z fine -> (p < Z.to_nat (zsum fine))%nat ->
  exists i n s, nth_error fine i = Some n /\ (s < Z.to_nat n)%nat /\ p = (fine_index fine i + s)%nat.
Proof. revert p; induction fine as [|n ns IH]; intros p Hpos Hp; [unfold zsum in Hp; simpl in Hp; lia|].
  inversion Hpos as [|? ? Hn Hns]; subst.
  destruct (Nat.lt_ge_cases p (Z.to_nat n)) as [H|H].
  - exists 0%nat, n, p. simpl. auto.
  - destruct (IH (p - Z.to_nat n)%nat Hns) as [i [m [s [H1 [H2 H3]]]]].
    + unfold zsum in *; cbn [fold_right] in Hp. 
      assert (0 <= fold_right Z.add 0 ns)%Z by (clear - Hns; induction Hns; simpl; lia). lia.
    + exists (S i), m, s. cbn [nth_error fine_index]. repeat split; auto. lia. Qed.

Lemma build_1d_spec fine coarse :
  length coarse = S (length fine) -> Forall (fun n => 0 < n)%Z fine ->
  exists v, build_1d coarse fine = Ok v /\
    length v = S (Z.to_nat (zsum fine)) /\
    (forall i c c' n s, nth_error coarse i = Some c -> nth_error coarse (S i) = Some c' ->
      nth_error fine i = Some n -> (s <= Z.to_nat n)%nat ->
      exists x, nth_error v (fine_index fine i + s) = Some x /\
        x == c + inject_Z (Z.of_nat s) * ((c' - c) / inject_Z n)) /\
    (forall i c, nth_error coarse i = Some c ->
      exists x, nth_error v (fine_index fine i) = Some x /\ x == c) /\
    (strictly_increasing coarse -> strictly_increasing v).
Proof.
  intros Hlen Hpos. destruct coarse as [|a cs]; [discriminate|].
  destruct (build_loop_spec fine a cs) as [r [Hr [Hl Hx]]]; [simpl in Hlen; lia|exact Hpos|].
  exists (a :: r). unfold build_1d. rewrite Hr. cbn [bind].
  split; [reflexivity|]. split; [simpl; now rewrite Hl|]. split; [exact Hx|]. split.
  - intros i c Hc.
    destruct i as [|i].
    + exists a. simpl in Hc. inversion Hc; subst. split; [destruct fine; reflexivity|reflexivity].
    + destruct (nth_error (a :: cs) i) as [c0|] eqn:E0.
      2:{ apply nth_error_None in E0. assert (nth_error (a :: cs) (S i) <> None) as H by congruence.
          apply nth_error_Some in H. lia. }
      destruct (nth_error fine i) as [n|] eqn:En.
      2:{ apply nth_error_None in En. assert (nth_error (a :: cs) (S i) <> None) as H by congruence.
          apply nth_error_Some in H. simpl in H, Hlen. lia. }
      assert (Hn : (0 < n)%Z) by (eapply Forall_forall in Hpos; [exact Hpos|eapply nth_error_In; eauto]).
      destruct (Hx i c0 c n (Z.to_nat n) E0 Hc En (Nat.le_refl _)) as [x [H1 H2]].
      exists x. split.
      * rewrite <- H1. f_equal. clear - En. revert fine En. induction i as [|i IH]; intros [|m ms] En; try discriminate.
        -- simpl in En. inversion En; subst. destruct ms; simpl; lia.
        -- simpl in En. specialize (IH ms En). cbn [fine_index] in *. rewrite IH. lia.
      * rewrite H2. rewrite Z2Nat.id by lia. field. intros E. unfold Qeq in E; simpl in E; lia.
  - intros Hinc p x y Hp1 Hp2.
    assert (Hpl : (p < Z.to_nat (zsum fine))%nat).
    { assert (nth_error (a :: r) (S p) <> None) as H by congruence. apply nth_error_Some in H. simpl in H. lia. }
    destruct (fine_index_cover fine p Hpos Hpl) as [i [n [s [Hi [Hs ->]]]]].
    assert (Hif : (i < length fine)%nat) by (apply nth_error_Some; congruence).
    destruct (nth_error (a :: cs) i) as [c0|] eqn:E0;
      [|apply nth_error_None in E0; simpl in *; lia].
    destruct (nth_error (a :: cs) (S i)) as [c1|] eqn:E1;
      [|apply nth_error_None in E1; simpl in *; lia].
    destruct (Hx i c0 c1 n s E0 E1 Hi ltac:(lia)) as [x' [Hx1 Hx2]].
    destruct (Hx i c0 c1 n (S s) E0 E1 Hi ltac:(lia)) as [y' [Hy1 Hy2]].
    rewrite Hx1 in Hp1. inversion Hp1; subst x'. replace (fine_index fine i + S s)%nat with (S (fine_index fine i + s)) in Hy1 by lia.
    rewrite Hy1 in Hp2. inversion Hp2; subst y'.
    specialize (Hinc i c0 c1 E0 E1).
    assert (Hn : 0 < inject_Z n).
    { change 0 with (inject_Z 0). rewrite <- Zlt_Qlt. eapply Forall_forall in Hpos; [exact Hpos|eapply nth_error_In; eauto]. }
    assert (Hd : 0 < (c1 - c0) / inject_Z n).
    { apply Qlt_shift_div_l; [exact Hn|]. lra. }
    rewrite Hx2, Hy2. rewrite Nat2Z.inj_succ. unfold Z.succ. rewrite inject_Z_plus.
    change (inject_Z 1) with 1. set (d := (c1 - c0) / inject_Z n) in *. nra.
Qed.
