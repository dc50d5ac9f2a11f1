(** Proofs about the histogram of an RSSA plot. *)
From Coq Require Import Lia ZArith QArith Qabs Qfield Lqa.
From Verif Require Import PyBase PyLemmas PyStr MatProofs MatProofs4 RssaModel RssaSpec RssaProofs.
Open Scope nat_scope.

Lemma qtrunc_floor q : (0 <= q)%Q -> (inject_Z (qtrunc q) <= q)%Q /\ (q < inject_Z (qtrunc q + 1))%Q /\ (0 <= qtrunc q)%Z.
Proof. destruct q as [n d]. unfold Qle, Qlt, qtrunc, inject_Z. cbn [Qnum Qden]. rewrite !Z.mul_1_r. intros H. assert (N : (0 <= n)%Z) by lia.
  rewrite Z.quot_div_nonneg by lia. pose proof (Z.div_mod n (Zpos d) ltac:(lia)) as E. pose proof (Z.mod_pos_bound n (Zpos d) ltac:(lia)) as B. assert (0 <= n / Z.pos d)%Z by (apply Z.div_pos; lia). repeat split; nia. Qed.
Lemma inj_le a b : (inject_Z a <= inject_Z b)%Q <-> (a <= b)%Z.
Proof. rewrite <- Zle_Qle. reflexivity. Qed.
Lemma inj_lt a b : (inject_Z a < inject_Z b)%Q <-> (a < b)%Z.
Proof. rewrite <- Zlt_Qlt. reflexivity. Qed.
Definition step (a b : Q) (n : nat) : Q := ((b - a) / inject_Z (Z.of_nat n))%Q.
Lemma step_pos a b n : (a < b)%Q -> 0 < n -> (0 < step a b n)%Q.
Proof. intros H N. unfold step. apply Qlt_shift_div_l; [apply (inj_lt 0); lia|]. lra. Qed.
Lemma step_n a b n : 0 < n -> (inject_Z (Z.of_nat n) * step a b n == b - a)%Q.
Proof. intros N. unfold step. field. intros E. assert (K : (inject_Z 0 < inject_Z (Z.of_nat n))%Q) by (apply inj_lt; lia). rewrite E in K. apply (Qlt_irrefl 0). exact K. Qed.
Lemma edge_step a b n i : edge a b n i = (a + inject_Z (Z.of_nat i) * step a b n)%Q. Proof. reflexivity. Qed.
Lemma interval_by_index a b n v x : (a < b)%Q -> 0 < n -> (v == a + x * step a b n)%Q -> forall i, (inject_Z (Z.of_nat i) <= x)%Q -> (x < inject_Z (Z.of_nat (S i)))%Q -> in_interval a b n i v.
Proof. intros H N V i L U. pose proof (step_pos a b n H N) as P. unfold in_interval. rewrite !edge_step, V. split; [|left].
  - apply Qplus_le_r. apply Qmult_le_compat_r; [exact L|now apply Qlt_le_weak].
  - apply Qplus_lt_r. apply Qmult_lt_r; [exact P|exact U]. Qed.
(** the index computed for a value of the axis *)
Lemma closest_index a b n v : (a < b)%Q -> 0 < n -> (a <= v)%Q -> (v <= b)%Q -> forall l0 lm, (l0 == a)%Q -> (lm == step a b n)%Q ->
  exists i, i < n /\ in_interval a b n i v /\
    (let k := if Qeq_bool lm 0 then int_min else qtrunc ((v - l0) / lm) in
     if (k =? Z.of_nat (S n) - 1)%Z then (Z.of_nat (S n) - 2)%Z else k) = Z.of_nat i.
Proof. intros H N L U l0 lm L0 LM. pose proof (step_pos a b n H N) as P. assert (NZ : ~ (lm == 0)%Q) by (rewrite LM; intros E; rewrite E in P; now apply (Qlt_irrefl 0)).
  destruct (Qeq_bool lm 0) eqn:Q0; [apply Qeq_bool_iff in Q0; contradiction|]. cbv zeta. set (x := ((v - l0) / lm)%Q).
  assert (V : (v == a + x * step a b n)%Q). { unfold x. rewrite LM, L0. field. rewrite <- LM. exact NZ. }
  assert (X0 : (0 <= x)%Q). { unfold x. rewrite LM, L0. apply Qle_shift_div_l; [exact P|lra]. }
  assert (XN : (x <= inject_Z (Z.of_nat n))%Q). { unfold x. rewrite LM, L0. apply Qle_shift_div_r; [exact P|]. rewrite step_n by exact N. lra. }
  destruct (qtrunc_floor x X0) as [F1 [F2 F3]]. set (k := qtrunc x) in *.
  assert (KN : (k <= Z.of_nat n)%Z). { apply inj_le. eapply Qle_trans; eassumption. }
  rewrite Nat2Z.inj_succ. destruct (Z.eqb_spec k (Z.succ (Z.of_nat n) - 1)) as [E|NE].
  - exists (n - 1). split; [lia|]. assert (XE : (x == inject_Z (Z.of_nat n))%Q). { apply Qle_antisym; [exact XN|]. replace (Z.of_nat n) with k by lia. exact F1. }
    assert (VB : (v == b)%Q). { rewrite V, XE. rewrite step_n by exact N. ring. }
    split; [|lia]. split; [|right; split; [lia|exact VB]]. rewrite VB, edge_step. assert (T : (inject_Z (Z.of_nat (n - 1)) * step a b n <= b - a)%Q). { rewrite <- (step_n a b n N). apply Qmult_le_compat_r; [apply inj_le; lia|now apply Qlt_le_weak]. } lra.
  - exists (Z.to_nat k). split; [lia|]. split; [|lia]. apply (interval_by_index a b n v x H N V).
    + rewrite Z2Nat.id by exact F3. exact F1.
    + rewrite Nat2Z.inj_succ, Z2Nat.id by exact F3. exact F2. Qed.
(** every value is in one interval only *)
Lemma edge_mono a b n i j : (a < b)%Q -> 0 < n -> i <= j -> (edge a b n i <= edge a b n j)%Q.
Proof. intros H N I. rewrite !edge_step. apply Qplus_le_r. apply Qmult_le_compat_r; [apply inj_le; lia|]. apply Qlt_le_weak. now apply step_pos. Qed.
Lemma edge_last a b n : 0 < n -> (edge a b n n == b)%Q.
Proof. intros N. rewrite edge_step, step_n by exact N. ring. Qed.
Lemma interval_unique a b n i j v : (a < b)%Q -> 0 < n -> i < n -> j < n -> in_interval a b n i v -> in_interval a b n j v -> i = j.
Proof. intros H N I J. assert (G : forall i j, i < n -> j < n -> in_interval a b n i v -> in_interval a b n j v -> i < j -> False).
  { clear i j I J. intros i j I J [A B] [C D] IJ. destruct B as [B|[B _]]; [|lia]. pose proof (edge_mono a b n (S i) j H N IJ). lra. }
  intros A B. destruct (Nat.lt_total i j) as [L|[E|L]]; [|exact E|]; exfalso; [apply (G i j)|apply (G j i)]; assumption. Qed.
Lemma linspace_len a b n : length (linspace a b n) = S n.
Proof. unfold linspace. now rewrite map_length, seq_length. Qed.
Lemma linspace_nth a b n i : i <= n -> nth i (linspace a b n) 0%Q = edge a b n i.
Proof. intros H. unfold linspace. set (f := fun i => _). rewrite (nth_indep _ 0%Q (f 0)) by (rewrite map_length, seq_length; lia). rewrite map_nth, seq_nth by lia. reflexivity. Qed.
(** minimum and maximum *)
Lemma qmin_spec a b : (qmin a b == a /\ a <= b \/ qmin a b == b /\ b <= a)%Q /\ (qmin a b = a \/ qmin a b = b).
Proof. unfold qmin. destruct (Qle_bool a b) eqn:E; split; auto; [left|right]; split; try reflexivity; [now apply Qle_bool_iff|]. destruct (Qlt_le_dec b a) as [L|L]; [now apply Qlt_le_weak|apply Qle_bool_iff in L; congruence]. Qed.
Lemma qmax_spec a b : (qmax a b == b /\ a <= b \/ qmax a b == a /\ b <= a)%Q /\ (qmax a b = a \/ qmax a b = b).
Proof. unfold qmax. destruct (Qle_bool a b) eqn:E; split; auto; [left|right]; split; try reflexivity; [now apply Qle_bool_iff|]. destruct (Qlt_le_dec b a) as [L|L]; [now apply Qlt_le_weak|apply Qle_bool_iff in L; congruence]. Qed.
Lemma fold_min l x : In (fold_left qmin l x) (x :: l) /\ Forall (fun v => (fold_left qmin l x <= v)%Q) (x :: l).
Proof. revert x. induction l as [|y l IH]; intros x; [split; [now left|constructor; [apply Qle_refl|constructor]]|]. cbn [fold_left]. destruct (IH (qmin x y)) as [A B]. inversion B as [|? ? B1 B2]; subst. destruct (qmin_spec x y) as [S T]. split.
  - destruct A as [A|A]; [|right; now right]. rewrite <- A. destruct T as [-> | ->]; [now left|right; now left].
  - constructor; [|constructor; [|exact B2]]; destruct S as [[S1 S2]|[S1 S2]]; lra. Qed.
Lemma fold_max l x : In (fold_left qmax l x) (x :: l) /\ Forall (fun v => (v <= fold_left qmax l x)%Q) (x :: l).
Proof. revert x. induction l as [|y l IH]; intros x; [split; [now left|constructor; [apply Qle_refl|constructor]]|]. cbn [fold_left]. destruct (IH (qmax x y)) as [A B]. inversion B as [|? ? B1 B2]; subst. destruct (qmax_spec x y) as [S T]. split.
  - destruct A as [A|A]; [|right; now right]. rewrite <- A. destruct T as [-> | ->]; [now left|right; now left].
  - constructor; [|constructor; [|exact B2]]; destruct S as [[S1 S2]|[S1 S2]]; lra. Qed.
Lemma amin_ok l a : amin l = Ok a -> least l a.
Proof. destruct l as [|x l]; cbn [amin]; [discriminate|]. intros E. injection E as <-. apply fold_min. Qed.
Lemma amax_ok l b : amax l = Ok b -> greatest l b.
Proof. destruct l as [|x l]; cbn [amax]; [discriminate|]. intros E. injection E as <-. apply fold_max. Qed.
(** sums *)
Lemma sums_eq {A} (R : A -> Prop) w q q' l : (q == q')%Q -> sums R w q l -> sums R w q' l.
Proof. intros E S. revert q' E. induction S as [q Z|q x l H _ IH|q x l H _ IH]; intros q' E.
  - constructor. now rewrite <- E.
  - apply sums_in; [exact H|]. apply IH. now rewrite E.
  - apply sums_out; [exact H|]. now apply IH. Qed.
Lemma sums_iff {A} (R R' : A -> Prop) w q l : (forall x, In x l -> (R x <-> R' x)) -> sums R w q l -> sums R' w q l.
Proof. intros H S. induction S as [q Z|q x l K _ IH|q x l K _ IH].
  - now constructor.
  - apply sums_in; [apply H; [now left|exact K]|]. apply IH. intros y Q. apply H. now right.
  - apply sums_out; [intros Q; apply K; apply H; [now left|exact Q]|]. apply IH. intros y Q. apply H. now right. Qed.
(** grids *)
Definition shape (nz nt : nat) (g : grid) : Prop := length g = nz /\ Forall (fun r => length r = nt) g.
Lemma upd_len {A} n (f : A -> A) l : length (upd n f l) = length l.
Proof. revert n. induction l as [|x l IH]; intros n; [now destruct n|]. destruct n; cbn [upd length]; [reflexivity|now rewrite IH]. Qed.
Lemma upd_nth {A} n (f : A -> A) l d i : n < length l -> nth i (upd n f l) d = if Nat.eqb i n then f (nth i l d) else nth i l d.
Proof. revert n i. induction l as [|x l IH]; intros n i H; [cbn in H; lia|]. destruct n as [|n], i as [|i]; cbn [upd nth Nat.eqb]; try reflexivity. apply IH. cbn in H. lia. Qed.
Lemma upd_Forall {A} (P : A -> Prop) n f l : (forall x, P x -> P (f x)) -> Forall P l -> Forall P (upd n f l).
Proof. intros H F. revert n. induction F as [|x l Px F IH]; intros n; [destruct n; constructor|]. destruct n; cbn [upd]; constructor; auto. Qed.
Lemma add_one_shape nz nt a b w g : shape nz nt g -> shape nz nt (upd a (upd b (Qplus w)) g).
Proof. intros [L F]. split; [now rewrite upd_len|]. apply upd_Forall; [|exact F]. intros r <-. apply upd_len. Qed.
Lemma add_one_cell nz nt a b w g i j : shape nz nt g -> a < nz -> b < nt -> (cell (upd a (upd b (Qplus w)) g) i j == if (Nat.eqb i a && Nat.eqb j b)%bool then w + cell g i j else cell g i j)%Q.
Proof. intros [L F] A B. unfold cell. rewrite upd_nth by lia. destruct (Nat.eqb_spec i a) as [->|]; [|reflexivity]. cbn [andb].
  assert (LR : length (nth a g []) = nt). { rewrite Forall_forall in F. apply F, nth_In. lia. } rewrite upd_nth by lia. destruct (Nat.eqb_spec j b) as [->|]; reflexivity. Qed.
Lemma upd_sum n x (l : list Q) : n < length l -> (qsum (upd n (Qplus x) l) == x + qsum l)%Q.
Proof. revert n. induction l as [|y l IH]; intros n H; [cbn in H; lia|]. destruct n as [|n]; cbn [upd]; rewrite !qsum_cons; [ring|]. rewrite IH by (cbn in H; lia). ring. Qed.
Lemma add_one_sum nz nt a b w g : shape nz nt g -> a < nz -> b < nt -> (qsum (concat (upd a (upd b (Qplus w)) g)) == w + qsum (concat g))%Q.
Proof. intros [L F] A B. subst nz. revert a A. induction F as [|r g R _ IH]; intros a A; [cbn in A; lia|]. destruct a as [|a]; cbn [upd concat]; rewrite !qsum_app.
  - rewrite upd_sum by lia. ring.
  - rewrite IH by (cbn in A; lia). ring. Qed.
Lemma zeros_shape nz nt : shape nz nt (zeros nz nt).
Proof. split; [apply repeat_length|]. apply Forall_forall. intros r Q. apply repeat_spec in Q as ->. apply repeat_length. Qed.
Lemma nth_repeat_q k j : nth j (repeat 0%Q k) 0%Q = 0%Q.
Proof. revert j. induction k as [|k IH]; intros j; destruct j; cbn [repeat nth]; auto. Qed.
Lemma zeros_cell nz nt i j : cell (zeros nz nt) i j = 0%Q.
Proof. unfold cell, zeros. revert i. induction nz as [|nz IH]; intros i; [destruct i, j; reflexivity|]. destruct i as [|i]; cbn [repeat nth]; [apply nth_repeat_q|apply IH]. Qed.
Lemma zeros_sum nz nt : (qsum (concat (zeros nz nt)) == 0)%Q.
Proof. unfold zeros. induction nz as [|nz IH]; [reflexivity|]. cbn [repeat concat]. rewrite qsum_app, IH. clear. induction nt as [|nt IH]; [reflexivity|]. cbn [repeat]. rewrite qsum_cons. lra. Qed.
Lemma index_ok n i : i < n -> index n (Z.of_nat i) = Ok i.
Proof. intros H. unfold index. destruct (Z.leb_spec 0 (Z.of_nat i)); [|lia]. destruct (Z.ltb_spec (Z.of_nat i) (Z.of_nat n)); [|lia]. cbn [andb]. now rewrite Nat2Z.id. Qed.
Lemma add_at_sums nz nt (sel : list track) (ks : track -> nat * nat) (w : track -> Q) g : shape nz nt g ->
  (forall t, In t sel -> fst (ks t) < nz /\ snd (ks t) < nt) ->
  exists g', add_at nz nt g (map (fun t => (Z.of_nat (fst (ks t)), Z.of_nat (snd (ks t)), w t)) sel) = Ok g' /\ shape nz nt g' /\
    (forall i j, sums (fun t => ks t = (i, j)) w (cell g' i j - cell g i j) sel) /\ (qsum (concat g') == qsum (concat g) + qsum (map w sel))%Q.
Proof. revert g. induction sel as [|t sel IH]; intros g S K.
  - exists g. split; [reflexivity|]. split; [exact S|]. split; [intros i j; constructor; ring|]. cbn [map]. unfold qsum at 3. cbn [fold_right]. ring.
  - destruct (K t (or_introl eq_refl)) as [KA KB]. unfold add_at. cbn [map foldM]. rewrite !index_ok by assumption. cbn [bind]. destruct (ks t) as [a b] eqn:Ek. cbn [fst snd] in *.
    destruct (IH (upd a (upd b (Qplus (w t))) g) (add_one_shape _ _ _ _ _ _ S) (fun t' Q => K t' (or_intror Q))) as [g' [G1 [G2 [G3 G4]]]]. exists g'. split; [exact G1|]. split; [exact G2|]. split.
    + intros i j. specialize (G3 i j). pose proof (add_one_cell nz nt a b (w t) g i j S KA KB) as C. destruct (Nat.eqb_spec i a) as [->|NE]; [destruct (Nat.eqb_spec j b) as [->|NE]|]; cbn [andb] in C.
      * apply sums_in; [exact Ek|]. eapply sums_eq; [|exact G3]. rewrite C. ring.
      * apply sums_out; [rewrite Ek; congruence|]. eapply sums_eq; [|exact G3]. rewrite C. ring.
      * apply sums_out; [rewrite Ek; congruence|]. eapply sums_eq; [|exact G3]. rewrite C. ring.
    + rewrite G4, (add_one_sum nz nt) by assumption. cbn [map]. rewrite qsum_cons. ring. Qed.
(** selections *)
Lemma combine_where {A} (p q : A -> bool) (l : list A) : intersect (where_ p l) (where_ q l) = where_ (fun x => p x && q x) l.
Proof. assert (M : forall i x, In (i, x) (combine (seq 0 (length l)) l) -> memb Nat.eqb i (where_ q l) = q x).
  { intros i x Q. destruct (q x) eqn:E.
    - apply (memb_in Nat.eqb Nat.eqb_eq). unfold where_. apply in_map_iff. exists (i, x). split; [reflexivity|]. apply filter_In. auto.
    - destruct (memb Nat.eqb i (where_ q l)) eqn:B; [|reflexivity]. apply (memb_in Nat.eqb Nat.eqb_eq) in B. unfold where_ in B. apply in_map_iff in B as [[i' y] [E2 B]]. cbn [fst] in E2. subst i'. apply filter_In in B as [B1 B2]. cbn [snd] in B2.
      assert (x = y); [|subst; congruence]. clear - Q B1. revert Q B1. generalize 0. induction l as [|z l IH]; intros k Q B; [destruct Q|]. cbn [length seq combine] in *. destruct Q as [Q|Q], B as [B|B].
      + congruence.
      + injection Q as -> ->. apply in_combine_l, in_seq in B. lia.
      + injection B as -> ->. apply in_combine_l, in_seq in Q. lia.
      + eapply IH; eassumption. }
  unfold intersect. set (W := where_ q l) in *. clearbody W. unfold where_. revert M. generalize (combine (seq 0 (length l)) l). intros c M. induction c as [|[i x] c IH]; [reflexivity|]. cbn [filter snd]. assert (IH' := IH (fun i x Q => M i x (or_intror Q))). destruct (p x); cbn [andb]; [|exact IH']. cbn [map fst filter]. rewrite (M i x (or_introl eq_refl)). destruct (q x); cbn [map fst]; [now rewrite IH'|exact IH']. Qed.
Lemma pick_where (p : track -> bool) ts : pick ts (where_ p ts) = filter p ts.
Proof. assert (G : forall (pre l : list track), pick (pre ++ l) (map fst (filter (fun ix => p (snd ix)) (combine (seq (length pre) (length l)) l))) = filter p l).
  { intros pre l. revert pre. induction l as [|y l IH]; intros pre; [reflexivity|]. cbn [length seq combine filter snd]. specialize (IH (pre ++ [y])). rewrite app_length in IH. cbn [length] in IH. rewrite Nat.add_1_r in IH. rewrite <- app_assoc in IH. cbn [app] in IH.
    destruct (p y); [|exact IH]. unfold pick in *. cbn [map fst]. rewrite IH. rewrite app_nth2 by lia. rewrite Nat.sub_diag. reflexivity. }
  exact (G [] ts). Qed.

Lemma linspace_cons a b n : 0 < n -> exists l0 l1 r, linspace a b n = l0 :: l1 :: r /\ (l0 == a)%Q /\ (l1 - l0 == step a b n)%Q.
Proof. intros N. destruct n as [|n]; [lia|]. unfold linspace. cbn [seq map]. eexists. eexists. eexists. split; [reflexivity|]. fold (step a b (S n)). split; [|rewrite (inject_Z_injective 0 0 eq_refl) || idtac]; change (inject_Z (Z.of_nat 0)) with 0%Q; try change (inject_Z (Z.of_nat 1)) with 1%Q; ring. Qed.
Lemma Ok_inj {A} (a b : A) : Ok a = Ok b -> a = b.
Proof. congruence. Qed.
(** all the indices of an axis *)
Lemma closest_ok a b n vs : (a < b)%Q -> 0 < n -> Forall (fun v => (a <= v <= b)%Q) vs ->
  exists ks, closest (linspace a b n) vs = Ok (map Z.of_nat ks) /\ Forall2 (fun v i => i < n /\ in_interval a b n i v) vs ks.
Proof. intros H N F. destruct (linspace_cons a b n N) as [l0 [l1 [r [E [L0 LM]]]]]. assert (LL := linspace_len a b n). unfold closest. rewrite E in *. rewrite LL.
  induction F as [|v vs [V1 V2] _ IH]; [exists []; split; [reflexivity|constructor]|]. destruct IH as [ks [I1 I2]]. destruct (closest_index a b n v H N V1 V2 l0 (l1 - l0)%Q L0 LM) as [i [A [B C]]]. exists (i :: ks). split; [|constructor; auto]. cbn [map]. apply Ok_inj in I1. rewrite I1. f_equal. f_equal. exact C. Qed.
Lemma closest_flat a b n vs : (a == b)%Q -> 0 < n -> closest (linspace a b n) vs = Ok (map (fun _ => int_min) vs).
Proof. intros H N. destruct (linspace_cons a b n N) as [l0 [l1 [r [E [L0 LM]]]]]. unfold closest. rewrite E. f_equal. apply map_ext. intros v.
  assert (Z : Qeq_bool (l1 - l0) 0 = true). { apply Qeq_bool_iff. rewrite LM. unfold step. rewrite H. unfold Qminus. rewrite Qplus_opp_r. unfold Qdiv. ring. }
  rewrite Z. destruct (Z.eqb_spec int_min (Z.of_nat (length (l0 :: l1 :: r)) - 1)) as [Q|_]; [exfalso; unfold int_min in Q; lia|reflexivity]. Qed.
Lemma closest_short a b vs : closest (linspace a b 0) vs = Err IndexError.
Proof. reflexivity. Qed.
Lemma index_min n : (Z.of_nat n < 2 ^ 63)%Z -> index n int_min = Err IndexError.
Proof. intros H. unfold index, int_min. destruct (Z.leb_spec 0 (- 2 ^ 63)); [lia|]. cbn [andb]. destruct (Z.leb_spec (- Z.of_nat n) (- 2 ^ 63)); [lia|reflexivity]. Qed.

Section Fig.
  Context (angle radius : Q -> Q -> Q).
  Notation th := (t_theta angle).
  (** what a successful plot of the selected tracks shows *)
  Lemma figures_sel p ts part nz nt I mask pl pm : (Z.of_nat nz < 2 ^ 63)%Z -> (Z.of_nat nt < 2 ^ 63)%Z -> figures angle radius p ts part nz nt I mask = Ok pl -> particle_mask part ts = Ok pm ->
    let sel := pick ts (match mask with None => pm | Some m => intersect pm m end) in
    exists z0 z1 t0 t1 t rest g n, ts = t :: rest /\ least (map t_z sel) z0 /\ greatest (map t_z sel) z1 /\ least (map th sel) t0 /\ greatest (map th sel) t1 /\ (z0 < z1)%Q /\ (t0 < t1)%Q /\ 0 < nz /\ 0 < nt /\ shape nz nt g /\ shape nz nt n /\ (forall i j, i < nz -> j < nt -> sums (fun t => in_interval z0 z1 nz i (t_z t) /\ in_interval t0 t1 nt j (th t)) t_wgt (cell g i j) sel /\ sums (fun t => in_interval z0 z1 nz i (t_z t) /\ in_interval t0 t1 nt j (th t)) (fun _ => 1%Q) (cell n i j) sel) /\ (qsum (concat g) == qsum (map t_wgt sel))%Q /\ (qsum (concat n) == qsum (map (fun _ => 1%Q) sel))%Q /\ pl_area pl = Qabs (radius (t_x t) (t_y t) * (edge t0 t1 nt 1 - edge t0 t1 nt 0) * (edge z0 z1 nz 1 - edge z0 z1 nz 0)) /\ pl_values pl = map (map (fun v => (v / pl_area pl / inject_Z (Z.abs (np1 p)) * I)%Q)) g /\ pl_counts pl = map (map (fun c => if Qeq_bool c 0 then 1%Q else c)) n /\ pl_z pl = linspace z0 z1 nz /\ pl_theta pl = linspace t0 t1 nt.
  Proof using. intros HZ HT H PM sel. unfold figures in H. rewrite PM in H. cbn [bind] in H. fold sel in H.
    destruct (amin (map t_z sel)) as [z0|] eqn:A0; cbn [bind] in H; [|discriminate]. destruct (amax (map t_z sel)) as [z1|] eqn:A1; cbn [bind] in H; [|discriminate].
    destruct (amin (map th sel)) as [t0|] eqn:B0; cbn [bind] in H; [|discriminate]. destruct (amax (map th sel)) as [t1|] eqn:B1; cbn [bind] in H; [|discriminate].
    apply amin_ok in A0. apply amax_ok in A1. apply amin_ok in B0. apply amax_ok in B1.
    assert (NZ : 0 < nz). { destruct nz; [|lia]. rewrite closest_short in H. discriminate. }
    assert (ZL : (z0 <= z1)%Q). { destruct A0 as [_ F], A1 as [J _]. rewrite Forall_forall in F. now apply F. }
    assert (TL : (t0 <= t1)%Q). { destruct B0 as [_ F], B1 as [J _]. rewrite Forall_forall in F. now apply F. }
    assert (NE : sel <> []). { intros E. rewrite E in A0. destruct A0 as [[] _]. }
    assert (ZR : Forall (fun v => (z0 <= v <= z1)%Q) (map t_z sel)). { destruct A0 as [_ F0], A1 as [_ F1]. rewrite Forall_forall in *. intros v Q. split; auto. }
    assert (TR : Forall (fun v => (t0 <= v <= t1)%Q) (map th sel)). { destruct B0 as [_ F0], B1 as [_ F1]. rewrite Forall_forall in *. intros v Q. split; auto. }
    assert (ADD : forall zi ti w, length zi = length sel -> length ti = length sel -> (exists f, zi = map (fun _ : track => int_min) f) \/ (exists f, ti = map (fun _ : track => int_min) f) -> add_at nz nt (zeros nz nt) (combine (combine zi ti) (map w sel)) = Err IndexError).
    { intros zi ti w L1 L2 D. destruct sel as [|s sel']; [now elim NE|]. destruct zi as [|z zi]; [discriminate|]. destruct ti as [|t ti]; [discriminate|]. cbn [combine map]. unfold add_at. cbn [foldM].
      destruct D as [[[|f0 f] D]|[[|f0 f] D]]; try discriminate; cbn [map] in D.
      - injection D as -> _. rewrite index_min by exact HZ. reflexivity.
      - injection D as -> _. rewrite (index_min nt) by exact HT. unfold index at 1. destruct ((0 <=? z)%Z && _)%bool; cbn [bind]; [reflexivity|]. destruct ((_ <=? z)%Z && _)%bool; reflexivity. }
    assert (NT : 0 < nt). { destruct nt; [|lia]. destruct (closest (linspace z0 z1 nz) (map t_z sel)); cbn [bind] in H; [|discriminate]. rewrite closest_short in H. discriminate. }
    assert (ZLT : (z0 < z1)%Q). { destruct (Qlt_le_dec z0 z1) as [|G]; [assumption|exfalso]. assert (E : (z0 == z1)%Q) by (now apply Qle_antisym). rewrite (closest_flat z0 z1) in H by assumption. cbn [bind] in H. destruct (closest (linspace t0 t1 nt) (map th sel)) as [ti|] eqn:CT; cbn [bind] in H; [|discriminate].
      rewrite map_map in H. rewrite ADD in H; [discriminate| | |left; eexists; reflexivity]; [now rewrite map_length|]. unfold closest in CT. destruct (linspace t0 t1 nt) as [|? [|? ?]]; try discriminate. apply Ok_inj in CT. subst ti. now rewrite !map_length. }
    destruct (closest_ok z0 z1 nz _ ZLT NZ ZR) as [kz [CZ KZ]]. rewrite CZ in H. cbn [bind] in H.
    assert (TLT : (t0 < t1)%Q). { destruct (Qlt_le_dec t0 t1) as [|G]; [assumption|exfalso]. assert (E : (t0 == t1)%Q) by (now apply Qle_antisym). rewrite (closest_flat t0 t1) in H by assumption. cbn [bind] in H. rewrite map_map in H. rewrite ADD in H; [discriminate| | |right; eexists; reflexivity]; [rewrite map_length; apply Forall2_length in KZ; rewrite map_length in KZ; congruence|now rewrite map_length]. }
    destruct (closest_ok t0 t1 nt _ TLT NT TR) as [kt [CT KT]]. rewrite CT in H. cbn [bind] in H.
    (* indices as a list of pairs *)
    assert (IT : forall w, exists g, add_at nz nt (zeros nz nt) (combine (combine (map Z.of_nat kz) (map Z.of_nat kt)) (map w sel)) = Ok g /\ shape nz nt g /\ (forall i j, i < nz -> j < nt -> sums (fun t => in_interval z0 z1 nz i (t_z t) /\ in_interval t0 t1 nt j (th t)) w (cell g i j) sel) /\ (qsum (concat g) == qsum (map w sel))%Q).
    { intros w. assert (G : forall g0, shape nz nt g0 -> exists g, add_at nz nt g0 (combine (combine (map Z.of_nat kz) (map Z.of_nat kt)) (map w sel)) = Ok g /\ shape nz nt g /\ (forall i j, i < nz -> j < nt -> sums (fun t => in_interval z0 z1 nz i (t_z t) /\ in_interval t0 t1 nt j (th t)) w (cell g i j - cell g0 i j) sel) /\ (qsum (concat g) == qsum (concat g0) + qsum (map w sel))%Q).
      { clear - KZ KT ZLT TLT NZ NT. revert kz kt KZ KT. induction sel as [|s sel IH]; intros kz kt KZ KT g0 S.
        - exists g0. inversion KZ; inversion KT; subst. split; [reflexivity|]. split; [exact S|]. split; [intros; constructor; ring|]. cbn [map]. unfold qsum at 3. cbn [fold_right]. ring.
        - cbn [map] in KZ, KT. inversion KZ as [|? a ? kz' [Ka Ia] KZ']; inversion KT as [|? b ? kt' [Kb Ib] KT']; subst. cbn [map combine]. unfold add_at. cbn [foldM]. rewrite !index_ok by assumption. cbn [bind].
          destruct (IH kz' kt' KZ' KT' _ (add_one_shape nz nt a b (w s) g0 S)) as [g [G1 [G2 [G3 G4]]]]. exists g. split; [exact G1|]. split; [exact G2|]. split.
          + intros i j Hi Hj. specialize (G3 i j Hi Hj). pose proof (add_one_cell nz nt a b (w s) g0 i j S Ka Kb) as C.
            destruct (Nat.eqb_spec i a) as [->|N1]; [destruct (Nat.eqb_spec j b) as [->|N1]|]; cbn [andb] in C.
            * apply sums_in; [split; assumption|]. eapply sums_eq; [|exact G3]. rewrite C. ring.
            * apply sums_out; [intros [_ Q]; apply N1; eapply interval_unique; [| | | |exact Q|exact Ib]; eassumption|]. eapply sums_eq; [|exact G3]. rewrite C. ring.
            * apply sums_out; [intros [Q _]; apply N1; eapply interval_unique; [| | | |exact Q|exact Ia]; eassumption|]. eapply sums_eq; [|exact G3]. rewrite C. ring.
          + rewrite G4, (add_one_sum nz nt) by assumption. cbn [map]. rewrite qsum_cons. ring. }
      destruct (G _ (zeros_shape nz nt)) as [g [G1 [G2 [G3 G4]]]]. exists g. split; [exact G1|]. split; [exact G2|]. split; [|rewrite G4, zeros_sum; ring].
      intros i j Hi Hj. eapply sums_eq; [|exact (G3 i j Hi Hj)]. rewrite zeros_cell. ring. }
    destruct (IT t_wgt) as [g [G1 [G2 [G3 G4]]]]. destruct (IT (fun _ => 1%Q)) as [n [N1 [N2 [N3 N4]]]]. rewrite G1 in H. cbn [bind] in H. rewrite N1 in H. cbn [bind] in H.
    destruct ts as [|t rest]; [discriminate|]. cbn [bind] in H. apply Ok_inj in H. subst pl. cbn [pl_values pl_counts pl_z pl_theta pl_area]. rewrite !linspace_nth by lia.
    exists z0, z1, t0, t1, t, rest, g, n. repeat (split; [assumption || reflexivity|]). split; [intros i j Hi Hj; split; [now apply G3|now apply N3]|]. auto 10. Qed.
End Fig.
Lemma intersect_nil a : intersect a [] = [].
Proof. unfold intersect. induction a as [|x l IH]; [reflexivity|exact IH]. Qed.
Section Sel.
  Context (angle radius : Q -> Q -> Q).
  Lemma selected_tracks part ts nz nt p norm xr zr pl : plot_cyl angle radius p ts part nz nt norm xr zr = Ok pl ->
    exists mask pm, figures angle radius p ts part nz nt norm mask = Ok pl /\ particle_mask part ts = Ok pm /\
      selects part xr zr (perimeter angle radius ts) (pick ts (match mask with None => pm | Some m => intersect pm m end)) ts.
  Proof using. intros H. unfold plot_cyl in H.
    set (pp := fun t => match part with Neutron => abs_lt (word_b t) | Photon => abs_ge (word_b t) | BadParticle => false end).
    assert (PP : forall t, pp t = true <-> is_particle part t). { intros t. unfold pp. destruct part; cbn [is_particle]; [| |split; [discriminate|tauto]].
      - unfold abs_lt. destruct (word_b t) as [q| |]; [|split; [discriminate|intros [q [Q _]]; discriminate]..]. split.
        + intros P. exists q. split; [reflexivity|]. apply negb_true_iff in P. apply Qnot_le_lt. intros Q. apply Qle_bool_iff in Q. unfold nine8 in P. change (900000000 # 1)%Q with (inject_Z 900000000) in Q. congruence.
        + intros [q' [Q L]]. injection Q as <-. apply negb_true_iff. destruct (Qle_bool nine8 (Qabs q)) eqn:E; [|reflexivity]. apply Qle_bool_iff in E. exfalso. apply (Qlt_not_le _ _ L). exact E.
      - unfold abs_ge. destruct (word_b t) as [q|s|]; [| |split; [discriminate|intros [[q [Q _]]|[s Q]]; discriminate]]. 
        + split; [intros P; left; exists q; split; [reflexivity|]; apply Qle_bool_iff in P; exact P|]. intros [[q' [Q L]]|[s Q]]; [|discriminate]. injection Q as <-. apply Qle_bool_iff. exact L.
        + split; [intros _; right; now exists s|reflexivity]. }
    assert (LT : forall a b : Q, negb (Qle_bool a b) = true <-> (b < a)%Q). { intros a b. rewrite negb_true_iff. split; [intros E; apply Qnot_le_lt; intros Q; apply Qle_bool_iff in Q; congruence|]. intros L. destruct (Qle_bool a b) eqn:E; [|reflexivity]. apply Qle_bool_iff in E. exfalso. now apply (Qlt_not_le _ _ L). }
    assert (PM : forall m, (exists pl, figures angle radius p ts part nz nt norm m = Ok pl) -> particle_mask part ts = Ok (where_ pp ts)). { intros m [pl' H']. unfold figures in H'. unfold pp. destruct part; [reflexivity|reflexivity|discriminate]. }
    destruct zr as [[za zb]|]; destruct xr as [[xa xb]|].
    - destruct ts as [|t0 ts']; [discriminate|]. cbn [bind] in H. set (ts := t0 :: ts') in *. eexists. exists (where_ pp ts). split; [exact H|]. split; [eapply PM; eexists; exact H|]. rewrite !combine_where.
      eexists. split; [|apply pick_where]. intros t. cbv beta. rewrite !andb_true_iff, !LT, PP. unfold perimeter, ts. cbn [within]. tauto.
    - cbn [bind] in H. eexists. exists (where_ pp ts). split; [exact H|]. split; [eapply PM; eexists; exact H|]. rewrite !combine_where. eexists. split; [|apply pick_where]. intros t. cbv beta. rewrite !andb_true_iff, !LT, PP. cbn [within]. tauto.
    - exfalso. destruct ts as [|t0 ts']; [discriminate|]. cbn [bind] in H. set (ts := t0 :: ts') in *. destruct (where_ _ ts); [|discriminate]. cbn [bind] in H. unfold figures in H. destruct (particle_mask part ts) as [pm|]; cbn [bind] in H; [|discriminate].
      rewrite intersect_nil in H. discriminate.
    - cbn [bind] in H. eexists. exists (where_ pp ts). split; [exact H|]. split; [eapply PM; eexists; exact H|]. cbv iota. exists pp. split; [|apply pick_where]. intros t. rewrite PP. cbn [within]. tauto. Qed.
End Sel.
