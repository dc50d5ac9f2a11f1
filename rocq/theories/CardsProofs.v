(** Proofs for C128. *)
From Coq Require Import Lia ZArith.
From Verif Require Import PyBase PyLemmas PyStr PyStrLemmas PyText InpModel InpSpec D1SProofs2 MatProofs InpProofs CardsModel CardsSpec.
Open Scope nat_scope.

Lemma pkey_eqb_eq a b : pkey_eqb a b = true <-> a = b.
Proof. destruct a as [s|m], b as [t|n]; cbn [pkey_eqb]; try (split; discriminate).
  - rewrite str_eqb_eq. split; congruence. - rewrite Nat.eqb_eq. split; congruence. Qed.
Lemma force_key_spec k num h l h' : force_key k num h l = Ok h' -> exists c, nth_error h l = Some c /\
  ((num = name_text c /\ h' = h) \/ exists z, parse_int num = Ok z /\ h' = hset h l (rename k z c)).
Proof. unfold force_key. intros H. destruct (hget h l) as [c|] eqn:G; cbn [bind] in H; [|discriminate]. apply hget_ok in G. exists c. split; [exact G|].
  destruct (str_eqb num (name_text c)) eqn:E; [apply str_eqb_eq in E; left; split; congruence|]. destruct (parse_int num) as [z|] eqn:P; cbn [bind] in H; [|discriminate]. right. exists z. split; congruence. Qed.
Lemma cset_ok k h d key v h' d' : cset k h d key v = Ok (h', d') -> exists s l, key = KS s /\ v = VC l /\ force_key k (key_num s) h l = Ok h' /\ d' = dset pkey_eqb key v d.
Proof. unfold cset. intros H. destruct key as [s|]; [|discriminate]. destruct v as [l|]; [|discriminate]. destruct (force_key k (key_num s) h l) as [h1|] eqn:F; cbn [bind] in H; [|discriminate].
  injection H as <- <-. exists s, l. auto. Qed.
Lemma cset_frame k h d key v h' d' : cset k h d key v = Ok (h', d') -> length h' = length h /\ forall l, v <> VC l -> nth_error h' l = nth_error h l.
Proof. intros H. apply cset_ok in H as [s [l [-> [-> [F _]]]]]. apply force_key_spec in F as [c [A [[_ ->]|[z [_ ->]]]]]; [split; reflexivity|]. rewrite hset_length. split; [reflexivity|].
  intros x X. apply hset_other. congruence. Qed.
(** the card that has been stored is there, with its number *)
Lemma cset_stored k h d s l h' d' : named h -> cset k h d (KS s) (VC l) = Ok (h', d') -> named h' /\ exists c n, nth_error h' l = Some c /\ c_name c = Some n /\ parse_int (key_num s) = Ok n.
Proof. intros NM H. apply cset_ok in H as [s0 [l0 [E1 [E2 [F _]]]]]. injection E1 as <-. injection E2 as <-. apply force_key_spec in F as [c [A [[E ->]|[z [P ->]]]]].
  - split; [exact NM|]. exists c. pose proof (NM _ _ A) as N. unfold name_text in E. destruct (c_name c) as [n|]; [|congruence]. exists n. split; [exact A|]. split; [reflexivity|]. rewrite E. apply parse_str_of_Z.
  - pose proof (nth_lt _ _ _ A) as L. split.
    + intros x y B. destruct (Nat.eq_dec x l) as [->|X]; [rewrite hset_same in B by exact L; injection B as <-; discriminate|]. rewrite hset_other in B by congruence. exact (NM _ _ B).
    + exists (rename k z c), z. rewrite hset_same by exact L. split; [reflexivity|]. split; [reflexivity|exact P]. Qed.
Lemma in_dset key v (d : store) : NoDup (map fst d) -> forall k' v', In (k', v') (dset pkey_eqb key v d) <-> (k' = key /\ v' = v) \/ (k' <> key /\ In (k', v') d).
Proof. induction d as [|[k0 v0] d IH]; intros N k' v'; cbn [dset map fst] in *.
  - cbn [In]. split; [intros [E|[]]; injection E as <- <-; tauto|intros [[-> ->]|[_ []]]; left; reflexivity].
  - inversion N as [|? ? N1 N2]; subst. destruct (pkey_eqb key k0) eqn:E.
    + apply pkey_eqb_eq in E. subst k0. cbn [In]. split.
      * intros [X|X]; [injection X as <- <-; tauto|]. right. split; [|tauto]. intros ->. apply N1. apply (in_map fst) in X. exact X.
      * intros [[-> ->]|[X [Y|Y]]]; [left; reflexivity|injection Y as <- <-; congruence|tauto].
    + assert (K : key <> k0) by (intros ->; rewrite (proj2 (pkey_eqb_eq k0 k0) eq_refl) in E; discriminate). cbn [In]. rewrite (IH N2). split.
      * intros [X|[X|X]]; [injection X as <- <-; right; split; [congruence|tauto]|tauto|right; tauto].
      * intros [X|[X [Y|Y]]]; tauto. Qed.
Lemma dset_vals key v (d : store) : NoDup (map fst d) -> NoDup (map snd d) -> (forall k', In (k', v) d -> k' = key) -> NoDup (map snd (dset pkey_eqb key v d)).
Proof. induction d as [|[k0 v0] d IH]; intros N M A; cbn [dset map fst snd] in *; [repeat constructor; intros []|].
  inversion N as [|? ? N1 N2]; subst. inversion M as [|? ? M1 M2]; subst. destruct (pkey_eqb key k0) eqn:E; cbn [map snd].
  - apply pkey_eqb_eq in E. subst k0. constructor; [|exact M2]. intros X. apply in_map_iff in X as [[k' v'] [V X]]. cbn [snd] in V. subst v'. assert (k' = key) by (apply A; right; exact X). subst k'.
    apply N1. apply (in_map fst) in X. exact X.
  - assert (K : key <> k0) by (intros ->; rewrite (proj2 (pkey_eqb_eq k0 k0) eq_refl) in E; discriminate). constructor; [|apply IH; [exact N2|exact M2|intros; apply A; right; assumption]].
    intros X. apply in_map_iff in X as [[k' v'] [V X]]. cbn [snd] in V. subst v'. apply (in_dset _ _ _ N2) in X as [[-> ->]|[_ X]].
    + apply K. symmetry. apply A. left. reflexivity.
    + apply M1. apply (in_map snd) in X. exact X. Qed.
Lemma cset_tidy k h d key v h' d' : named h -> tidy h d -> (forall l key', v = VC l -> In (key', VC l) d -> key' = key) -> cset k h d key v = Ok (h', d') -> named h' /\ tidy h' d'.
Proof. intros NM [N [M G]] A H. pose proof (cset_frame _ _ _ _ _ _ _ H) as [_ FR]. pose proof (cset_ok _ _ _ _ _ _ _ H) as [s [l [-> [-> [F ->]]]]].
  destruct (cset_stored _ _ _ _ _ _ _ NM H) as [NM' [c [n S]]]. split; [exact NM'|]. split; [now apply (dset_nodup pkey_eqb pkey_eqb_eq)|]. split; [apply dset_vals; [exact N|exact M|]|].
  - intros k' X. exact (A l k' eq_refl X).
  - intros k' v' X. apply (in_dset _ _ _ N) in X as [[-> ->]|[K X]]; [exists s, l, c, n; tauto|]. destruct (G _ _ X) as [s' [l' [c' [n' [-> [-> R]]]]]]. exists s', l', c', n'.
    rewrite FR; [tauto|]. intros E. injection E as <-. apply K. exact (A l (KS s') eq_refl X). Qed.
Lemma py_dict_nodup items : NoDup (map fst (py_dict items)).
Proof. unfold py_dict. assert (G : forall d : store, NoDup (map fst d) -> NoDup (map fst (fold_left (fun d kv => dset pkey_eqb (fst kv) (snd kv) d) items d))).
  { induction items as [|kv items IH]; intros d N; cbn [fold_left]; [exact N|]. apply IH. now apply (dset_nodup pkey_eqb pkey_eqb_eq). }
  apply G. constructor. Qed.
Lemma py_dict_in items key v : In (key, v) (py_dict items) -> In (key, v) items.
Proof. unfold py_dict. assert (G : forall d : store, In (key, v) (fold_left (fun d kv => dset pkey_eqb (fst kv) (snd kv) d) items d) -> NoDup (map fst d) -> In (key, v) d \/ In (key, v) items).
  { induction items as [|[k0 v0] items IH]; intros d H N; cbn [fold_left fst snd] in H; [tauto|]. apply IH in H; [|now apply (dset_nodup pkey_eqb pkey_eqb_eq)].
    destruct H as [H|H]; [|right; right; exact H]. apply (in_dset _ _ _ N) in H as [[-> ->]|[_ H]]; [right; left; reflexivity|left; exact H]. }
  intros H. apply G in H; [|constructor]. destruct H as [[]|H]; exact H. Qed.
Lemma cset_all_tidy k items : forall h d s o, named h -> tidy h d -> NoDup (map fst items) -> apart d items -> cset_all k h d items = (s, o) -> named (fst s) /\ tidy (fst s) (snd s).
Proof. induction items as [|[key v] items IH]; intros h d s o NM T ND AP H; cbn [cset_all] in H; [injection H as <- _; split; assumption|]. cbn [map fst] in ND. inversion ND as [|? ? N1 N2]; subst.
  destruct (cset k h d key v) as [[h' d']|e] eqn:C; [|injection H as <- _; split; assumption].
  assert (AV : forall l key', v = VC l -> In (key', VC l) d -> key' = key) by (intros l key' -> X; apply (AP key l (or_introl eq_refl)); left; exact X).
  destruct (cset_tidy _ _ _ _ _ _ _ NM T AV C) as [NM' T']. apply (IH _ _ _ _ NM' T' N2) in H; [exact H|].
  apply cset_ok in C as [s0 [l0 [-> [-> [_ ->]]]]]. intros k1 l1 X k2 [Y|Y].
  - apply (in_dset _ _ _ (proj1 T)) in Y as [[-> E]|[_ Y]].
    + injection E as ->. apply (AP k1 l0 (or_intror X)). right. left. reflexivity.
    + apply (AP k1 l1 (or_intror X)). left. exact Y.
  - apply (AP k1 l1 (or_intror X)). right. right. exact Y. Qed.
Lemma cset_all_named k items : forall h d s o, named h -> cset_all k h d items = (s, o) -> named (fst s).
Proof. induction items as [|[key v] items IH]; intros h d s o NM H; cbn [cset_all] in H; [injection H as <- _; exact NM|].
  destruct (cset k h d key v) as [[h' d']|e] eqn:C; [|injection H as <- _; exact NM]. refine (IH _ _ _ _ _ H). pose proof (cset_ok _ _ _ _ _ _ _ C) as [s0 [l [-> [-> _]]]]. exact (proj1 (cset_stored _ _ _ _ _ _ _ NM C)). Qed.
Lemma tidy_sub h (d e : store) : tidy h d -> NoDup (map fst e) -> NoDup (map snd e) -> (forall kv, In kv e -> In kv d) -> tidy h e.
Proof. intros [_ [_ G]] N M S. split; [exact N|]. split; [exact M|]. intros key v Q. apply G, S, Q. Qed.
Lemma ddel_sub key (d : store) : (forall kv, In kv (ddel pkey_eqb key d) -> In kv d) /\ (NoDup (map fst d) -> NoDup (map fst (ddel pkey_eqb key d))) /\ (NoDup (map snd d) -> NoDup (map snd (ddel pkey_eqb key d))).
Proof. induction d as [|[k0 v0] d [I1 [I2 I3]]]; cbn [ddel]; [tauto|]. destruct (pkey_eqb key k0); cbn [map fst snd].
  - split; [intros; right; assumption|]. split; intros N; inversion N; assumption.
  - split; [intros kv [X|X]; [left; exact X|right; auto]|]. split; intros N; inversion N as [|? ? N1 N2]; subst; (constructor; [|auto]); intros X; apply N1; apply in_map_iff in X as [kv [E X]]; apply in_map_iff; exists kv; auto. Qed.
Lemma removelast_sub {A B} (f : A -> B) (l : list A) : (forall x, In x (removelast l) -> In x l) /\ (NoDup (map f l) -> NoDup (map f (removelast l))).
Proof. destruct l as [|a l] using rev_ind; [tauto|]. rewrite removelast_last. split; [intros x X; apply in_or_app; tauto|]. rewrite map_app. intros N. cbn [map] in N. apply NoDup_remove_1 in N. now rewrite app_nil_r in N. Qed.
Lemma do_op_tidy k h d o s e : named h -> tidy h d -> checked o -> apart d (op_items o) -> do_op k h d o = (s, e) -> named (fst s) /\ tidy (fst s) (snd s).
Proof. intros NM T CK AP H. destruct o as [key v|items|key|key| | |key v|items]; cbn [do_op op_items checked] in *; try contradiction.
  - destruct (cset k h d key v) as [[h' d']|] eqn:C; [|injection H as <- _; split; assumption]. injection H as <- _. cbn [fst snd]. apply (cset_tidy _ _ _ _ _ _ _ NM T) with (2 := C).
    intros l key' -> X. apply (AP key l (or_introl eq_refl)). left. exact X.
  - unfold cupdate in H. apply (cset_all_tidy _ _ _ _ _ _ NM T (py_dict_nodup items)) in H; [exact H|]. intros k1 l1 X k2 [Y|Y]; (apply (AP k1 l1 (py_dict_in _ _ _ X))); [left; exact Y|right; now apply py_dict_in].
  - destruct (dmem pkey_eqb key d); injection H as <- _; (split; [exact NM|]); [|exact T]. cbn [fst snd]. destruct (ddel_sub key d) as [S1 [S2 S3]]. destruct T as [N [M G]]. exact (tidy_sub _ _ _ (conj N (conj M G)) (S2 N) (S3 M) S1).
  - destruct (dmem pkey_eqb key d); injection H as <- _; (split; [exact NM|]); [|exact T]. cbn [fst snd]. destruct (ddel_sub key d) as [S1 [S2 S3]]. destruct T as [N [M G]]. exact (tidy_sub _ _ _ (conj N (conj M G)) (S2 N) (S3 M) S1).
  - assert (X : (h, removelast d) = s \/ (h, d) = s) by (destruct d; injection H as <- _; tauto). clear H. destruct X as [<-| <-]; (split; [exact NM|]); [|exact T]. cbn [fst snd]. destruct T as [N [M G]].
    exact (tidy_sub _ _ _ (conj N (conj M G)) (proj2 (removelast_sub fst d) N) (proj2 (removelast_sub snd d) M) (proj1 (removelast_sub fst d))).
  - injection H as <- _. split; [exact NM|]. split; [constructor|]. split; [constructor|intros ? ? []]. Qed.
Lemma run_tidy k os : forall h d, named h -> tidy h d -> careful k h d os -> let s := run_ops k h d os in named (fst s) /\ tidy (fst s) (snd s).
Proof. induction os as [|o os IH]; intros h d NM T C; cbn [run_ops]; [split; assumption|]. destruct C as [CK [AP C]]. destruct (do_op k h d o) as [[h1 d1] e] eqn:E. cbn [fst snd] in C.
  destruct (do_op_tidy _ _ _ _ _ _ NM T CK AP E) as [NM' T']. exact (IH h1 d1 NM' T' C). Qed.

(** what is rejected *)
Lemma cset_fit k h d key v : (exists s, cset k h d key v = Ok s) <-> fit h key v.
Proof. unfold cset, fit, force_key. split.
  - intros [[h' d'] H]. apply cset_ok in H as [s [l [-> [-> [F _]]]]]. apply force_key_spec in F as [c [A [[E _]|[z [P _]]]]]; exists s, l, c; repeat (split; [auto|]); [|left; exists z; exact P].
    unfold name_text in E. destruct (c_name c) as [n|]; [left; exists n; rewrite E; apply parse_str_of_Z|right; auto].
  - intros [s [l [c [-> [-> [A D]]]]]]. apply hget_ok in A. rewrite A. cbn [bind]. destruct (str_eqb (key_num s) (name_text c)) eqn:E; [eexists; reflexivity|]. destruct D as [[z D]|[N D]].
    + rewrite D. eexists. reflexivity. + unfold name_text in E. rewrite N, D in E. discriminate E. Qed.
Lemma parse_int_err s e : parse_int s = Err e -> e = ValueError.
Proof. unfold parse_int. destruct (take_sign s) as [neg s1]. destruct (span_digits s1) as [[|x ds] [|y r]]; congruence. Qed.
Lemma cset_rejects k h d key v e : cset k h d key v = Err e -> (forall l, v = VC l -> l < length h) -> e = ValueError.
Proof. unfold cset, force_key. intros H AL. destruct key as [s|]; [|congruence]. destruct v as [l|]; [|congruence]. destruct (nth_error h l) as [c|] eqn:A; [|apply nth_error_None in A; specialize (AL l eq_refl); lia].
  apply hget_ok in A. rewrite A in H. cbn [bind] in H. destruct (str_eqb (key_num s) (name_text c)); [discriminate|]. destruct (parse_int (key_num s)) as [z|x] eqn:P; cbn [bind] in H; [discriminate|]. injection H as <-. exact (parse_int_err _ _ P). Qed.
Lemma cset_all_stops k items : forall h d s e, cset_all k h d items = (s, Some e) ->
  exists pre key v post, items = pre ++ (key, v) :: post /\ cset_all k h d pre = (s, None) /\ cset k (fst s) (snd s) key v = Err e.
Proof. induction items as [|[key v] items IH]; intros h d s e H; cbn [cset_all] in H; [discriminate|]. destruct (cset k h d key v) as [[h' d']|x] eqn:C.
  - destruct (IH _ _ _ _ H) as [pre [k1 [v1 [post [-> [A B]]]]]]. exists ((key, v) :: pre), k1, v1, post. split; [reflexivity|]. split; [cbn [cset_all]; rewrite C; exact A|exact B].
  - injection H as <- <-. exists [], key, v, items. auto. Qed.
Lemma cset_all_done k items : forall h d s, named h -> NoDup (map fst items) -> NoDup (map fst d) -> cset_all k h d items = (s, None) ->
  (forall key v, In (key, v) (snd s) <-> In (key, v) items \/ (~ In key (map fst items) /\ In (key, v) d)) /\
  length (fst s) = length h /\ (forall l, ~ In (VC l) (map snd items) -> nth_error (fst s) l = nth_error h l).
Proof. induction items as [|[key v] items IH]; intros h d s NM ND N H; cbn [cset_all] in H.
  - injection H as <-. cbn [fst snd map In]. split; [intros; tauto|]. split; reflexivity.
  - cbn [map fst] in ND. inversion ND as [|? ? N1 N2]; subst. destruct (cset k h d key v) as [[h' d']|x] eqn:C; [|discriminate]. pose proof (cset_frame _ _ _ _ _ _ _ C) as [L FR].
    assert (NM' : named h') by (pose proof (cset_ok _ _ _ _ _ _ _ C) as [s0 [l [-> [-> _]]]]; exact (proj1 (cset_stored _ _ _ _ _ _ _ NM C))).
    pose proof (cset_ok _ _ _ _ _ _ _ C) as [s0 [l0 [EK [EV [_ ->]]]]]. destruct (IH _ _ _ NM' N2 (dset_nodup pkey_eqb pkey_eqb_eq key v d N) H) as [A [B D]]. split; [|split; [congruence|]].
    + intros k1 v1. rewrite A, (in_dset _ _ _ N). cbn [map fst In]. split.
      * intros [X|[X [[-> ->]|[Y Z]]]]; [tauto|left; left; reflexivity|]. right. split; [intros [W|W]; [congruence|contradiction]|exact Z].
      * intros [[X|X]|[X Y]]; [injection X as <- <-; right; split; [exact N1|tauto]|left; exact X|]. right. split; [tauto|]. right. split; [intros ->; tauto|exact Y].
    + intros l X. cbn [map snd In] in X. rewrite D by tauto. apply FR. intros ->. tauto. Qed.
Lemma cset_number k h d s l h' d' c : cset k h d (KS s) (VC l) = Ok (h', d') -> nth_error h l = Some c -> self_named k c ->
  exists c' n, nth_error h' l = Some c' /\ parse_int (key_num s) = Ok n /\ c_name c' = Some n /\ first_of k (c_values c') = Some n /\ c_input c' = c_input c /\ c_hidden c' = c_hidden c.
Proof. intros H A [m [M F]]. apply cset_ok in H as [s0 [l0 [E1 [E2 [FK _]]]]]. injection E1 as <-. injection E2 as <-. apply force_key_spec in FK as [c0 [A0 D]]. rewrite A in A0. injection A0 as <-.
  destruct D as [[E ->]|[z [P ->]]].
  - exists c, m. unfold name_text in E. rewrite M in E. rewrite E, parse_str_of_Z. repeat (split; [auto|]). reflexivity.
  - exists (rename k z c), z. rewrite hset_same by (eapply nth_lt; eauto). repeat (split; [auto|]); [|split; reflexivity]. cbn [rename c_values]. apply set_first_first; congruence. Qed.
(** the methods that are not overridden *)
Lemma dmem_keys key (d : store) : dmem pkey_eqb key d = true <-> In key (map fst d).
Proof. induction d as [|[k' v'] d IH]; [cbn; split; [discriminate|tauto]|]. unfold dmem in *. cbn [dget map In fst]. destruct (pkey_eqb key k') eqn:E.
  - apply pkey_eqb_eq in E. subst. split; [now left|reflexivity].
  - rewrite IH. split; [now right|]. intros [->|I]; [|exact I]. assert (pkey_eqb key key = true) by now apply pkey_eqb_eq. congruence. Qed.
Lemma ddel_in key (d : store) : NoDup (map fst d) -> forall e, In e (ddel pkey_eqb key d) <-> In e d /\ fst e <> key.
Proof. induction d as [|[k' v'] d IH]; intros N e; [cbn; tauto|]. cbn [map fst] in N. inversion N as [|? ? N1 N2]; subst. cbn [ddel]. destruct (pkey_eqb key k') eqn:E.
  - apply pkey_eqb_eq in E. subst k'. cbn [In]. split.
    + intros I. split; [now right|]. intros X. apply N1. rewrite <- X. now apply in_map.
    + intros [[<-|I] X]; [now elim X|exact I].
  - cbn [In]. rewrite (IH N2). split.
    + intros [<-|[I X]]; [|tauto]. split; [now left|]. cbn [fst]. intros ->. assert (pkey_eqb key key = true) by now apply pkey_eqb_eq. congruence.
    + tauto. Qed.
Lemma dset_keys_in key v (d : store) k' : In k' (map fst (dset pkey_eqb key v d)) <-> k' = key \/ In k' (map fst d).
Proof. induction d as [|[a b] d IH]; [cbn; intuition|]. cbn [dset]. destruct (pkey_eqb key a) eqn:E.
  - apply pkey_eqb_eq in E. subst. cbn [map fst In]. intuition.
  - cbn [map fst In]. rewrite IH. intuition. Qed.
Lemma fold_dset_keys (items : list (pkey * pval)) : forall d key, In key (map fst (fold_left (fun (d : store) kv => dset pkey_eqb (fst kv) (snd kv) d) items d)) <-> In key (map fst d) \/ In key (map fst items).
Proof. induction items as [|x items IH]; intros d key; cbn [fold_left map In]; [tauto|]. rewrite IH, dset_keys_in. intuition. Qed.
Lemma unchecked k h d :
  (forall key v, snd (do_op k h d (OSetdefault key v)) = None /\ fst (fst (do_op k h d (OSetdefault key v))) = h /\
     (In key (map fst d) -> snd (fst (do_op k h d (OSetdefault key v))) = d) /\
     (~ In key (map fst d) -> forall e, In e (snd (fst (do_op k h d (OSetdefault key v)))) <-> In e d \/ e = (key, v))) /\
  (forall items, snd (do_op k h d (OOr items)) = None /\ fst (fst (do_op k h d (OOr items))) = h /\
     forall key, In key (map fst (snd (fst (do_op k h d (OOr items))))) <-> In key (map fst d) \/ In key (map fst items)) /\
  (forall key, NoDup (map fst d) -> In key (map fst d) -> snd (do_op k h d (ODel key)) = None /\ fst (fst (do_op k h d (ODel key))) = h /\
     do_op k h d (OPop key) = do_op k h d (ODel key) /\
     forall e, In e (snd (fst (do_op k h d (ODel key)))) <-> In e d /\ fst e <> key) /\
  (forall key, ~ In key (map fst d) -> do_op k h d (ODel key) = ((h, d), Some KeyError) /\ do_op k h d (OPop key) = ((h, d), Some KeyError)).
Proof. split; [|split; [|split]].
  - intros key v. cbn [do_op]. destruct (dmem pkey_eqb key d) eqn:M.
    + apply dmem_keys in M. repeat split; try tauto.
    + assert (N : ~ In key (map fst d)) by (intros I; apply dmem_keys in I; congruence). repeat split; try tauto. cbn [fst snd]. intros I. apply in_app_iff in I as [I|[<-|[]]]; auto. intros [I| ->]; cbn [fst snd]; apply in_app_iff; [now left|right; now left].
  - intros items. cbn [do_op fst snd]. split; [reflexivity|]. split; [reflexivity|]. intros key. apply fold_dset_keys.
  - intros key N I. cbn [do_op]. assert (M : dmem pkey_eqb key d = true) by now apply dmem_keys. rewrite M. cbn [fst snd]. split; [reflexivity|]. split; [reflexivity|]. split; [reflexivity|]. now apply ddel_in.
  - intros key N. cbn [do_op]. assert (M : dmem pkey_eqb key d = false) by (destruct (dmem pkey_eqb key d) eqn:M; [|reflexivity]; apply dmem_keys in M; contradiction). rewrite M. split; reflexivity.
Qed.
