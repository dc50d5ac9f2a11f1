(** Proofs about versions, warnings and fatal errors in MCNP output files. *)
From Coq Require Import Lia ZArith Permutation Sorted.
From Verif Require Import PyBase PyLemmas PyStr PyText D1SModel D1SProofs2 DataModel MeshModel MeshSpec MeshProofs OutModel OutSpec OutProofs OutProofs2.
Open Scope nat_scope.

(** ** searching *)
Lemma search_skip {A} (f : str -> option A) a r : (forall a1 c a2, a = a1 ++ c :: a2 -> f (c :: a2 ++ r) = None) -> search f (a ++ r) = search f r.
Proof.
  induction a as [|c a IH]; intros H; [reflexivity|]. cbn [app search]. rewrite (H [] c a eq_refl). apply IH. intros a1 x a2 E. apply (H (c :: a1) x a2). rewrite E. reflexivity.
Qed.
Lemma search_here {A} (f : str -> option A) s x : f s = Some x -> search f s = Some x.
Proof. intros H. destruct s; cbn [search]; rewrite H; reflexivity. Qed.
Lemma search_found {A} (f : str -> option A) s x : search f s = Some x -> exists a r, s = a ++ r /\ f r = Some x.
Proof.
  induction s as [|c s IH]; cbn [search]; intros H.
  - exists [], []. split; [reflexivity|]. destruct (f []); [exact H|discriminate H].
  - destruct (f (c :: s)) eqn:E; [exists [], (c :: s); split; [reflexivity|congruence]|]. destruct (IH H) as (a & r & -> & Hr). exists (c :: a), r. auto.
Qed.
Lemma search_app_some {A} (f : str -> option A) a r x : f r = Some x -> exists y, search f (a ++ r) = Some y.
Proof.
  intros H. induction a as [|c a IH]; cbn [app search]; [exists x; apply search_here; exact H|]. destruct (f (c :: a ++ r)); [eexists; reflexivity|exact IH].
Qed.
(* a pattern whose first character comes only once in it does not overlap itself *)
Lemma no_overlap c0 p a1 c a2 b : ~ In c0 p -> ~ Mentions (c0 :: p) (a1 ++ c :: a2) -> strip_prefix (c0 :: p) (c :: a2 ++ c0 :: p ++ b) = None.
Proof.
  intros Hc Hm. destruct (strip_prefix (c0 :: p) (c :: a2 ++ c0 :: p ++ b)) as [r|] eqn:E; [|reflexivity]. exfalso. apply strip_prefix_some in E. cbn [app] in E. injection E as -> E.
  destruct (Nat.le_gt_cases (length p) (length a2)) as [L|L].
  - apply Hm. exists a1, (skipn (length p) a2). f_equal. cbn [app]. f_equal. rewrite <- (firstn_skipn (length p) a2) at 1. f_equal.
    apply (f_equal (firstn (length p))) in E. rewrite !firstn_app, Nat.sub_diag, firstn_all in E. cbn [firstn] in E. rewrite app_nil_r in E. replace (length p - length a2) with 0 in E by lia. cbn [firstn] in E. rewrite app_nil_r in E. exact E.
  - apply Hc. apply (f_equal (fun l => nth_error l (length a2))) in E. rewrite nth_error_app2, Nat.sub_diag in E by lia. cbn [nth_error] in E. rewrite nth_error_app1 in E by lia. symmetry in E. apply nth_error_In in E. exact E.
Qed.

(** ** versions *)
Lemma d1s_some r v : d1s_version r = Some v -> exists w1 w2 b, r = s2l "d1suned" ++ w1 ++ s2l "version" ++ w2 ++ v ++ b /\ blanks w1 /\ blanks w2 /\ all_digits v.
Proof.
  unfold d1s_version. destruct (strip_prefix (s2l "d1suned") r) as [a|] eqn:E1; [|discriminate]. cbn [obind]. destruct (some1 is_ws a) as [[w1 b1]|] eqn:E2; [|discriminate]. cbn [obind].
  destruct (strip_prefix (s2l "version") b1) as [c|] eqn:E3; [|discriminate]. cbn [obind]. destruct (some1 is_ws c) as [[w2 d]|] eqn:E4; [|discriminate]. cbn [obind].
  destruct (some1 is_digit d) as [[e f]|] eqn:E5; [|discriminate]. cbn [obind]. intros X. injection X as <-.
  apply strip_prefix_some in E1, E3. apply some1_spec in E2 as (-> & ? & ? & ?), E4 as (-> & ? & ? & ?), E5 as (-> & ? & ? & ?). subst. exists w1, w2, f. split; [reflexivity|]. unfold blanks, all_digits. auto.
Qed.
Lemma any_ok w2 v b : blanks w2 -> all_digits v -> not_starting_digit b -> any_version (s2l "version" ++ w2 ++ v ++ b) = Some v.
Proof.
  intros [Hw1 Hw2] [Hv1 Hv2] Hb. unfold any_version. replace (strip_prefix (s2l "version") (s2l "version" ++ w2 ++ v ++ b)) with (Some (w2 ++ v ++ b)) by (symmetry; apply strip_prefix_some; reflexivity). cbn [obind].
  rewrite some1_app; [|exact Hw1|exact Hw2|]. 2:{ intros c r E. destruct v as [|x v]; [congruence|]. injection E as <- _. inversion Hv2; subst. apply digit_ws. assumption. }
  cbn [obind]. rewrite (some1_app is_digit v b Hv1 Hv2 Hb). reflexivity.
Qed.
Lemma d1s_ok w1 w2 v b : blanks w1 -> blanks w2 -> all_digits v -> not_starting_digit b -> d1s_version (s2l "d1suned" ++ w1 ++ s2l "version" ++ w2 ++ v ++ b) = Some v.
Proof.
  intros [Hn Hw] H2 Hv Hb. unfold d1s_version. replace (strip_prefix (s2l "d1suned") (s2l "d1suned" ++ w1 ++ s2l "version" ++ w2 ++ v ++ b)) with (Some (w1 ++ s2l "version" ++ w2 ++ v ++ b)) by (symmetry; apply strip_prefix_some; reflexivity). cbn [obind].
  rewrite some1_app; [|exact Hn|exact Hw|intros c r E; injection E as <- _; reflexivity]. cbn [obind]. exact (any_ok w2 v b H2 Hv Hb).
Qed.
Lemma any_none_char c s : c <> "v"%char -> any_version (c :: s) = None.
Proof. intros H. unfold any_version. cbn [s2l list_ascii_of_string strip_prefix]. destruct (Ascii.eqb_spec "v"%char c) as [E|_]; [congruence|reflexivity]. Qed.
Lemma version_first a r : ~ Mentions (s2l "version") a -> (forall c s, r = c :: s -> ~ In c (s2l "version")) -> r <> [] -> search any_version (a ++ r) = search any_version r.
Proof.
  intros Hm Hr Hne. apply search_skip. intros a1 c a2 ->. unfold any_version. destruct (strip_prefix (s2l "version") (c :: a2 ++ r)) as [q|] eqn:E; [|reflexivity]. exfalso. apply strip_prefix_some in E.
  destruct (Nat.le_gt_cases 7 (length (c :: a2))) as [L|L].
  - apply Hm. exists a1, (skipn 7 (c :: a2)). f_equal. rewrite <- (firstn_skipn 7 (c :: a2)) at 1. f_equal. change (c :: a2 ++ r) with ((c :: a2) ++ r) in E. apply (f_equal (firstn 7)) in E. rewrite firstn_app in E.
    replace (7 - length (c :: a2)) with 0 in E by lia. rewrite firstn_O in E. rewrite app_nil_r in E. exact E.
  - destruct r as [|x r]; [congruence|]. apply (Hr x r eq_refl). change (c :: a2 ++ x :: r) with ((c :: a2) ++ x :: r) in E. apply (f_equal (fun l => nth_error l (length (c :: a2)))) in E. rewrite nth_error_app2, Nat.sub_diag in E by lia. cbn [nth_error] in E.
    rewrite nth_error_app1 in E by exact L. symmetry in E. apply nth_error_In in E. exact E.
Qed.
Lemma no_v_skip w r : ~ In "v"%char w -> search any_version (w ++ r) = search any_version r.
Proof. intros H. apply search_skip. intros a1 c a2 ->. apply any_none_char. intros ->. apply H. apply in_or_app. right. left. reflexivity. Qed.
Lemma d1s_line v l : D1SLine v l -> search any_version l = Some v /\ exists y, search d1s_version l = Some y.
Proof.
  intros (a & w1 & w2 & b & -> & Hm & [Hn Hw] & H2 & Hv & Hb). split.
  - rewrite version_first; [|exact Hm|intros c s E; injection E as <- _; cbn; intuition discriminate|discriminate].
    rewrite (no_v_skip (s2l "d1suned")) by (cbn; intuition discriminate). rewrite (no_v_skip w1). 2:{ intros X. rewrite Forall_forall in Hw. specialize (Hw _ X). discriminate Hw. }
    apply search_here. apply any_ok; assumption.
  - eapply search_app_some. apply d1s_ok; try assumption. split; assumption.
Qed.
Lemma no_d1s_search l : no_d1s l -> search d1s_version l = None.
Proof.
  intros H. destruct (search d1s_version l) as [v|] eqn:E; [|reflexivity]. exfalso. apply search_found in E as (a & r & -> & E). apply d1s_some in E as (w1 & w2 & b & -> & H1 & H2 & H3). exact (H a w1 w2 v b H1 H2 H3 eq_refl).
Qed.
Lemma head_skip a : forall r, Forall no_d1s a -> d1s_head (a ++ r) = d1s_head r.
Proof. induction a as [|l a IH]; intros r H; [reflexivity|]. inversion H; subst. cbn [app d1s_head]. rewrite no_d1s_search by assumption. apply IH. assumption. Qed.
Theorem version_d1s a l b others v : length a < 34 -> Forall no_d1s a -> D1SLine v l -> get_code_version (a ++ l :: b) others = Ok (s2l "d1suned" ++ v).
Proof.
  intros La Ha Hl. unfold get_code_version. rewrite firstn_app. rewrite (firstn_all2 a) by lia. rewrite head_skip by exact Ha. destruct (34 - length a) as [|n] eqn:E; [lia|]. cbn [firstn d1s_head].
  destruct (d1s_line _ _ Hl) as (E1 & y & E2). rewrite E2, E1. reflexivity.
Qed.
Lemma mcnp_line v l : MCNPLine v l -> search mcnp_version l = Some v.
Proof.
  intros (a & b & -> & Hm & Hn & Hv & Hb). rewrite search_skip.
  - apply search_here. unfold mcnp_version. replace (strip_prefix (s2l "MCNP_") (s2l "MCNP_" ++ v ++ b)) with (Some (v ++ b)) by (symmetry; apply strip_prefix_some; reflexivity). cbn [obind].
    rewrite (some1_app (fun x => is_digit x || Ascii.eqb x dot) v b Hn Hv Hb). reflexivity.
  - intros a1 c a2 ->. unfold mcnp_version. change (s2l "MCNP_" ++ v ++ b) with ("M"%char :: s2l "CNP_" ++ v ++ b). rewrite (no_overlap "M"%char (s2l "CNP_") a1 c a2) by (try exact Hm; cbn; intuition discriminate). reflexivity.
Qed.
Lemma span0 n r : (forall c r', r = c :: r' -> c <> "0"%char) -> span (fun c => Ascii.eqb c "0"%char) (repeat "0"%char n ++ r) = (repeat "0"%char n, r).
Proof.
  intros H. apply span_app; [apply Forall_forall; intros c Hc; apply repeat_spec in Hc; subst; reflexivity|]. intros c r' ->. apply Ascii.eqb_neq. exact (H c r' eq_refl).
Qed.
Lemma rev_repeat {A} (x : A) n : rev (repeat x n) = repeat x n.
Proof. induction n as [|n IH]; [reflexivity|]. cbn [repeat rev]. rewrite IH. clear. induction n as [|n IH]; [reflexivity|]. cbn [repeat app]. rewrite IH. reflexivity. Qed.
Lemma strip0_ok v r : r <> [] -> trimmed0 v r -> strip0 v = r.
Proof.
  intros Hne (n & m & -> & H1 & H2). unfold strip0. rewrite span0. 2:{ intros c r' E. destruct r as [|x r]; [congruence|]. injection E as <- _. exact (H1 x r eq_refl). }
  cbn [snd]. rewrite rev_app_distr, rev_repeat, span0 by exact H2. cbn [snd]. apply rev_involutive.
Qed.
Theorem version_mcnp l b others v r : Forall no_d1s (firstn 34 (l :: b)) -> MCNPLine v l -> r <> [] -> trimmed0 v r -> get_code_version (l :: b) others = Ok r.
Proof.
  intros Hd Hl Hr Ht. unfold get_code_version. pose proof (head_skip (firstn 34 (l :: b)) [] Hd) as E. rewrite app_nil_r in E. rewrite E. cbn [d1s_head]. rewrite (mcnp_line _ _ Hl), (strip0_ok _ _ Hr Ht). reflexivity.
Qed.
Definition no_mcnp (l : str) : Prop := search mcnp_version l = None.
Theorem version_none ls : Forall no_d1s (firstn 34 ls) -> (forall l r, ls = l :: r -> ~ Mentions (s2l "MCNP_") l) -> get_code_version ls [] = Err ValueError.
Proof.
  intros Hd Hm. unfold get_code_version. pose proof (head_skip (firstn 34 ls) [] Hd) as E. rewrite app_nil_r in E. rewrite E. cbn [d1s_head]. destruct ls as [|l r]; [reflexivity|].
  destruct (search mcnp_version l) as [v|] eqn:S; [|reflexivity]. exfalso. apply search_found in S as (a & q & -> & S). unfold mcnp_version in S. destruct (strip_prefix (s2l "MCNP_") q) as [t|] eqn:P; [|discriminate S]. apply strip_prefix_some in P. subst q. apply (Hm _ r eq_refl). exists a, t. reflexivity.
Qed.

(** ** warnings *)
Lemma remove_skip c0 p a b : forall n, ~ In c0 p -> ~ Mentions (c0 :: p) a -> length a < n -> remove_all n (c0 :: p) (a ++ (c0 :: p) ++ b) = a ++ remove_all (n - length a) (c0 :: p) ((c0 :: p) ++ b).
Proof.
  induction a as [|c a IH]; intros n Hc Hm Hn; [cbn [app length]; rewrite Nat.sub_0_r; reflexivity|]. destruct n as [|n]; [lia|]. cbn [remove_all app length Nat.sub].
  change ((c0 :: p) ++ b) with (c0 :: p ++ b). rewrite (no_overlap c0 p [] c a b Hc Hm). f_equal. apply IH; [exact Hc| |cbn in Hn; lia]. intros (x & y & ->). apply Hm. exists (c :: x), y. reflexivity.
Qed.
Lemma remove_none p s : forall n, ~ Mentions p s -> remove_all n p s = s.
Proof.
  induction s as [|c s IH]; intros n Hm; (destruct n as [|n]; [reflexivity|]); cbn [remove_all].
  - destruct (strip_prefix p []) as [r|] eqn:E; [apply strip_prefix_some in E; exfalso; apply Hm; exists [], r; exact E|reflexivity].
  - destruct (strip_prefix p (c :: s)) as [r|] eqn:E; [apply strip_prefix_some in E; exfalso; apply Hm; exists [], r; exact E|]. f_equal. apply IH. intros (x & y & ->). apply Hm. exists (c :: x), y. reflexivity.
Qed.
Lemma warning_text m l : Warning m l -> warning_of false l = m.
Proof.
  intros (a & b & -> & Ha & Hb & ->). unfold warning_of. f_equal. change (s2l "warning.") with ("w"%char :: s2l "arning."). rewrite remove_skip; [|cbn; intuition discriminate|exact Ha|rewrite app_length; lia].
  f_equal. set (n := S (length (a ++ ("w"%char :: s2l "arning.") ++ b)) - length a). assert (Hn : n = S (8 + length b)) by (unfold n; rewrite !app_length; change (length ("w"%char :: s2l "arning.")) with 8; lia).
  rewrite Hn. cbn [remove_all]. replace (strip_prefix ("w"%char :: s2l "arning.") (("w"%char :: s2l "arning.") ++ b)) with (Some b) by (symmetry; apply strip_prefix_some; reflexivity). apply remove_none. exact Hb.
Qed.
Lemma warning_plain l : ~ mentions "not used for anything" l -> ~ mentions "this surface has been replaced" l -> warning_of true l = warning_of false l.
Proof. intros H1 H2. unfold warning_of. rewrite (has_not _ _ H1), (has_not _ _ H2). reflexivity. Qed.
Lemma warning_unused l : mentions "not used for anything" l -> warning_of true l = s2l "unused surfaces".
Proof. intros H. unfold warning_of. apply has_iff in H. rewrite H. reflexivity. Qed.
Lemma warning_replaced l : ~ mentions "not used for anything" l -> mentions "this surface has been replaced" l -> warning_of true l = s2l "replaced surfaces".
Proof. intros H1 H2. unfold warning_of. rewrite (has_not _ _ H1). apply has_iff in H2. rewrite H2. reflexivity. Qed.
Theorem warnings_ok collapse lines : let ws := filter (has "warning.") lines in
  (forall m n, In (m, n) (get_warnings collapse lines) <-> n = length (filter (fun l => str_eqb m (warning_of collapse l)) ws) /\ n <> 0)
  /\ NoDup (map fst (get_warnings collapse lines)) /\ list_sum (map snd (get_warnings collapse lines)) = length ws
  /\ StronglySorted (fun a b => str_leb a b = true) (map fst (get_warnings collapse lines)).
Proof.
  cbn zeta. unfold get_warnings. set (ws := map (warning_of collapse) (filter (has "warning.") lines)).
  assert (C : forall m, count_of str_eqb m ws = length (filter (fun l => str_eqb m (warning_of collapse l)) (filter (has "warning.") lines))).
  { intros m. unfold count_of, ws. induction (filter (has "warning.") lines) as [|l r IH]; [reflexivity|]. cbn [map filter]. destruct (str_eqb m (warning_of collapse l)); cbn [length]; rewrite IH; reflexivity. }
  assert (P : Permutation (sorted_strs (uniq str_eqb ws)) (uniq str_eqb ws)).
  { unfold sorted_strs. induction (uniq str_eqb ws) as [|x l IH]; [constructor|]. cbn [fold_right]. transitivity (x :: fold_right insert_sorted [] l); [|apply perm_skip; exact IH].
    generalize (fold_right insert_sorted [] l). clear. intros m. induction m as [|y m IH]; [reflexivity|]. cbn [insert_sorted]. destruct (str_leb x y); [reflexivity|]. rewrite IH. apply perm_swap. }
  assert (K : map fst (map (fun w => (w, count_of str_eqb w ws)) (sorted_strs (uniq str_eqb ws))) = sorted_strs (uniq str_eqb ws)) by (rewrite map_map; cbn [fst]; apply map_id).
  split; [|split; [|split]].
  - intros m n. rewrite in_map_iff. split.
    + intros (w & E & H). injection E as -> <-. rewrite <- C. split; [reflexivity|]. apply (Permutation_in _ P) in H. apply (proj1 (uniq_in str_eqb str_eqb_eq _ _)) in H. unfold count_of. intros X. apply length_zero_iff_nil in X.
      assert (I : In m (filter (str_eqb m) ws)) by (apply filter_In; split; [exact H|apply str_eqb_eq; reflexivity]). rewrite X in I. destruct I.
    + intros [-> Hn]. exists m. rewrite <- C in *. split; [reflexivity|]. apply (Permutation_in _ (Permutation_sym P)). apply (uniq_in str_eqb str_eqb_eq).
      unfold count_of in Hn. destruct (filter (str_eqb m) ws) as [|x r] eqn:E; [cbn in Hn; congruence|]. assert (I : In x (filter (str_eqb m) ws)) by (rewrite E; left; reflexivity). apply filter_In in I as [I1 I2]. apply str_eqb_eq in I2. subst x. exact I1.
  - rewrite K. apply (Permutation_NoDup (Permutation_sym P)). apply (uniq_nodup str_eqb str_eqb_eq).
  - rewrite map_map. cbn [snd]. rewrite (list_sum_perm _ _ (Permutation_map (fun w => count_of str_eqb w ws) P)). rewrite (sum_counts str_eqb str_eqb_eq (length ws) ws (le_n _)). unfold ws. apply map_length.
  - rewrite K. unfold sorted_strs. clear. induction (uniq str_eqb ws) as [|x l IH]; [constructor|]. cbn [fold_right]. apply insert_sorted_ss. exact IH.
Qed.

(** ** fatal errors *)
Lemma fatal_iff l : is_fatal l = true <-> fatal_line l.
Proof.
  unfold is_fatal. split.
  - destruct (some1 is_ws l) as [[w r]|] eqn:E; [|discriminate]. destruct (strip_prefix (s2l "fatal error") r) as [q|] eqn:E2; [|discriminate]. intros _. apply some1_spec in E as (-> & Hn & Hw & _). apply strip_prefix_some in E2. subst r. exists w, q. split; [reflexivity|split; assumption].
  - intros (w & r & -> & [Hn Hw]). rewrite some1_app; [|exact Hn|exact Hw|intros c x E; injection E as <- _; reflexivity]. replace (strip_prefix (s2l "fatal error") (s2l "fatal error" ++ r)) with (Some r) by (symmetry; apply strip_prefix_some; reflexivity). reflexivity.
Qed.
Lemma search_first p s : Mentions p s -> exists a r, s = a ++ p ++ r /\ search (strip_prefix p) s = Some r /\ (forall a' b', s = a' ++ p ++ b' -> length a <= length a').
Proof.
  induction s as [|c s IH]; intros H; cbn [search].
  - destruct H as (a & b & E). destruct a; [|discriminate E]. cbn [app] in E. exists [], b. split; [exact E|]. split; [replace (strip_prefix p []) with (Some b) by (symmetry; apply strip_prefix_some; exact E); reflexivity|intros; cbn; lia].
  - destruct (strip_prefix p (c :: s)) as [r|] eqn:E; [apply strip_prefix_some in E; exists [], r; split; [exact E|split; [reflexivity|intros; cbn; lia]]|].
    assert (N : forall b', c :: s <> p ++ b') by (intros b' X; assert (strip_prefix p (c :: s) = Some b') by (apply strip_prefix_some; exact X); congruence).
    destruct IH as (a & r & -> & H1 & H2). { destruct H as (a & b & X). destruct a as [|d a]; [exfalso; apply (N b); exact X|]. injection X as -> ->. exists a, b. reflexivity. }
    exists (c :: a), r. split; [reflexivity|]. split; [exact H1|]. intros a' b' X. destruct a' as [|d a']; [exfalso; exact (N b' X)|]. injection X as _ X. apply H2 in X. cbn [length]. lia.
Qed.
Lemma later (c0 : ascii) (p a b a' b' : list ascii) : ~ In c0 p -> a ++ (c0 :: p) ++ b = a' ++ (c0 :: p) ++ b' -> length a <= length a' -> b = b' \/ exists m, b = m ++ (c0 :: p) ++ b'.
Proof.
  intros Hc E L. assert (E' : exists k, a' = a ++ k). { exists (skipn (length a) a'). rewrite <- (firstn_skipn (length a) a') at 1. f_equal. apply (f_equal (firstn (length a))) in E. rewrite !firstn_app, Nat.sub_diag, firstn_all in E. cbn [firstn] in E. rewrite app_nil_r in E. replace (length a - length a') with 0 in E by lia. cbn [firstn] in E. rewrite app_nil_r in E. symmetry. exact E. }
  destruct E' as (k & ->). rewrite <- app_assoc in E. apply app_inv_head in E. destruct k as [|c k]; [left; cbn [app] in E; injection E as E; apply app_inv_head in E; exact E|]. right.
  destruct (Nat.le_gt_cases (length (c0 :: p)) (length (c :: k))) as [L2|L2].
  - exists (skipn (length (c0 :: p)) (c :: k)). assert (X : c :: k = (c0 :: p) ++ skipn (length (c0 :: p)) (c :: k)).
    { rewrite <- (firstn_skipn (length (c0 :: p)) (c :: k)) at 1. f_equal. apply (f_equal (firstn (length (c0 :: p)))) in E. rewrite !firstn_app, Nat.sub_diag, firstn_all in E. replace (length (c0 :: p) - length (c :: k)) with 0 in E by lia. rewrite firstn_O in E. rewrite firstn_O in E. rewrite !app_nil_r in E. symmetry. exact E. }
    rewrite X in E at 1. rewrite <- app_assoc in E. apply app_inv_head in E. exact E.
  - exfalso. apply Hc. cbn [app] in E. injection E as -> E. apply (f_equal (fun l => nth_error l (length k))) in E. rewrite nth_error_app1 in E by (cbn [length] in L2; lia). rewrite nth_error_app2, Nat.sub_diag in E by lia. cbn [nth_error] in E. apply nth_error_In in E. exact E.
Qed.
Lemma after_last_S n p s : after_last (S n) p s = match search (strip_prefix p) s with Some r => after_last n p r | None => s end. Proof. reflexivity. Qed.
Lemma after_last_ok c0 p b : ~ In c0 p -> ~ Mentions (c0 :: p) b -> forall n a, length a <= n -> after_last (S n) (c0 :: p) (a ++ (c0 :: p) ++ b) = b.
Proof.
  intros Hc Hb. assert (Z : forall n, after_last n (c0 :: p) b = b).
  { intros [|n]; [reflexivity|]. cbn [after_last]. destruct (search (strip_prefix (c0 :: p)) b) as [r|] eqn:E; [|reflexivity]. exfalso. apply search_found in E as (x & y & -> & E). apply strip_prefix_some in E. subst y. apply Hb. exists x, r. reflexivity. }
  induction n as [|n IH]; intros a La.
  - destruct a; [|cbn in La; lia]. change ([] ++ (c0 :: p) ++ b) with ((c0 :: p) ++ b). cbn [after_last]. destruct (search_first (c0 :: p) ((c0 :: p) ++ b)) as (x & r & E1 & E2 & E3); [exists [], b; reflexivity|]. rewrite E2. specialize (E3 [] b eq_refl). destruct x as [|x0 x]; [|cbn in E3; lia]. cbn [app] in E1. injection E1 as E1. apply app_inv_head in E1. symmetry. exact E1.
  - destruct (search_first (c0 :: p) (a ++ (c0 :: p) ++ b)) as (x & r & E1 & E2 & E3); [exists a, b; reflexivity|]. rewrite after_last_S, E2. specialize (E3 a b eq_refl).
    symmetry in E1. destruct (later c0 p x r a b Hc E1 E3) as [->|(m & ->)]; [apply Z|]. apply IH. apply (f_equal (@length _)) in E1. rewrite !app_length in E1. cbn [length] in E1. lia.
Qed.
Theorem fatal_ok lines ms : Forall2 Fatal ms (filter is_fatal lines) -> get_fatal_errors lines = ms.
Proof.
  unfold get_fatal_errors. intros H. induction H as [|m l ms ls (a & b & -> & Hb & ->) HF IH]; [reflexivity|]. cbn [map]. rewrite IH. f_equal. f_equal.
  change (s2l "fatal error.") with ("f"%char :: s2l "atal error.") in *. match goal with |- after_last ?n _ _ = _ => replace n with (S (length a + 11 + length b)) end.
  - apply after_last_ok; [cbn; intuition discriminate|exact Hb|lia].
  - rewrite !app_length. change (length ("f"%char :: s2l "atal error.")) with 12. lia.
Qed.
