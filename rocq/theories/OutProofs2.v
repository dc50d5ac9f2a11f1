(** Proofs about the statistical checks in MCNP output files. *)
From Coq Require Import Lia ZArith Permutation Sorted.
From Verif Require Import PyBase PyLemmas PyStr PyText D1SProofs2 MctalProofs8 DataModel MeshModel MeshSpec MeshProofs OutModel OutSpec OutProofs.
Open Scope nat_scope.

Lemma span_spec p s : let (a, b) := span p s in s = a ++ b /\ Forall (fun c => p c = true) a /\ not_starting p b.
Proof.
  induction s as [|c s IH]; cbn [span]; [split; [reflexivity|split; [constructor|intros x r E; discriminate E]]|]. destruct (p c) eqn:E.
  - destruct (span p s) as [a b]. destruct IH as (-> & H1 & H2). split; [reflexivity|]. split; [constructor; assumption|exact H2].
  - split; [reflexivity|]. split; [constructor|]. intros x r X. injection X as <- _. exact E.
Qed.
Lemma some1_spec p s a b : some1 p s = Some (a, b) -> s = a ++ b /\ a <> [] /\ Forall (fun c => p c = true) a /\ not_starting p b.
Proof.
  unfold some1. pose proof (span_spec p s) as H. destruct (span p s) as [x y]. destruct H as (-> & H1 & H2). destruct x as [|c x]; [discriminate|]. intros E. injection E as <- <-. repeat split; try assumption. discriminate.
Qed.
Lemma digit_ws c : is_digit c = true -> is_ws c = false.
Proof. destruct c as [[] [] [] [] [] [] [] []]; vm_compute; congruence. Qed.
Lemma tally_iff t l : tally_of l = Some t <-> Numbered t l.
Proof.
  unfold tally_of. split.
  - pose proof (span_spec is_ws l) as H. destruct (span is_ws l) as [a r]. destruct H as (-> & H1 & H2). cbn [snd]. destruct (some1 is_digit r) as [[d b]|] eqn:E; [|discriminate]. intros X. injection X as <-.
    apply some1_spec in E as (-> & Hn & Hd & Hb). exists a, d, b. repeat split; assumption.
  - intros (a & d & b & -> & Ha & [Hn Hd] & Hb & ->). rewrite (span_app is_ws a).
    + cbn [snd]. rewrite (some1_app is_digit d b Hn Hd Hb). reflexivity.
    + exact Ha.
    + intros c r E. destruct d as [|x d]; [congruence|]. injection E as <- _. inversion Hd; subst. apply digit_ws. assumption.
Qed.
Lemma not_numbered l : NotNumbered l -> tally_of l = None.
Proof. intros H. destruct (tally_of l) as [t|] eqn:E; [apply tally_iff in E; destruct (H t E)|reflexivity]. Qed.
Lemma says_iff v l : Says v l <-> verdict_of l = Some v.
Proof.
  unfold verdict_of, Says.
  destruct (has "missed" l) eqn:E1; [apply has_iff in E1|assert (N1 : ~ mentions "missed" l) by (intros X; apply has_iff in X; congruence)];
  (destruct (has "passed" l) eqn:E2; [apply has_iff in E2|assert (N2 : ~ mentions "passed" l) by (intros X; apply has_iff in X; congruence)]);
  (destruct (has "no nonzero" l) eqn:E3; [apply has_iff in E3|assert (N3 : ~ mentions "no nonzero" l) by (intros X; apply has_iff in X; congruence)]);
  destruct v; (split; [intros H; first [reflexivity | exfalso; tauto]|intros H; first [discriminate H | tauto]]).
Qed.
Lemma unclear_iff l : Unclear l <-> verdict_of l = None.
Proof.
  unfold Unclear, verdict_of. rewrite <- !has_iff. destruct (has "missed" l), (has "passed" l), (has "no nonzero" l); intuition congruence.
Qed.
Lemma title_yes l : mentions "result of statistical checks" l -> has "result of statistical checks" l = true. Proof. apply has_iff. Qed.
Lemma title_no l : no_title l -> has "result of statistical checks" l = false. Proof. apply has_not. Qed.
Definition fold_checks (es : list (Z * verdict)) (d : list (Z * verdict)) := fold_left (fun d kv => dset Z.eqb (fst kv) (snd kv) d) es d.
Lemma body_read es b : Body es b -> forall result d rest, exists result', checks result d (b ++ rest) = checks result' (fold_checks es d) rest
  /\ (es = [] -> result' = result) /\ (es <> [] -> exists v, result' = Some v /\ exists t, last es (0%Z, Missed) = (t, v)).
Proof.
  induction 1 as [|l es ls Ho HB IH|t v l es ls Hn Ht Hv HB IH]; intros result d rest.
  - exists result. split; [reflexivity|]. split; [auto|intros X; congruence].
  - destruct (IH result d rest) as (r' & E & H1 & H2). exists r'. split; [|auto]. rewrite <- E. cbn [app checks]. destruct (has "result of statistical checks" l) eqn:Et; [reflexivity|].
    destruct Ho as [Ho|[Ho He]]; [apply title_yes in Ho; congruence|]. rewrite (not_numbered _ Ho), has_not by exact He. reflexivity.
  - destruct (IH (Some v) (dset Z.eqb t v d) rest) as (r' & E & H1 & H2). exists r'. split.
    + cbn [app checks]. rewrite (title_no _ Hn). replace (tally_of l) with (Some t) by (symmetry; apply tally_iff; exact Ht). replace (verdict_of l) with (Some v) by (symmetry; apply says_iff; exact Hv).
      cbn [of_opt bind]. exact E.
    + split; [discriminate|]. intros _. destruct es as [|e es]; [exists v; split; [apply H1; reflexivity|exists t; reflexivity]|]. destruct (H2 ltac:(discriminate)) as (w & E1 & u & E2). exists w. split; [exact E1|]. exists u. exact E2.
Qed.
Lemma ending_read result d c : Ending c -> checks result d c = Ok d.
Proof.
  intros [->|(l & r & -> & Hn & Ht & He)]; [reflexivity|]. cbn [checks]. rewrite (title_no _ Hn), (not_numbered _ Ht). replace (has "the 10 statistical checks are only" l) with true by (symmetry; apply has_iff; exact He). reflexivity.
Qed.
Lemma find_title a t b : Forall no_title a -> mentions "result of statistical checks" t -> get_checks (a ++ t :: b) = checks None [] b.
Proof. intros Ha Ht. induction Ha as [|x a Hx Ha IH]; cbn [app get_checks]; [rewrite (title_yes _ Ht); reflexivity|]. rewrite (title_no _ Hx). exact IH. Qed.
Theorem summary_read es ls : SummaryText es ls -> get_checks ls = Ok (fold_checks es []).
Proof.
  intros (a & t & b & c & -> & Ha & Ht & HB & He). rewrite (find_title _ _ _ Ha Ht). destruct (body_read es b HB None [] c) as (r' & -> & _). apply ending_read. exact He.
Qed.
Theorem summary_none ls : Forall no_title ls -> get_checks ls = Ok [].
Proof. induction 1 as [|x a Hx Ha IH]; [reflexivity|]. cbn [get_checks]. rewrite (title_no _ Hx). exact IH. Qed.
(* a tally whose result is not understood *)
Theorem unclear_next a t b l c es k v : Forall no_title a -> mentions "result of statistical checks" t -> Body es b -> last es (0%Z, Missed) = (k, v) -> es <> [] ->
  no_title l -> forall n, Numbered n l -> Unclear l -> Ending c -> get_checks (a ++ t :: b ++ l :: c) = Ok (dset Z.eqb n v (fold_checks es [])).
Proof.
  intros Ha Ht HB HL Hne Hn n Hk Hu He. rewrite (find_title _ _ _ Ha Ht). destruct (body_read es b HB None [] (l :: c)) as (r' & -> & _ & H). destruct (H Hne) as (w & -> & u & E). rewrite HL in E. injection E as _ <-.
  cbn [checks]. rewrite (title_no _ Hn). replace (tally_of l) with (Some n) by (symmetry; apply tally_iff; exact Hk). replace (verdict_of l) with (@None verdict) by (symmetry; apply unclear_iff; exact Hu). cbn [of_opt bind]. apply ending_read. exact He.
Qed.
Theorem unclear_first a t b l c : Forall no_title a -> mentions "result of statistical checks" t -> Body [] b ->
  no_title l -> forall n, Numbered n l -> Unclear l -> get_checks (a ++ t :: b ++ l :: c) = Err UnboundLocalError.
Proof.
  intros Ha Ht HB Hn n Hk Hu. rewrite (find_title _ _ _ Ha Ht). destruct (body_read [] b HB None [] (l :: c)) as (r' & -> & H & _). rewrite (H eq_refl).
  cbn [checks]. rewrite (title_no _ Hn). replace (tally_of l) with (Some n) by (symmetry; apply tally_iff; exact Hk). replace (verdict_of l) with (@None verdict) by (symmetry; apply unclear_iff; exact Hu). reflexivity.
Qed.
Lemma fold_checks_get es k d : dget Z.eqb k (fold_checks es d) = match dget Z.eqb k (rev es) with Some v => Some v | None => dget Z.eqb k d end.
Proof.
  unfold fold_checks. revert k d. induction es as [|[a b] l IH]; intros k d; [reflexivity|]. cbn [fold_left rev fst snd]. rewrite IH.
  assert (G : forall (x y : list (Z * verdict)), dget Z.eqb k (x ++ y) = match dget Z.eqb k x with Some v => Some v | None => dget Z.eqb k y end).
  { induction x as [|[p q] x IHx]; intros y; [reflexivity|]. cbn [app dget]. destruct (Z.eqb k p); [reflexivity|apply IHx]. }
  rewrite G. destruct (dget Z.eqb k (rev l)); [reflexivity|]. cbn [dget]. destruct (Z.eqb_spec k a) as [->|N].
  - rewrite (dget_dset_same Z.eqb Z.eqb_eq). reflexivity.
  - rewrite (dget_dset_other Z.eqb Z.eqb_eq) by congruence. reflexivity.
Qed.
Lemma dget_last (l : list (Z * verdict)) k v : dget Z.eqb k l = Some v -> exists a b, l = a ++ (k, v) :: b /\ forall k' v', In (k', v') a -> k' <> k.
Proof.
  induction l as [|[p q] l IH]; cbn [dget]; [discriminate|]. destruct (Z.eqb_spec k p) as [->|N].
  - intros E. injection E as ->. exists [], l. split; [reflexivity|intros ? ? []].
  - intros E. destruct (IH E) as (a & b & -> & H). exists ((p, q) :: a), b. split; [reflexivity|]. intros k' v' [X|X]; [injection X as -> ->; congruence|eapply H; exact X].
Qed.
Lemma dget_first (a b : list (Z * verdict)) k v : (forall k' v', In (k', v') a -> k' <> k) -> dget Z.eqb k (a ++ (k, v) :: b) = Some v.
Proof.
  induction a as [|[p q] a IH]; intros H; cbn [app dget]; [rewrite Z.eqb_refl; reflexivity|]. destruct (Z.eqb_spec k p) as [->|N]; [exfalso; apply (H p q); [left; reflexivity|reflexivity]|]. apply IH. intros k' v' X. eapply H. right. exact X.
Qed.
Theorem summary_last es k v : dget Z.eqb k (fold_checks es []) = Some v <-> last_of (fun x => x = k) es v.
Proof.
  rewrite fold_checks_get. cbn [dget]. split.
  - intros H. destruct (dget Z.eqb k (rev es)) as [w|] eqn:E; [|discriminate H]. injection H as ->. destruct (dget_last _ _ _ E) as (a & b & E' & HN).
    apply (f_equal (@rev _)) in E'. rewrite rev_involutive, rev_app_distr in E'. cbn [rev] in E'. rewrite <- app_assoc in E'. exists (rev b), k, (rev a). split; [exact E'|]. split; [reflexivity|]. intros k' v' X. eapply HN. apply in_rev. exact X.
  - intros (a & k' & b & -> & -> & H). rewrite rev_app_distr. cbn [rev]. rewrite <- app_assoc. cbn [app]. rewrite dget_first; [reflexivity|]. intros k' v' X. apply in_rev in X. eapply H. exact X.
Qed.
Theorem summary_distinct es : NoDup (map fst es) -> fold_checks es [] = es.
Proof. intros H. apply (fold_dset_nodup es []). exact H. Qed.

(** ** the table of a tally *)
Lemma title_iff t l : title_of t l = true <-> TitleOf t l.
Proof.
  unfold title_of, TitleOf. destruct (strip_prefix (s2l "           results of 10 statistical ") l) as [r|] eqn:E.
  - apply strip_prefix_some in E. subst l. destruct (strip_prefix (rev (str_of_Z t ++ [nl])) (rev r)) as [q|] eqn:E2.
    + apply strip_prefix_some in E2. apply (f_equal (@rev _)) in E2. rewrite rev_involutive, rev_app_distr, rev_involutive in E2. split.
      * intros H. destruct q as [|c [|x q]]; try discriminate H. exists (rev (x :: q)), c. split; [|split; [intros X; apply (f_equal (@rev _)) in X; rewrite rev_involutive in X; discriminate X|exact H]].
        f_equal. rewrite E2. cbn [rev]. rewrite <- !app_assoc. reflexivity.
      * intros (x & c & H & Hx & Hc). apply app_inv_head in H. rewrite H in E2. 
        assert (G : x ++ [c] = rev q). { replace (x ++ c :: str_of_Z t ++ [nl]) with ((x ++ [c]) ++ str_of_Z t ++ [nl]) in E2 by (rewrite <- app_assoc; reflexivity). apply app_inv_tail in E2. exact E2. }
        apply (f_equal (@rev _)) in G. rewrite rev_involutive, rev_app_distr in G. cbn [rev app] in G. subst q. destruct (rev x) eqn:Ex; [apply (f_equal (@rev _)) in Ex; rewrite rev_involutive in Ex; cbn in Ex; congruence|exact Hc].
    + split; [discriminate|]. intros (x & c & H & Hx & Hc). apply app_inv_head in H. exfalso. assert (X : strip_prefix (rev (str_of_Z t ++ [nl])) (rev r) = Some (c :: rev x)).
      { apply strip_prefix_some. rewrite H. replace (x ++ c :: str_of_Z t ++ [nl]) with ((x ++ [c]) ++ str_of_Z t ++ [nl]) by (rewrite <- app_assoc; reflexivity). rewrite rev_app_distr. f_equal. rewrite rev_app_distr. reflexivity. }
      congruence.
  - split; [discriminate|]. intros (x & c & H & _). exfalso. assert (X : strip_prefix (s2l "           results of 10 statistical ") l = Some (x ++ c :: str_of_Z t ++ [nl])) by (apply strip_prefix_some; exact H). congruence.
Qed.
Definition checked (lines : list str) (a b c : str) : res (list srow) :=
  do df <- frame_of [split a; split b; split c]; do df <- realign (s2l "observed") df; realign (s2l "passed?") df.
Lemma find_table t lines : forall i l, nth_error lines i = Some l -> TitleOf t l -> (forall j x, j < i -> nth_error lines j = Some x -> ~ TitleOf t x) ->
  get_tally_stat_checks t lines = do a <- of_opt IndexError (nth_error lines (i + 5)); do b <- of_opt IndexError (nth_error lines (i + 6)); do c <- of_opt IndexError (nth_error lines (i + 7)); checked lines a b c.
Proof.
  unfold checked. induction lines as [|x r IH]; intros i l Hl Ht Hf; [destruct i; discriminate Hl|]. cbn [get_tally_stat_checks]. destruct i as [|i].
  - injection Hl as ->. replace (title_of t l) with true by (symmetry; apply title_iff; exact Ht). reflexivity.
  - destruct (title_of t x) eqn:E; [exfalso; apply title_iff in E; exact (Hf 0 x ltac:(lia) eq_refl E)|]. rewrite (IH i l Hl Ht); [reflexivity|]. intros j y Hj Hy. apply (Hf (S j) y); [lia|exact Hy].
Qed.
Theorem no_table t lines : (forall l, In l lines -> ~ TitleOf t l) -> get_tally_stat_checks t lines = Err ValueError.
Proof.
  induction lines as [|x r IH]; intros H; [reflexivity|]. cbn [get_tally_stat_checks]. destruct (title_of t x) eqn:E; [exfalso; apply title_iff in E; exact (H x (or_introl eq_refl) E)|]. apply IH. intros l Hl. apply H. right. exact Hl.
Qed.
Lemma seven7 (s : list str) : length s = 7 -> exists a b c d e f g, s = [a; b; c; d; e; f; g].
Proof. destruct s as [|a [|b [|c [|d [|e [|f [|g [|h s]]]]]]]]; intros H; try discriminate H. repeat eexists. Qed.
Theorem table_read t lines dw of_ o7 os pf p7 ps : TableAt t lines dw of_ o7 os pf p7 ps ->
  get_tally_stat_checks t lines = Ok [(Some (s2l "desired"), map Some dw); (Some (s2l "observed"), ten None of_ o7 os); (Some (s2l "passed?"), ten (Some (s2l "yes")) pf p7 ps)].
Proof.
  intros (i & a & b & c & (l & Hl & Ht) & Hf & Ea & (Ld & Sa) & Eb & (Lo & Sb) & Ec & (Lp & Sc)). rewrite (find_table t lines i l Hl Ht Hf), Ea, Eb, Ec. cbn [of_opt bind]. unfold checked. rewrite Sa, Sb, Sc.
  destruct (seven7 _ Lo) as (x1 & x2 & x3 & x4 & x5 & x6 & x7 & ->). destruct (seven7 _ Lp) as (y1 & y2 & y3 & y4 & y5 & y6 & y7 & ->).
  destruct dw as [|d1 [|d2 [|d3 [|d4 [|d5 [|d6 [|d7 [|d8 [|d9 [|d10 [|d11 dw]]]]]]]]]]]; try discriminate Ld.
  destruct of_ as [[f1 f2]|], pf as [[g1 g2]|]; reflexivity.
Qed.
