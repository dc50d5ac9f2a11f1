(** Proofs about activation paths. *)
From Coq Require Import Lia ZArith QArith Sorting.Sorted.
From Verif Require Import PyBase PyLemmas PyStr PyStrLemmas PyText D1SModel D1SProofs2 WWTextProofs LibModel MatModel MatProofs MatProofs2 DataModel PathsModel.
Open Scope nat_scope.

Lemma triple_eqb_eq a b : triple_eqb a b = true <-> a = b.
Proof. destruct a as [[a1 a2] a3], b as [[b1 b2] b3]. cbn [triple_eqb]. rewrite !andb_true_iff, !str_eqb_eq. split; [intros [[-> ->] ->]; reflexivity|intros E; injection E as -> -> ->; auto]. Qed.
Lemma memb_triple x l : memb triple_eqb x l = true <-> In x l.
Proof. induction l as [|y l IH]; cbn [memb In]; [split; [discriminate|intros []]|]. rewrite orb_true_iff, IH, triple_eqb_eq. split; intros [H|H]; auto. Qed.
Lemma insert_triple_in x y l : In y (insert_triple x l) <-> y = x \/ In y l.
Proof. induction l as [|z l IH]; cbn [insert_triple In]; [intuition|]. destruct (triple_leb x z); cbn [In]; [intuition|]. rewrite IH. intuition. Qed.
Lemma sorted_triples_in y l : In y (sorted_triples l) <-> In y l.
Proof. induction l as [|x l IH]; cbn [sorted_triples fold_right In]; [reflexivity|]. fold (sorted_triples l). rewrite insert_triple_in, IH. intuition. Qed.
Lemma dedup_triples_in x l : In x (dedup_triples l) <-> In x l.
Proof. induction l as [|y l IH]; cbn [dedup_triples In]; [reflexivity|]. destruct (memb triple_eqb y l) eqn:M; cbn [In]; rewrite IH; [|reflexivity]. apply memb_triple in M. split; [auto|]. intros [->|H]; auto. Qed.
Lemma dedup_triples_nodup l : NoDup (dedup_triples l).
Proof. induction l as [|y l IH]; cbn [dedup_triples]; [constructor|]. destruct (memb triple_eqb y l) eqn:M; [exact IH|]. constructor; [|exact IH]. rewrite dedup_triples_in, <- memb_triple. congruence. Qed.
Lemma insert_triple_nodup x l : ~ In x l -> NoDup l -> NoDup (insert_triple x l).
Proof. intros N D. induction D as [|y l Ny D IH]; cbn [insert_triple]; [repeat constructor; auto|]. destruct (triple_leb x y); [repeat constructor; auto|]. constructor; [|apply IH; intros Q; apply N; right; exact Q]. rewrite insert_triple_in. intros [->|Q]; [apply N; left; reflexivity|contradiction]. Qed.
Lemma sorted_triples_nodup l : NoDup l -> NoDup (sorted_triples l).
Proof. intros D. induction D as [|x l N D IH]; [constructor|]. cbn [sorted_triples fold_right]. fold (sorted_triples l). apply insert_triple_nodup; [now rewrite sorted_triples_in|exact IH]. Qed.
Lemma str_leb_refl a : str_leb a a = true.
Proof. induction a as [|c a IH]; [reflexivity|]. cbn [str_leb]. now rewrite Ascii.eqb_refl, IH, orb_true_r. Qed.
Lemma str_leb_antisym a : forall b, str_leb a b = true -> str_leb b a = true -> a = b.
Proof. induction a as [|x a IH]; intros [|y b]; cbn [str_leb]; try reflexivity; try discriminate. intros H1 H2. apply orb_true_iff in H1, H2.
  destruct H1 as [H1|H1], H2 as [H2|H2].
  - apply N.ltb_lt in H1, H2. lia.
  - apply andb_true_iff in H2 as [E _]. apply Ascii.eqb_eq in E. subst. apply N.ltb_lt in H1. lia.
  - apply andb_true_iff in H1 as [E _]. apply Ascii.eqb_eq in E. subst. apply N.ltb_lt in H2. lia.
  - apply andb_true_iff in H1 as [E H1], H2 as [_ H2]. apply Ascii.eqb_eq in E. subst. f_equal. now apply IH. Qed.
Lemma str_eqb_false a b : str_eqb a b = false <-> a <> b.
Proof. rewrite <- not_true_iff_false, str_eqb_eq. reflexivity. Qed.
Lemma triple_leb_total a b : triple_leb a b = false -> triple_leb b a = true.
Proof. destruct a as [[a1 a2] a3], b as [[b1 b2] b3]. cbn [triple_leb]. destruct (str_eqb a1 b1) eqn:E1.
  - apply str_eqb_eq in E1. subst. rewrite str_eqb_refl. destruct (str_eqb a2 b2) eqn:E2.
    + apply str_eqb_eq in E2. subst. rewrite str_eqb_refl. apply str_leb_total.
    + replace (str_eqb b2 a2) with false; [apply str_leb_total|]. symmetry. apply str_eqb_false. apply str_eqb_false in E2. congruence.
  - replace (str_eqb b1 a1) with false; [apply str_leb_total|]. symmetry. apply str_eqb_false. apply str_eqb_false in E1. congruence. Qed.
Lemma triple_leb_trans a b c : triple_leb a b = true -> triple_leb b c = true -> triple_leb a c = true.
Proof. destruct a as [[a1 a2] a3], b as [[b1 b2] b3], c as [[c1 c2] c3]. cbn [triple_leb].
  assert (L : forall (x y z : str) (p q r : bool), (p = true -> q = true -> r = true) -> (if str_eqb x y then p else str_leb x y) = true -> (if str_eqb y z then q else str_leb y z) = true -> (if str_eqb x z then r else str_leb x z) = true).
  { intros x y z p q r K. destruct (str_eqb x y) eqn:E1.
    - apply str_eqb_eq in E1. subst y. destruct (str_eqb x z); [exact K|auto].
    - destruct (str_eqb y z) eqn:E2.
      + apply str_eqb_eq in E2. subst z. rewrite E1. auto.
      + destruct (str_eqb x z) eqn:E3; [|apply str_leb_trans]. apply str_eqb_eq in E3. subst z. intros A B. pose proof (str_leb_antisym _ _ A B). subst y. rewrite str_eqb_refl in E1. discriminate. }
  apply L. apply L. apply str_leb_trans. Qed.
Lemma insert_triple_ss x l : StronglySorted (fun a b => triple_leb a b = true) l -> StronglySorted (fun a b => triple_leb a b = true) (insert_triple x l).
Proof. intros S. induction S as [|y l S IH F]; cbn [insert_triple]; [repeat constructor|]. destruct (triple_leb x y) eqn:E.
  - constructor; [now constructor|]. constructor; [exact E|]. revert F. apply Forall_impl. intros a. now apply triple_leb_trans.
  - constructor; [exact IH|]. apply Forall_forall. intros z Q. apply insert_triple_in in Q as [->|Q]; [now apply triple_leb_total|]. rewrite Forall_forall in F. now apply F. Qed.
Lemma sorted_triples_ss l : StronglySorted (fun a b => triple_leb a b = true) (sorted_triples l).
Proof. induction l as [|x l IH]; [constructor|]. cbn [sorted_triples fold_right]. now apply insert_triple_ss. Qed.

(** MT numbers are printed integers *)
Lemma reac_loop_mt t l : forall acc r, reac_loop t acc l = Ok r -> (forall m d, In (m, d) acc -> exists z, m = str_of_Z z) -> forall m d, In (m, d) r -> exists z, m = str_of_Z z.
Proof. induction l as [|x l IH]; intros acc r H A; cbn [reac_loop] in H; [injection H as <-; exact A|]. destruct (daughter_num t (LibModel.a_daughter x)) as [d0|[]]; try discriminate.
  - eapply IH; [exact H|]. intros m d I. apply in_app_or in I as [I|[I|[]]]; [eapply A; exact I|]. injection I as <- _. eauto.
  - injection H as <-. exact A. Qed.
Lemma get_reactions_mt t sh lib p r : get_reactions t sh lib p = Ok r -> forall m d, In (m, d) r -> exists z, m = str_of_Z z.
Proof. unfold get_reactions. destruct (dget str_eqb lib sh) as [df|]; [|intros H; injection H as <-; intros ? ? []]. destruct (get_zaidname t p) as [[n f]|[]]; try discriminate.
  - intros H. eapply reac_loop_mt; [exact H|]. intros ? ? [].
  - intros H; injection H as <-; intros ? ? []. Qed.

Definition key_of (r : reac) : triple := (before_dot (x_parent r), x_mt r, x_daughter r).
Lemma path_reaction_ok D lib p m d r : path_reaction D lib (p, m, d) = Ok r -> (exists z, m = str_of_Z z) ->
  exists c, path_comment D (p ++ dot :: lib) d = Ok c /\ r = D1SModel.mkreac (p ++ dot :: lib) m d (Some c).
Proof. unfold path_reaction. intros H [z ->]. destruct (path_comment D (p ++ dot :: lib) d) as [c|]; cbn [bind] in H; [|discriminate]. unfold mk_reaction in H. rewrite parse_str_of_Z in H. cbn [bind] in H. injection H as <-. exists c. auto. Qed.
Lemma zaids_in ms z : In z (zaids_of ms) <-> exists m s, In m ms /\ In s (mt_subs m) /\ In z (s_zaids s).
Proof. unfold zaids_of, all_zaids. rewrite in_concat. split.
  - intros [l [A B]]. apply in_map_iff in A as [m [<- A]]. apply in_concat in B as [l2 [C D]]. apply in_map_iff in C as [s [<- C]]. exists m, s. auto.
  - intros [m [s [A [B C]]]]. exists (concat (map s_zaids (mt_subs m))). split; [apply in_map_iff; exists m; auto|]. apply in_concat. exists (s_zaids s). split; [now apply in_map|exact C]. Qed.
Lemma StronglySorted_filter {A} (R : A -> A -> Prop) p l : StronglySorted R l -> StronglySorted R (filter p l).
Proof. intros S. induction S as [|x l S IH F]; cbn [filter]; [constructor|]. destruct (p x); [|exact IH]. constructor; [exact IH|]. apply Forall_forall. intros y Q. apply filter_In in Q as [Q _]. rewrite Forall_forall in F. now apply F. Qed.

