(** Proofs about the library of pathways (C42) *)
From Coq Require Import Lia ZArith NArith Nnat QArith Permutation Sorted.
From Verif Require Import PyBase PyLemmas PyStr PyStrLemmas D1SModel D1SProofs2 LibModel LibProofs2 MatProofs PathLibModel PathLibSpec.
Open Scope nat_scope.

Lemma list_eqb_F2 {A} (eqb : A -> A -> bool) (P : A -> A -> Prop) : (forall x y, eqb x y = true <-> P x y) ->
  forall a b, list_eqb eqb a b = true <-> Forall2 P a b.
Proof.
  intros H. induction a as [|x a IH]; intros [|y b]; cbn [list_eqb]; split; intros E; try discriminate; try solve [constructor]; try solve [inversion E].
  - apply andb_true_iff in E. destruct E as [E1 E2]. constructor; [apply H; exact E1|apply IH; exact E2].
  - inversion E; subst. apply andb_true_iff. split; [apply H; assumption|apply IH; assumption].
Qed.
Lemma F2_eq {A} (a b : list A) : Forall2 eq a b <-> a = b.
Proof. split; [induction 1; congruence|intros ->; induction b; constructor; auto]. Qed.

Lemma mat_eqb_iff a b : mat_eqb a b = true <-> mc_name a = mc_name b /\ Forall2 Qeq (mc_perc a) (mc_perc b) /\ mc_elem a = mc_elem b.
Proof.
  unfold mat_eqb. rewrite !andb_true_iff, str_eqb_eq, (list_eqb_F2 Qeq_bool Qeq Qeq_bool_iff), (list_eqb_F2 str_eqb eq str_eqb_eq), F2_eq. tauto.
Qed.

Lemma memb_iff {A} (eqb : A -> A -> bool) x l : memb eqb x l = true <-> exists y, In y l /\ eqb x y = true.
Proof.
  induction l as [|y l IH]; cbn [memb]; [split; [discriminate|intros (y & [] & _)]|]. rewrite orb_true_iff, IH. split.
  - intros [E|(z & Hz & E)]; [exists y|exists z]; cbn; auto.
  - intros (z & [->|Hz] & E); eauto.
Qed.

Lemma checked_ok {A} (eqb : A -> A -> bool) avail (l : option (list A)) :
  (forall xs x, l = Some xs -> In x xs -> exists y, In y avail /\ eqb x y = true) -> checked eqb avail l = Ok (match l with Some xs => xs | None => avail end).
Proof.
  destruct l as [xs|]; [|reflexivity]. intros H. cbn [checked]. 
  assert (forallb (fun x => memb eqb x avail) xs = true) as ->; [|reflexivity].
  apply forallb_forall. intros x Hx. apply memb_iff. eauto.
Qed.
Lemma checked_bad {A} (eqb : A -> A -> bool) avail (l : option (list A)) :
  (exists xs x, l = Some xs /\ In x xs /\ forall y, In y avail -> eqb x y = false) -> checked eqb avail l = Err ValueError.
Proof.
  intros (xs & x & -> & Hx & Hn). cbn [checked].
  destruct (forallb (fun x => memb eqb x avail) xs) eqn:E; [|reflexivity].
  rewrite forallb_forall in E. apply E, memb_iff in Hx. destruct Hx as (y & Hy & E2). rewrite Hn in E2 by exact Hy. discriminate.
Qed.
Lemma checked_cases {A} (eqb : A -> A -> bool) avail (l : option (list A)) : (exists x, checked eqb avail l = Ok x) \/ checked eqb avail l = Err ValueError.
Proof. destruct l; cbn; [|eauto]. destruct (forallb _ _); eauto. Qed.
Lemma checked_inv {A} (eqb : A -> A -> bool) avail (l : option (list A)) r : checked eqb avail l = Ok r ->
  r = match l with Some xs => xs | None => avail end /\ forall xs x, l = Some xs -> In x xs -> exists y, In y avail /\ eqb x y = true.
Proof.
  destruct l as [xs|]; cbn [checked].
  - destruct (forallb _ _) eqn:E; [|discriminate]. intros H. injection H as <-. split; [reflexivity|]. intros ys x Hy Hx. injection Hy as <-.
    rewrite forallb_forall in E. apply memb_iff. auto.
  - intros H. injection H as <-. split; [reflexivity|discriminate].
Qed.
Lemma dose_cases d : (d = 95%Z /\ dose_label d = Ok (s2l "Dose 95%")) \/ (d = 99%Z /\ dose_label d = Ok (s2l "Dose 99%"))
  \/ (d <> 95%Z /\ d <> 99%Z /\ dose_label d = Err ValueError).
Proof. unfold dose_label. destruct (Z.eqb_spec d 95); [auto|]. destruct (Z.eqb_spec d 99); auto. Qed.

Section Lib.
  Context (avail : list matcomp) (iso : list isorow).

  (** *** validation *)
  Lemma mat_sym m y : mc_name y = mc_name m /\ Forall2 Qeq (mc_perc y) (mc_perc m) /\ mc_elem y = mc_elem m -> mat_eqb m y = true.
  Proof.
    intros (A & B & C). apply mat_eqb_iff. repeat split; auto. clear - B. induction B; constructor; auto. now apply Qeq_sym.
  Qed.
  Lemma mat_sym2 m y : mat_eqb m y = true -> mc_name y = mc_name m /\ Forall2 Qeq (mc_perc y) (mc_perc m) /\ mc_elem y = mc_elem m.
  Proof.
    intros H. apply mat_eqb_iff in H. destruct H as (A & B & C). repeat split; auto. clear - B. induction B; constructor; auto. now apply Qeq_sym.
  Qed.

  Definition times q : list str := match q_times q with Some l => l | None => available_times end.
  Definition spectra q : list str := match q_spectrum q with Some l => l | None => available_spectra end.
  Definition mats q : list matcomp := match q_materials q with Some l => l | None => avail end.
  Definition label q : str := if Z.eqb (q_dose q) 95 then s2l "Dose 95%" else s2l "Dose 99%".
  Definition keep q (r : prow) : bool :=
    str_eqb (p_dose r) (label q) && memb str_eqb (p_spectrum r) (spectra q) && memb str_eqb (p_material r) (map mc_name (mats q)).
  Definition answer lib q : list (prow * list (option Q)) :=
    filter (fun x => negb (forallb isnone (snd x))) (map (fun r => (r, at_times (times q) r)) (filter (keep q) lib)).

  Lemma legal_ok lib q : Legal avail q -> filter_pathways avail lib q = Ok (answer lib q).
  Proof.
    intros (H1 & H2 & H3 & H4). unfold filter_pathways.
    rewrite checked_ok by (intros xs x E Hx; exists x; split; [eapply H1; eauto|apply str_eqb_refl]). cbn [bind].
    assert (dose_label (q_dose q) = Ok (label q)) as ->.
    { unfold label, dose_label. destruct (Z.eqb_spec (q_dose q) 95); [reflexivity|]. destruct (Z.eqb_spec (q_dose q) 99); [reflexivity|lia]. }
    cbn [bind].
    rewrite checked_ok by (intros xs x E Hx; destruct (H3 xs x E Hx) as (a & Ha & Hb); exists a; split; [exact Ha|apply mat_sym; exact Hb]). cbn [bind].
    rewrite checked_ok by (intros xs x E Hx; exists x; split; [eapply H4; eauto|apply str_eqb_refl]). cbn [bind]. reflexivity.
  Qed.

  Lemma ok_legal lib q r : filter_pathways avail lib q = Ok r -> Legal avail q.
  Proof.
    unfold filter_pathways. intros H.
    destruct (checked str_eqb available_spectra (q_spectrum q)) as [sp|] eqn:E1; [|discriminate H]. cbn [bind] in H.
    destruct (dose_label (q_dose q)) as [lab|] eqn:E2; [|discriminate H]. cbn [bind] in H.
    destruct (checked mat_eqb avail (q_materials q)) as [ms|] eqn:E3; [|discriminate H]. cbn [bind] in H.
    destruct (checked str_eqb available_times (q_times q)) as [ts|] eqn:E4; [|discriminate H].
    apply checked_inv in E1, E3, E4. destruct E1 as [_ E1], E3 as [_ E3], E4 as [_ E4].
    split; [|split; [|split]].
    - intros l s Hl Hs. destruct (E1 l s Hl Hs) as (y & Hy & E). apply str_eqb_eq in E. subst. exact Hy.
    - destruct (dose_cases (q_dose q)) as [[A _]|[[A _]|(_ & _ & A)]]; [tauto..|congruence].
    - intros l m Hl Hm. destruct (E3 l m Hl Hm) as (y & Hy & E). exists y. split; [exact Hy|]. apply mat_sym2. exact E.
    - intros l s Hl Hs. destruct (E4 l s Hl Hs) as (y & Hy & E). apply str_eqb_eq in E. subst. exact Hy.
  Qed.
  Lemma filter_cases lib q : (exists r, filter_pathways avail lib q = Ok r) \/ filter_pathways avail lib q = Err ValueError.
  Proof.
    unfold filter_pathways.
    destruct (checked_cases str_eqb available_spectra (q_spectrum q)) as [(sp & ->)| ->]; cbn [bind]; [|auto].
    destruct (dose_cases (q_dose q)) as [[_ E]|[[_ E]|(_ & _ & E)]]; rewrite E; cbn [bind]; [| |auto].
    all: destruct (checked_cases mat_eqb avail (q_materials q)) as [(ms & ->)| ->]; cbn [bind]; [|auto].
    all: destruct (checked_cases str_eqb available_times (q_times q)) as [(ts & ->)| ->]; cbn [bind]; eauto.
  Qed.

  (** *** the rows *)
  Lemma index_nth x l k : index_of str_eqb x l = Some k -> nth_error l k = Some x.
  Proof.
    revert k. induction l as [|y l IH]; intros k; cbn [index_of]; [discriminate|]. destruct (str_eqb x y) eqn:E.
    - intros H. injection H as <-. apply str_eqb_eq in E. subst. reflexivity.
    - destruct (index_of str_eqb x l); cbn; [|discriminate]. intros H. injection H as <-. cbn. auto.
  Qed.
  Lemma index_in x l : In x l -> exists k, index_of str_eqb x l = Some k.
  Proof.
    induction l as [|y l IH]; [intros []|]. cbn [index_of]. destruct (str_eqb x y) eqn:E; [eauto|].
    intros [->|H]; [rewrite str_eqb_refl in E; discriminate|]. destruct (IH H) as (k & ->). cbn. eauto.
  Qed.
  Lemma times_nodup : NoDup available_times.
  Proof. repeat constructor; cbn; intuition discriminate. Qed.
  Lemma value_col r t v : value_at r t v <-> In t available_times /\ match index_of str_eqb t available_times with Some k => nth k (p_vals r) None | None => None end = v.
  Proof.
    split.
    - intros (k & Hk & Hv). assert (Hin := nth_error_In _ _ Hk). split; [exact Hin|].
      destruct (index_in _ _ Hin) as (k' & E). rewrite E. apply index_nth in E.
      assert (k = k'). { apply (proj1 (NoDup_nth_error available_times) times_nodup); [apply nth_error_Some; congruence|congruence]. }
      subst k'. exact Hv.
    - intros [Hin Hv]. destruct (index_in _ _ Hin) as (k & E). rewrite E in Hv. exists k. split; [apply index_nth; exact E|exact Hv].
  Qed.

  Lemma times_legal q : Legal avail q -> incl (times q) available_times.
  Proof. intros (_ & _ & _ & H) t Ht. unfold times in Ht. destruct (q_times q); eauto. Qed.

  Definition wantb q (r : prow) : bool := keep q r && negb (forallb isnone (at_times (times q) r)).
  Lemma wantb_iff q r : Legal avail q -> wantb q r = true <-> Wanted avail q r.
  Proof.
    intros HL. unfold wantb, keep, Wanted. rewrite !andb_true_iff, negb_true_iff, str_eqb_eq.
    rewrite !memb_str. rewrite in_map_iff. fold (label q). fold (spectra q). fold (mats q). change (times_of q) with (times q).
    assert (E : forallb isnone (at_times (times q) r) = false <-> exists t x, In t (times q) /\ value_at r t (Some x)).
    { split.
      - intros H. unfold at_times in H.
        assert (G : forall l, incl l available_times -> forallb isnone (map (fun t => match index_of str_eqb t available_times with Some k => nth k (p_vals r) None | None => None end) l) = false ->
                    exists t x, In t l /\ value_at r t (Some x)).
        { induction l as [|t l IH]; cbn [map forallb]; [discriminate|]. intros Hi Hf.
          destruct (match index_of str_eqb t available_times with Some k => nth k (p_vals r) None | None => None end) as [x|] eqn:Ev.
          - exists t, x. split; [left; reflexivity|]. apply value_col. split; [apply Hi; left; reflexivity|exact Ev].
          - cbn in Hf. destruct (IH (fun z Hz => Hi z (or_intror Hz)) Hf) as (t' & x & Ht & Hx). exists t', x. split; [right; exact Ht|exact Hx]. }
        apply (G _ (times_legal q HL) H).
      - intros (t & x & Ht & Hv). apply value_col in Hv. destruct Hv as [_ Hv].
        destruct (forallb isnone (at_times (times q) r)) eqn:F; [|reflexivity]. rewrite forallb_forall in F.
        assert (Hin : In (Some x) (at_times (times q) r)). { unfold at_times. apply in_map_iff. exists t. split; [exact Hv|exact Ht]. }
        apply F in Hin. discriminate Hin. }
    rewrite E. split.
    - intros (((A & B) & m & Cn & Ci) & D). repeat split; auto. exists m. auto.
    - intros (A & B & (m & Ci & Cn) & D). repeat split; auto. exists m. auto.
  Qed.

  Lemma answer_filter lib q : answer lib q = map (fun r => (r, at_times (times q) r)) (filter (wantb q) lib).
  Proof.
    unfold answer, wantb. induction lib as [|r lib IH]; [reflexivity|]. cbn [filter]. destruct (keep q r); cbn [map filter snd andb]; [|exact IH].
    destruct (negb (forallb isnone (at_times (times q) r))); cbn [map filter]; rewrite IH; reflexivity.
  Qed.
  Lemma filter_split {A} (f : A -> bool) l : Permutation l (filter f l ++ filter (fun x => negb (f x)) l).
  Proof.
    induction l as [|x l IH]; [constructor|]. cbn [filter]. destruct (f x); cbn [negb].
    - cbn [app]. constructor. exact IH.
    - apply Permutation_cons_app. exact IH.
  Qed.
  Lemma keeps lib q : Legal avail q -> Keeps (Wanted avail q) lib (filter (wantb q) lib).
  Proof.
    intros HL. exists (filter (fun r => negb (wantb q r)) lib). split; [apply filter_split|]. split; apply Forall_forall; intros r Hr; apply filter_In in Hr; destruct Hr as [_ Hr].
    - apply wantb_iff; assumption.
    - intros W. apply wantb_iff in W; [|assumption]. rewrite W in Hr. discriminate.
  Qed.

  (** *** groups *)
  Lemma pkey_eqb_eq a b : pkey_eqb a b = true <-> a = b.
  Proof.
    destruct a as [[a1 a2] a3], b as [[b1 b2] b3]. unfold pkey_eqb. cbn [fst snd]. rewrite !andb_true_iff, !str_eqb_eq. split; [intros [[-> ->] ->]; reflexivity|].
    intros H. injection H as -> -> ->. auto.
  Qed.

  (* the values of one column in one group *)
  Definition col (rows : list (prow * list (option Q))) (k : pkey) (c : nat) : list (option Q) :=
    map (fun x => nth c (snd x) None) (filter (fun x => pkey_eqb k (key_of (fst x))) rows).

  Lemma largest_nil : Largest [] None.
  Proof. intros x []. Qed.
  Lemma largest_app l1 l2 a b : Largest l1 a -> Largest l2 b -> Largest (l1 ++ l2) (omax a b).
  Proof.
    destruct a as [x|], b as [y|]; cbn [omax Largest].
    - intros [H1 H2] [H3 H4]. destruct (Qle_bool x y) eqn:E.
      + apply Qle_bool_iff in E. split; [apply in_or_app; auto|]. intros z Hz. apply in_app_or in Hz. destruct Hz as [Hz|Hz]; [eapply Qle_trans; [apply H2; exact Hz|exact E]|auto].
      + assert (Hyx : (y <= x)%Q). { apply Qlt_le_weak, Qnot_le_lt. intros C. apply Qle_bool_iff in C. congruence. }
        split; [apply in_or_app; auto|]. intros z Hz. apply in_app_or in Hz. destruct Hz as [Hz|Hz]; [auto|eapply Qle_trans; [apply H4; exact Hz|exact Hyx]].
    - intros [H1 H2] H3. split; [apply in_or_app; auto|]. intros z Hz. apply in_app_or in Hz. destruct Hz as [Hz|Hz]; [auto|]. apply H3 in Hz. discriminate Hz.
    - intros H3 [H1 H2]. split; [apply in_or_app; auto|]. intros z Hz. apply in_app_or in Hz. destruct Hz as [Hz|Hz]; [apply H3 in Hz; discriminate Hz|auto].
    - intros H1 H2 z Hz. apply in_app_or in Hz. destruct Hz; auto.
  Qed.
  Lemma largest_one v : Largest [v] v.
  Proof. destruct v as [x|]; cbn; [|intros ? [<-|[]]; reflexivity]. split; [auto|]. intros y [E|[]]. injection E as ->. apply Qle_refl. Qed.

  (* the groups of the rows seen so far *)
  Definition groups_ok n (rows : list (prow * list (option Q))) (g : list (pkey * list (option Q))) : Prop :=
    NoDup (map fst g) /\ (forall k, In k (map fst g) <-> exists x, In x rows /\ key_of (fst x) = k)
    /\ (forall k v, In (k, v) g -> length v = n /\ forall c, c < n -> Largest (col rows k c) (nth c v None)).

  Lemma add_group_keys k v g k' : In k' (map fst (add_group k v g)) <-> k' = k \/ In k' (map fst g).
  Proof.
    induction g as [|(k0, v0) g IH]; cbn [add_group map fst In]; [intuition|]. destruct (pkey_eqb k k0) eqn:E; cbn [map fst In].
    - apply pkey_eqb_eq in E. subst. intuition.
    - rewrite IH. intuition.
  Qed.
  Lemma add_group_nodup k v g : NoDup (map fst g) -> NoDup (map fst (add_group k v g)).
  Proof.
    induction g as [|(k0, v0) g IH]; cbn [add_group map fst]; intros H; [constructor; [intros []|constructor]|]. inversion H; subst.
    destruct (pkey_eqb k k0) eqn:E; cbn [map fst]; [constructor; assumption|]. constructor; [|auto].
    rewrite add_group_keys. intros [->|Hin]; [|contradiction]. rewrite (proj2 (pkey_eqb_eq k k) eq_refl) in E. discriminate.
  Qed.
  Lemma nth_combine_max v v' n c : length v = n -> length v' = n -> c < n ->
    nth c (map (fun p => omax (fst p) (snd p)) (combine v v')) None = omax (nth c v None) (nth c v' None).
  Proof.
    revert v' n c. induction v as [|x v IH]; intros [|y v'] n c H1 H2 Hc; cbn in H1, H2; subst n; try lia; try discriminate H2.
    destruct c; [reflexivity|]. cbn [combine map nth]. cbn in Hc. apply IH with (n := length v); lia.
  Qed.
  Lemma col_snoc rows x k c : col (rows ++ [x]) k c = col rows k c ++ (if pkey_eqb k (key_of (fst x)) then [nth c (snd x) None] else []).
  Proof. unfold col. rewrite filter_app, map_app. cbn [filter]. destruct (pkey_eqb k (key_of (fst x))); reflexivity. Qed.
  Lemma add_group_in k v g k' v' : NoDup (map fst g) -> In (k', v') (add_group k v g) ->
    (k' <> k /\ In (k', v') g) \/ (k' = k /\ ~ In k (map fst g) /\ v' = v)
    \/ (k' = k /\ exists v0, In (k, v0) g /\ v' = map (fun p => omax (fst p) (snd p)) (combine v0 v)).
  Proof.
    induction g as [|(k0, v0) g IH]; cbn [add_group map fst]; intros N H.
    - destruct H as [H|[]]. injection H as <- <-. right; left. repeat split. intros [].
    - inversion N; subst. destruct (pkey_eqb k k0) eqn:E.
      + apply pkey_eqb_eq in E. subst k0. destruct H as [H|H].
        * injection H as <- <-. right; right. split; [reflexivity|]. exists v0. split; [left; reflexivity|reflexivity].
        * left. split; [|right; exact H]. intros ->. apply (in_map fst) in H. contradiction.
      + assert (Nk : k <> k0). { intros ->. rewrite (proj2 (pkey_eqb_eq k0 k0) eq_refl) in E. discriminate. }
        destruct H as [H|H].
        * injection H as <- <-. left. split; [congruence|left; reflexivity].
        * destruct (IH H3 H) as [[A B]|[(A & B & C)|(A & v1 & B & C)]].
          -- left. split; [exact A|right; exact B].
          -- right; left. repeat split; auto. intros [D|D]; [congruence|contradiction].
          -- right; right. split; [exact A|]. exists v1. split; [right; exact B|exact C].
  Qed.

  Lemma col_none rows k c : (forall x, In x rows -> key_of (fst x) <> k) -> col rows k c = [].
  Proof.
    intros H. unfold col. replace (filter (fun x => pkey_eqb k (key_of (fst x))) rows) with (@nil (prow * list (option Q))); [reflexivity|].
    symmetry. induction rows as [|x rows IH]; [reflexivity|]. cbn [filter]. destruct (pkey_eqb k (key_of (fst x))) eqn:E.
    - apply pkey_eqb_eq in E. exfalso. apply (H x); [left; reflexivity|congruence].
    - apply IH. intros y Hy. apply H. right. exact Hy.
  Qed.

  Lemma group_step n rows g x : groups_ok n rows g -> length (snd x) = n -> groups_ok n (rows ++ [x]) (add_group (key_of (fst x)) (snd x) g).
  Proof.
    intros (N & K & V) Hn. split; [apply add_group_nodup; exact N|]. split.
    - intros k. rewrite add_group_keys, K. split.
      + intros [->|(y & Hy & E)]; [exists x|exists y]; (split; [apply in_or_app; cbn; auto|auto]).
      + intros (y & Hy & E). apply in_app_or in Hy. destruct Hy as [Hy|[<-|[]]]; [right; eauto|left; congruence].
    - intros k v Hin. apply add_group_in in Hin; [|exact N]. destruct Hin as [[A B]|[(-> & B & ->)|(-> & v0 & B & ->)]].
      + destruct (V k v B) as [Hl Hc]. split; [exact Hl|]. intros c Hlt. rewrite col_snoc.
        destruct (pkey_eqb k (key_of (fst x))) eqn:E; [apply pkey_eqb_eq in E; contradiction|]. rewrite app_nil_r. auto.
      + split; [exact Hn|]. intros c Hlt. rewrite col_snoc, (proj2 (pkey_eqb_eq _ _) eq_refl).
        rewrite col_none; [apply largest_one|]. intros y Hy E. apply B. apply K. eauto.
      + destruct (V _ _ B) as [Hl Hc]. split; [rewrite map_length, combine_length; lia|]. intros c Hlt.
        rewrite (nth_combine_max v0 (snd x) n c) by assumption. rewrite col_snoc, (proj2 (pkey_eqb_eq _ _) eq_refl).
        apply largest_app; [auto|apply largest_one].
  Qed.
  Lemma group_max_ok n rows : Forall (fun x => length (snd x) = n) rows -> groups_ok n rows (group_max rows).
  Proof.
    unfold group_max. intros H.
    assert (G : forall todo done g, Forall (fun x : prow * list (option Q) => length (snd x) = n) todo -> groups_ok n done g ->
      groups_ok n (done ++ todo) (fold_left (fun g x => add_group (key_of (fst x)) (snd x) g) todo g)).
    { induction todo as [|x todo IH]; intros don g Hf Hg; [rewrite app_nil_r; exact Hg|]. cbn [fold_left].
      inversion Hf; subst. replace (don ++ x :: todo) with ((don ++ [x]) ++ todo) by (rewrite <- app_assoc; reflexivity).
      apply IH; [assumption|]. apply group_step; auto. }
    apply (G rows [] [] H). split; [constructor|]. split; [|intros k v []].
    intros k. split; [intros []|intros (x & [] & _)].
  Qed.

  (** *** the order *)
  Lemma insert_by_perm x l : Permutation (insert_by x l) (x :: l).
  Proof.
    induction l as [|y l IH]; cbn [insert_by]; [apply Permutation_refl|]. destruct (str_leb (fst x) (fst y)); [apply Permutation_refl|].
    rewrite IH. apply perm_swap.
  Qed.
  Lemma sort_by_perm l : Permutation (sort_by l) l.
  Proof. induction l as [|x l IH]; [constructor|]. cbn [sort_by fold_right]. rewrite insert_by_perm. constructor. exact IH. Qed.
  Lemma insert_by_fst x l : map fst (insert_by x l) = insert_sorted (fst x) (map fst l).
  Proof. induction l as [|y l IH]; [reflexivity|]. cbn [insert_by map insert_sorted]. destruct (str_leb (fst x) (fst y)); cbn [map]; [reflexivity|]. rewrite IH. reflexivity. Qed.
  Lemma sort_by_sorted l : StronglySorted (fun a b => str_leb a b = true) (map fst (sort_by l)).
  Proof.
    induction l as [|x l IH]; [constructor|]. cbn [sort_by fold_right]. fold (sort_by l). rewrite insert_by_fst. apply insert_sorted_ss. exact IH.
  Qed.
End Lib.

(** texts of digits of the same length compare like their numbers *)
Lemma num_of_acc l a : fold_left (fun acc c => (acc * 10 + dig_val c)%N) l a = (a * 10 ^ N.of_nat (length l) + num_of l)%N.
Proof.
  unfold num_of. revert a. induction l as [|c l IH]; intros a; [cbn; lia|]. cbn [fold_left length]. rewrite IH, (IH (0 * 10 + dig_val c)%N).
  rewrite Nat2N.inj_succ, N.pow_succ_r'. lia.
Qed.
Lemma num_of_cons c l : num_of (c :: l) = (dig_val c * 10 ^ N.of_nat (length l) + num_of l)%N.
Proof. unfold num_of at 1. cbn [fold_left]. rewrite num_of_acc. lia. Qed.
Lemma num_of_lt l : digits l -> (num_of l < 10 ^ N.of_nat (length l))%N.
Proof.
  induction 1 as [|c l Hc _ IH]; [cbn; lia|]. rewrite num_of_cons. cbn [length]. rewrite Nat2N.inj_succ, N.pow_succ_r'.
  assert (dig_val c <= 9)%N. { unfold is_digit in Hc. unfold dig_val. apply andb_true_iff in Hc. destruct Hc as [H1 H2]. apply N.leb_le in H1, H2. lia. }
  nia.
Qed.
Lemma str_leb_num a : forall b, digits a -> digits b -> length a = length b -> str_leb a b = true -> (num_of a <= num_of b)%N.
Proof.
  induction a as [|x a IH]; intros [|y b] Ha Hb Hl H; try discriminate Hl; [cbn; lia|].
  inversion Ha as [|? ? Hx Ha2]; subst. inversion Hb as [|? ? Hy Hb2]; subst. injection Hl as Hl. rewrite !num_of_cons, Hl.
  pose proof (num_of_lt a Ha2) as La. rewrite Hl in La.
  cbn [str_leb] in H. apply orb_true_iff in H. destruct H as [H|H].
  - apply N.ltb_lt in H. assert (dig_val x < dig_val y)%N. { unfold is_digit in Hx, Hy. unfold dig_val. apply andb_true_iff in Hx, Hy. rewrite !N.leb_le in *. lia. } nia.
  - apply andb_true_iff in H. destruct H as [E H]. apply Ascii.eqb_eq in E. subst y. specialize (IH b Ha2 Hb2 Hl H). lia.
Qed.
