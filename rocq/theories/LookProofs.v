From Coq Require Import Lia ZArith QArith Qabs Permutation Sorted.
From Verif Require Import PyBase PyLemmas PyStr PyStrLemmas PyFmtLemmas PySci PySciLemmas PyText D1SModel D1SProofs2 LibModel MatModel MatProofs MatProofs2 InpModel InpSpec InpProofs InpProofs4 LookModel LookSpec.
Open Scope nat_scope.

(** *** scaling *)
Lemma scale_run f (cells : cdict) : forall h h', foldM (fun (h : heap) (kl : str * loc) => do c <- hget h (snd kl); do c' <- scale_cell f c; Ok (hset h (snd kl) c')) h cells = Ok h' -> NoDup (map snd cells) ->
  length h' = length h /\ (forall l, ~ In l (map snd cells) -> nth_error h' l = nth_error h l) /\
  (forall l, In l (map snd cells) -> exists c c', nth_error h l = Some c /\ scale_cell f c = Ok c' /\ nth_error h' l = Some c').
Proof.
  induction cells as [|[k l0] cells IH]; intros h h' H ND; cbn [foldM] in H.
  - injection H as <-. split; [reflexivity|]. split; [reflexivity|]. intros l [].
  - cbn [snd map] in *. apply NoDup_cons_iff in ND as [NI ND]. unfold hget in H at 1. destruct (nth_error h l0) as [c|] eqn:G; cbn [of_opt bind] in H; [|discriminate].
    destruct (scale_cell f c) as [c'|] eqn:SC; cbn [bind] in H; [|discriminate]. destruct (IH _ _ H ND) as (L & O & I). assert (B : l0 < length h) by (apply nth_error_Some; congruence).
    split; [now rewrite L, hset_length|]. split.
    + intros l N. rewrite O by (intros X; apply N; now right). apply hset_other. intros X. apply N. now left.
    + intros l [E|Hl].
      * subst l. exists c, c'. split; [exact G|]. split; [exact SC|]. rewrite O by exact NI. now apply hset_same.
      * destruct (I l Hl) as (x & x' & G1 & S1 & G2). exists x, x'. rewrite hset_other in G1 by (intros X; subst l; now elim NI). repeat split; assumption.
Qed.
Lemma scale_total f (cells : cdict) : forall h, (forall l, In l (map snd cells) -> exists c, nth_error h l = Some c /\ (get_m c = Some 0%Z \/ exists q, written_density c q)) -> NoDup (map snd cells) ->
  exists h', foldM (fun (h : heap) (kl : str * loc) => do c <- hget h (snd kl); do c' <- scale_cell f c; Ok (hset h (snd kl) c')) h cells = Ok h'.
Proof.
  induction cells as [|[k l0] cells IH]; intros h H ND; [now exists h|]. cbn [foldM snd map] in *. apply NoDup_cons_iff in ND as [NI ND]. destruct (H l0 (or_introl eq_refl)) as (c & G & D).
  unfold hget at 1. rewrite G. cbn [of_opt bind]. assert (SC : exists c', scale_cell f c = Ok c').
  { unfold scale_cell. destruct (optz_eqb (get_m c) 0) eqn:Z0; [now exists c|]. destruct D as [D|(q & d & hs & D1 & D2)]; [rewrite D in Z0; discriminate|]. unfold get_d, set_d. rewrite D1, D2. cbn [bind]. eexists. reflexivity. }
  destruct SC as [c' ->]. cbn [bind]. apply IH; [|exact ND]. intros l Hl. destruct (H l (or_intror Hl)) as (x & G1 & D1). exists x. split; [|exact D1]. rewrite hset_other; [exact G1|]. intros X. subst l. now elim NI.
Qed.
Lemma optz_eqb_iff o z : optz_eqb o z = true <-> o = Some z.
Proof. destruct o as [x|]; cbn; [rewrite Z.eqb_eq; split; congruence|split; discriminate]. Qed.

(** *** ranges *)
Lemma fold_min ds : forall d, let m := fold_left qmin2 ds d in In m (d :: ds) /\ forall x, In x (d :: ds) -> (m <= x)%Q.
Proof.
  induction ds as [|e ds IH]; intros d m.
  - split; [now left|]. intros x [<-|[]]. apply Qle_refl.
  - unfold m. cbn [fold_left]. destruct (IH (qmin2 d e)) as [I B]. assert (Q : (qmin2 d e = d \/ qmin2 d e = e) /\ (qmin2 d e <= d)%Q /\ (qmin2 d e <= e)%Q).
    { unfold qmin2. destruct (Qle_bool d e) eqn:E; [apply Qle_bool_iff in E; split; [now left|split; [apply Qle_refl|exact E]]|]. split; [now right|]. split; [|apply Qle_refl]. apply Qlt_le_weak, Qnot_le_lt. intros X. apply Qle_bool_iff in X. congruence. }
    destruct Q as (QE & Q1 & Q2). split.
    + destruct I as [I|I]; [rewrite <- I; destruct QE as [->| ->]; [now left|right; now left]|right; now right].
    + pose proof (B (qmin2 d e) (or_introl eq_refl)) as B0. intros x [<-|[<-|X]]; [eapply Qle_trans; eassumption|eapply Qle_trans; eassumption|]. apply B. now right.
Qed.
Lemma fold_max ds : forall d, let m := fold_left qmax2 ds d in In m (d :: ds) /\ forall x, In x (d :: ds) -> (x <= m)%Q.
Proof.
  induction ds as [|e ds IH]; intros d m.
  - split; [now left|]. intros x [<-|[]]. apply Qle_refl.
  - unfold m. cbn [fold_left]. destruct (IH (qmax2 d e)) as [I B]. assert (Q : (qmax2 d e = d \/ qmax2 d e = e) /\ (d <= qmax2 d e)%Q /\ (e <= qmax2 d e)%Q).
    { unfold qmax2. destruct (Qle_bool d e) eqn:E; [apply Qle_bool_iff in E; split; [now right|split; [exact E|apply Qle_refl]]|]. split; [now left|]. split; [apply Qle_refl|]. apply Qlt_le_weak, Qnot_le_lt. intros X. apply Qle_bool_iff in X. congruence. }
    destruct Q as (QE & Q1 & Q2). split.
    + destruct I as [I|I]; [rewrite <- I; destruct QE as [->| ->]; [now left|right; now left]|right; now right].
    + pose proof (B (qmax2 d e) (or_introl eq_refl)) as B0. intros x [<-|[<-|X]]; [eapply Qle_trans; eassumption|eapply Qle_trans; eassumption|]. apply B. now right.
Qed.
Lemma group_in m q l : In q (group m l) <-> In (m, q) l.
Proof.
  unfold group. rewrite in_map_iff. split.
  - intros ([a b] & E & I). apply filter_In in I as [I X]. cbn [fst snd] in *. apply Z.eqb_eq in X. subst. exact I.
  - intros I. exists (m, q). split; [reflexivity|]. apply filter_In. split; [exact I|]. cbn. apply Z.eqb_refl.
Qed.
Lemma range_row_in l m : In m (map fst l) -> exists lo hi, range_row l m = [(m, (lo, hi))] /\ In (m, lo) l /\ In (m, hi) l /\ forall q, In (m, q) l -> (lo <= q <= hi)%Q.
Proof.
  intros I. unfold range_row. assert (G : group m l <> []). { apply in_map_iff in I as ([a b] & E & I). cbn in E. subst a. apply group_in in I. destruct (group m l); [destruct I|discriminate]. }
  destruct (group m l) as [|d ds] eqn:E; [easy|]. do 2 eexists. split; [reflexivity|]. destruct (fold_min ds d) as [A B]. destruct (fold_max ds d) as [C D]. rewrite <- E in *.
  split; [now apply group_in|]. split; [now apply group_in|]. intros q Q. apply group_in in Q. split; [now apply B|now apply D].
Qed.
Lemma range_rows l ids : (forall m, In m ids -> In m (map fst l)) -> let t := concat (map (range_row l) ids) in
  map fst t = ids /\ forall m lo hi, In (m, (lo, hi)) t -> In (m, lo) l /\ In (m, hi) l /\ forall q, In (m, q) l -> (lo <= q <= hi)%Q.
Proof.
  induction ids as [|m ids IH]; intros H t; [split; [reflexivity|intros ? ? ? []]|]. unfold t. cbn [map concat]. destruct (range_row_in l m (H m (or_introl eq_refl))) as (lo & hi & -> & R). destruct IH as [I1 I2]; [intros x X; apply H; now right|].
  cbn [app map fst]. split; [now f_equal|]. intros m' lo' hi' [X|X]; [injection X as <- <- <-; exact R|now apply I2].
Qed.
Section T.
  Context (convert : Z -> Q -> res Q).
  Lemma collected h cells l : mapM (fun kl : str * loc => do c <- hget h (snd kl); cell_density convert c) cells = Ok l ->
    forall m q, In (m, q) (concat (map (fun o => match o with Some p => [p] | None => [] end) l)) <-> has_density convert h cells m q.
  Proof.
    revert l. induction cells as [|[k a] cells IH]; intros l H m q; cbn [mapM] in H.
    - injection H as <-. split; [intros []|]. intros (key & l & c & d & [] & _).
    - cbn [snd] in H. unfold hget in H at 1. destruct (nth_error h a) as [c|] eqn:G; cbn [of_opt bind] in H; [|discriminate].
      destruct (cell_density convert c) as [o|] eqn:CD; cbn [bind] in H; [|discriminate].
      destruct (mapM _ cells) as [os|] eqn:MM; cbn [bind] in H; [|discriminate]. injection H as <-. cbn [map concat]. rewrite in_app_iff, (IH os eq_refl).
      assert (X : In (m, q) (match o with Some p => [p] | None => [] end) <-> get_m c = Some m /\ m <> 0%Z /\ exists d, written_density c d /\ ((d < 0)%Q /\ q = Qabs d \/ (0 <= d)%Q /\ convert m d = Ok q)).
      { unfold cell_density in CD. destruct (get_m c) as [m0|]; [|discriminate]. destruct (Z.eqb_spec m0 0) as [Z0|Z0]; [injection CD as <-; split; [intros []|intros (E & N & _); congruence]|].
        unfold get_d in CD. destruct (c_hidden c) as [|t hs] eqn:HI; [discriminate|]. destruct (parse_float t) as [d|] eqn:PF; cbn [bind] in CD; [|discriminate].
        assert (W : forall d', written_density c d' <-> d' = d). { intros d'. split; [intros (t' & hs' & E1 & E2); rewrite HI in E1; injection E1 as <- <-; congruence|intros ->; exists t, hs; now split]. }
        destruct (Qle_bool 0 d) eqn:QL; cbn [negb] in CD.
        - apply Qle_bool_iff in QL. destruct (convert m0 d) as [g|] eqn:CV; cbn [bind] in CD; [|discriminate]. injection CD as <-. split.
          + intros [E|[]]. injection E as <- <-. split; [reflexivity|]. split; [exact Z0|]. exists d. split; [now apply W|]. right. now split.
          + intros (E & _ & d' & W1 & W2). apply W in W1. subst d'. injection E as <-. destruct W2 as [[B _]|[_ B]]; [elim (Qlt_not_le _ _ B QL)|]. left. congruence.
        - assert (B : (d < 0)%Q) by (apply Qnot_le_lt; intros Y; apply Qle_bool_iff in Y; congruence). injection CD as <-. split.
          + intros [E|[]]. injection E as <- <-. split; [reflexivity|]. split; [exact Z0|]. exists d. split; [now apply W|]. left. now split.
          + intros (E & _ & d' & W1 & W2). apply W in W1. subst d'. injection E as <-. destruct W2 as [[_ B']|[B' _]]; [|elim (Qlt_not_le _ _ B B')]. left. congruence. }
      rewrite X. unfold has_density. split.
      + intros [(E & N & d & D)|(key & l & c0 & d & I & R)]; [exists k, a, c, d; split; [now left|]; tauto|exists key, l, c0, d; split; [now right|exact R]].
      + intros (key & l & c0 & d & [I|I] & R).
        * injection I as <- <-. destruct R as (G1 & E & N & D). rewrite G in G1. injection G1 as <-. left. split; [exact E|]. split; [exact N|]. exists d. exact D.
        * right. exists key, l, c0, d. split; [exact I|exact R].
  Qed.
End T.

(** *** the table of the cells *)
Lemma insert_cr_perm x l : Permutation (insert_cr x l) (x :: l).
Proof. induction l as [|y l IH]; cbn [insert_cr]; [apply Permutation_refl|]. destruct (cr_cell x <=? cr_cell y)%Z; [apply Permutation_refl|]. rewrite IH. apply perm_swap. Qed.
Lemma sort_cr_perm l : Permutation (fold_right insert_cr [] l) l.
Proof. induction l as [|x l IH]; [constructor|]. cbn [fold_right]. rewrite insert_cr_perm. constructor. exact IH. Qed.
Definition cle (a b : crow) := (cr_cell a <= cr_cell b)%Z.
Lemma insert_cr_sorted x l : StronglySorted cle l -> StronglySorted cle (insert_cr x l).
Proof.
  induction l as [|y l IH]; intros H; cbn [insert_cr]; [constructor; constructor|]. inversion H as [|? ? H1 H2]. destruct (Z.leb_spec (cr_cell x) (cr_cell y)) as [L|L].
  - constructor; [exact H|]. constructor; [exact L|]. eapply Forall_impl; [|exact H2]. unfold cle. intros z Z1. lia.
  - constructor; [now apply IH|]. rewrite insert_cr_perm. constructor; [unfold cle; lia|exact H2].
Qed.
Lemma sort_cr_sorted l : StronglySorted cle (fold_right insert_cr [] l).
Proof. induction l as [|x l IH]; [constructor|]. cbn [fold_right]. now apply insert_cr_sorted. Qed.

(** *** look-ups *)
Definition addk (r : list str) (k : str) : list str := if memb str_eqb k r then r else r ++ [k].
Lemma dset_addk {V} k (v : V) d : dkeys (dset str_eqb k v d) = addk (dkeys d) k.
Proof.
  unfold addk. unfold dkeys. induction d as [|[a b] d IH]; [reflexivity|]. cbn [dset map fst memb]. destruct (str_eqb k a) eqn:E.
  - cbn [map fst orb]. apply str_eqb_eq in E. now subst.
  - cbn [map fst orb]. rewrite IH. destruct (memb str_eqb k (map fst d)); reflexivity.
Qed.
Lemma firsts_add l r x : firsts l r -> firsts (l ++ [x]) (addk r x).
Proof.
  intros (ND & M & O). unfold addk. destruct (memb str_eqb x r) eqn:E.
  - apply memb_str in E. split; [exact ND|]. split; [intros y; rewrite in_app_iff, M; cbn; split; [tauto|]; intros [Y|[<-|[]]]; [exact Y|now apply M]|].
    intros i j a b A B L. destruct (O i j a b A B L) as (k & K1 & K2). exists k. assert (KL : k < length l) by (apply nth_error_Some; congruence). split; [now rewrite nth_error_app1|]. intros k' K'. rewrite nth_error_app1 by lia. now apply K2.
  - assert (NI : ~ In x r) by (intros X; apply memb_str in X; congruence). split; [apply MatProofs4.nodup_app; [exact ND|constructor; [intros []|constructor]|intros y Y [<-|[]]; now elim NI]|].
    split; [intros y; rewrite !in_app_iff, M; reflexivity|]. intros i j a b A B L.
    destruct (Nat.lt_ge_cases j (length r)) as [J|J].
    + rewrite nth_error_app1 in A by lia. rewrite nth_error_app1 in B by lia. destruct (O i j a b A B L) as (k & K1 & K2). exists k. assert (KL : k < length l) by (apply nth_error_Some; congruence). split; [now rewrite nth_error_app1|]. intros k' K'. rewrite nth_error_app1 by lia. now apply K2.
    + rewrite nth_error_app2 in B by lia. destruct (j - length r) as [|q] eqn:Q; [|destruct q; discriminate]. cbn in B. injection B as <-. rewrite nth_error_app1 in A by lia. apply nth_error_In in A. apply M in A. apply In_nth_error in A as [k K]. exists k. assert (KL : k < length l) by (apply nth_error_Some; congruence).
      split; [now rewrite nth_error_app1|]. intros k' K'. rewrite nth_error_app1 by lia. intros X. apply nth_error_In in X. apply M in X. now elim NI.
Qed.
Lemma firsts_fold l : forall pre r, firsts pre r -> firsts (pre ++ l) (fold_left addk l r).
Proof. induction l as [|x l IH]; intros pre r H; cbn [fold_left]; [now rewrite app_nil_r|]. replace (pre ++ x :: l) with ((pre ++ [x]) ++ l) by now rewrite <- app_assoc. apply IH. now apply firsts_add. Qed.
Lemma firsts_nil : firsts [] []. Proof. split; [constructor|]. split; [tauto|]. intros [|i] j x y H; discriminate. Qed.
Lemma lookup_run (d : cdict) ids keys : Forall2 (key_of d) ids keys -> forall sel : cdict, (forall k l, dget str_eqb k sel = Some l -> dget str_eqb k d = Some l) ->
  exists sel', foldM (fun (sel : cdict) id => match dget str_eqb id d with Some l => Ok (dset str_eqb id l sel) | None => match dget str_eqb (star id) d with Some l => Ok (dset str_eqb (star id) l sel) | None => Err KeyError end end) sel ids = Ok sel' /\
    dkeys sel' = fold_left addk keys (dkeys sel) /\ (forall k l, dget str_eqb k sel' = Some l -> dget str_eqb k d = Some l).
Proof.
  assert (PRES : forall key l sel, dget str_eqb key d = Some l -> (forall k l, dget str_eqb k sel = Some l -> dget str_eqb k d = Some l) -> forall k l0, dget str_eqb k (dset str_eqb key l sel) = Some l0 -> dget str_eqb k d = Some l0).
  { intros key l sel G H k l0 X. destruct (str_dec k key) as [->|N]; [rewrite (dget_dset_same str_eqb str_eqb_eq) in X; congruence|]. rewrite (dget_dset_other str_eqb str_eqb_eq) in X by congruence. now apply H. }
  induction 1 as [|id key ids keys (K & C) F IH]; intros sel H; [exists sel; cbn; auto|]. cbn [foldM fold_left].
  assert (G : exists l, dget str_eqb key d = Some l). { destruct (dget str_eqb key d) as [l|] eqn:G; [now exists l|]. apply (dget_none_iff str_eqb str_eqb_eq) in G. now elim G. }
  destruct G as [l G]. destruct C as [->|[-> N]].
  - rewrite G. cbn [bind]. destruct (IH (dset str_eqb id l sel)) as (s' & E1 & E2 & E3); [now apply PRES|]. exists s'. rewrite dset_addk in E2. auto.
  - apply (dget_none_iff str_eqb str_eqb_eq) in N. rewrite N, G. cbn [bind]. destruct (IH (dset str_eqb (star id) l sel)) as (s' & E1 & E2 & E3); [now apply PRES|]. exists s'. rewrite dset_addk in E2. auto.
Qed.
Lemma lookup_missing (d : cdict) ids : (exists id, In id ids /\ ~ In id (dkeys d) /\ ~ In (star id) (dkeys d)) -> forall sel : cdict,
  foldM (fun (sel : cdict) id => match dget str_eqb id d with Some l => Ok (dset str_eqb id l sel) | None => match dget str_eqb (star id) d with Some l => Ok (dset str_eqb (star id) l sel) | None => Err KeyError end end) sel ids = Err KeyError.
Proof.
  intros (id & I & N1 & N2). apply (dget_none_iff str_eqb str_eqb_eq) in N1, N2. induction ids as [|x ids IH]; intros sel; [destruct I|]. cbn [foldM]. destruct I as [->|I].
  - rewrite N1, N2. reflexivity.
  - destruct (dget str_eqb x d) as [l|]; [|destruct (dget str_eqb (star x) d) as [l|]; [|reflexivity]]; cbn [bind]; now apply IH.
Qed.
(** *** the text of a card with another density *)
Lemma fill_density t : forall vs d d' hs s r, fill t vs (d :: hs) = Ok (s, r) ->
  (has_mark t = true /\ exists a b, s = a ++ d ++ b /\ fill t vs (d' :: hs) = Ok (a ++ d' ++ b, r)) \/
  (has_mark t = false /\ exists vs', r = (vs', d :: hs) /\ fill t vs (d' :: hs) = Ok (s, (vs', d' :: hs))).
Proof.
  induction t as [|[c|w] t IH]; intros vs d d' hs s r H; cbn [fill has_mark existsb] in *.
  - injection H as <- <-. right. split; [reflexivity|]. exists vs. auto.
  - unfold tilde in *. destruct (Ascii.eqb c "~") eqn:E; cbn [orb].
    + destruct (fill t vs hs) as [[s1 r1]|] eqn:F; cbn [bind] in *; [|discriminate]. injection H as <- <-. left. split; [reflexivity|]. exists [], s1. auto.
    + destruct (fill t vs (d :: hs)) as [[s1 r1]|] eqn:F; cbn [bind] in *; [|discriminate]. injection H as <- <-. destruct (IH vs d d' hs s1 r1 F) as [[M (a & b & -> & F2)]|[M (vs' & -> & F2)]]; rewrite F2; cbn [bind].
      * left. split; [exact M|]. exists (c :: a), b. auto.
      * right. split; [exact M|]. exists vs'. auto.
  - destruct vs as [|v vs]; [discriminate|]. destruct (fill t vs (d :: hs)) as [[s1 r1]|] eqn:F; cbn [bind] in *; [|discriminate]. injection H as <- <-. destruct (IH vs d d' hs s1 r1 F) as [[M (a & b & -> & F2)]|[M (vs' & -> & F2)]]; rewrite F2; cbn [bind].
    * left. split; [exact M|]. exists (ljust w (str_of_Z v) ++ a), b. rewrite <- !app_assoc. auto.
    * right. split; [exact M|]. exists vs'. auto.
Qed.
Lemma fill_lines_density ls : forall vs d d' hs out, fill_lines ls vs (d :: hs) = Ok out ->
  (existsb (fun t => has_mark t) ls = true /\ exists pre post a b, out = pre ++ (a ++ d ++ b) :: post /\ fill_lines ls vs (d' :: hs) = Ok (pre ++ (a ++ d' ++ b) :: post)) \/
  (existsb (fun t => has_mark t) ls = false /\ fill_lines ls vs (d' :: hs) = Ok out).
Proof.
  induction ls as [|t ls IH]; intros vs d d' hs out H; cbn [fill_lines existsb] in *; [right; auto|].
  destruct (fill t vs (d :: hs)) as [[s [vs1 hs1]]|] eqn:F; cbn [bind] in *; [|discriminate].
  destruct (fill_lines ls vs1 hs1) as [r|] eqn:G; cbn [bind] in *; [|discriminate]. injection H as <-.
  destruct (fill_density t vs d d' hs s (vs1, hs1) F) as [[M (a & b & -> & F2)]|[M (vs' & E & F2)]]; rewrite F2, M; cbn [bind orb].
  - left. split; [reflexivity|]. rewrite G. cbn [bind]. exists [], r, a, b. auto.
  - injection E as -> ->. destruct (IH vs' d d' hs r G) as [[X (pre & post & a & b & -> & G2)]|[X G2]]; rewrite G2; cbn [bind].
    + left. split; [exact X|]. exists (s :: pre), post, a, b. auto.
    + right. auto.
Qed.
Lemma copy_total h d : (forall l, In l (map snd d) -> l < length h) -> exists h' d', copy_dict h d = Ok (h', d').
Proof.
  unfold copy_dict. enough (G : forall d x y, (forall l, In l (map snd d) -> l < length x) -> exists h' d', foldM (fun (hd : heap * cdict) (kl : str * loc) => do c <- hget (fst hd) (snd kl); Ok (fst hd ++ [c], snd hd ++ [(fst kl, length (fst hd))])) (x, y) d = Ok (h', d')) by (intros H; apply (G d h [] H)).
  clear. induction d as [|[k l] d IH]; intros x y H; cbn [foldM]; [do 2 eexists; reflexivity|]. cbn [fst snd]. unfold hget at 1. destruct (nth_error x l) as [c|] eqn:E; [|apply nth_error_None in E; pose proof (H l (or_introl eq_refl)); lia].
  cbn [of_opt bind]. apply IH. intros l' I. rewrite app_length. cbn [length]. pose proof (H l' (or_intror I)). lia.
Qed.
Lemma lookup_ok d ids keys : Forall2 (key_of d) ids keys -> exists sel, get_cards_by_id ids d = Ok sel /\ firsts keys (dkeys sel) /\ forall k l, dget str_eqb k sel = Some l -> dget str_eqb k d = Some l.
Proof.
  intros F. destruct (lookup_run d ids keys F []) as (sel & E & K & G); [discriminate|]. exists sel. split; [exact E|]. split; [|exact G]. rewrite K. apply (firsts_fold keys [] []). apply firsts_nil.
Qed.
Lemma lookup_err d ids : (exists id, In id ids /\ ~ In id (dkeys d) /\ ~ In (star id) (dkeys d)) -> get_cards_by_id ids d = Err KeyError.
Proof. intros H. exact (lookup_missing d ids H []). Qed.
