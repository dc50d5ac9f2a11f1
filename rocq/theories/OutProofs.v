(** Proofs about MCNP output files: lost particles and histories. *)
From Coq Require Import Lia ZArith Permutation Sorted.
From Verif Require Import PyBase PyLemmas PyStr PyText D1SProofs2 DataModel MeshModel MeshSpec MeshProofs OutModel OutSpec.
Open Scope nat_scope.

(** ** scanning *)
Lemma span_app p a b : Forall (fun c => p c = true) a -> not_starting p b -> span p (a ++ b) = (a, b).
Proof.
  induction 1 as [|c a Hc Ha IH]; intros Hb.
  - cbn [app]. destruct b as [|c r]; [reflexivity|]. cbn [span]. rewrite (Hb c r eq_refl). reflexivity.
  - cbn [app span]. rewrite Hc, (IH Hb). reflexivity.
Qed.
Lemma some1_app p a b : a <> [] -> Forall (fun c => p c = true) a -> not_starting p b -> some1 p (a ++ b) = Some (a, b).
Proof. intros Hn Ha Hb. unfold some1. rewrite (span_app _ _ _ Ha Hb). destruct a; [congruence|reflexivity]. Qed.
Lemma span_digits_app a b : Forall (fun c => is_digit c = true) a -> not_starting_digit b -> span_digits (a ++ b) = (a, b).
Proof.
  induction 1 as [|c a Hc Ha IH]; intros Hb.
  - cbn [app]. destruct b as [|c r]; [reflexivity|]. cbn [span_digits]. rewrite (Hb c r eq_refl). reflexivity.
  - cbn [app span_digits]. rewrite Hc, (IH Hb). reflexivity.
Qed.
Lemma first_number d l : FirstNumber d l -> first_digits l = Some d.
Proof.
  intros (a & b & -> & Ha & [Hn Hd] & Hb). induction Ha as [|c a Hc Ha IH].
  - cbn [app]. destruct d as [|c d]; [congruence|]. pose proof (span_digits_app (c :: d) b Hd Hb) as E. inversion Hd as [|? ? Hc _]; subst. cbn [app first_digits] in *. rewrite Hc, E. reflexivity.
  - cbn [app first_digits]. rewrite Hc. exact IH.
Qed.
Lemma first_none l : digit_free l -> first_digits l = None.
Proof. induction 1 as [|c l Hc Hl IH]; [reflexivity|]. cbn [first_digits]. rewrite Hc. exact IH. Qed.
Lemma no_number_digit_free l : first_digits l = None -> digit_free l.
Proof. induction l as [|c l IH]; [constructor|]. cbn [first_digits]. destruct (is_digit c) eqn:E; [discriminate|]. intros H. constructor; [exact E|apply IH; exact H]. Qed.

(** ** numbers in scientific notation *)
Lemma sign_digit c : is_digit c = true -> is_sign c = false.
Proof. destruct c as [[] [] [] [] [] [] [] []]; vm_compute; congruence. Qed.
Lemma sci_found w s : SciText w -> not_starting_digit s -> sci_at (w ++ s) = Some (w, s).
Proof.
  intros (sg & d & ds & g & xs & -> & Hs & Hd & [Hdn Hds] & Hg & [Hxn Hxs]) Hns. unfold sci_at.
  replace ((sg ++ d :: dot :: ds ++ "E"%char :: g :: xs) ++ s) with (sg ++ d :: dot :: ds ++ "E"%char :: g :: xs ++ s)
    by (rewrite <- app_assoc; cbn [app]; rewrite <- app_assoc; reflexivity).
  rewrite (span_app is_sign sg).
  2:{ destruct Hs as [->|[->| ->]]; repeat constructor. } 2:{ intros c r E. injection E as <- _. apply sign_digit. exact Hd. }
  rewrite Hd. change (negb (Ascii.eqb dot nl)) with true. cbn [andb].
  rewrite (some1_app is_digit ds) by (try assumption; intros c r E; injection E as <- _; reflexivity). cbn [obind].
  replace (is_sign g) with true by (destruct Hg as [->| ->]; reflexivity). cbn [Ascii.eqb Bool.eqb andb].
  rewrite (some1_app is_digit xs) by assumption. cbn [obind]. reflexivity.
Qed.
Lemma sci_skip c s : is_digit c = false -> c <> minus -> c <> plus -> sci_at (c :: s) = None.
Proof.
  intros H1 H2 H3. unfold sci_at. cbn [span]. replace (is_sign c) with false. 2:{ unfold is_sign. symmetry. apply Bool.orb_false_iff. split; apply Ascii.eqb_neq; assumption. }
  destruct s; [reflexivity|]. rewrite H1. reflexivity.
Qed.
Lemma filler_skip g : forall s n, filler g -> length (g ++ s) < n -> find_sci n (g ++ s) = find_sci (n - length g) s.
Proof.
  induction g as [|c g IH]; intros s n Hg Hn; [cbn; f_equal; lia|]. inversion Hg as [|? ? (H1 & H2 & H3) Hg']; subst. destruct n as [|n]; [lia|].
  cbn [app find_sci length Nat.sub]. rewrite (sci_skip c _ H1 H2 H3). apply IH; [exact Hg'|cbn in Hn; lia].
Qed.
Lemma sci_all parts : forall n, length (concat (map (fun p : str * str => fst p ++ snd p) parts)) < n ->
  Forall (fun p : str * str => SciText (fst p) /\ filler (snd p) /\ snd p <> []) parts -> find_sci n (concat (map (fun p : str * str => fst p ++ snd p) parts)) = map fst parts.
Proof.
  induction parts as [|[w g] parts IH]; intros n Hn HF; [destruct n as [|n]; [lia|]; reflexivity|]. inversion HF as [|? ? (Hw & Hg & Hn0) HF']; subst. cbn [fst snd map concat] in *.
  set (T := concat (map (fun p : str * str => fst p ++ snd p) parts)) in *. rewrite <- app_assoc in Hn |- *. destruct n as [|n]; [lia|]. cbn [find_sci].
  rewrite (sci_found w (g ++ T) Hw). 2:{ intros c r E. destruct g as [|c' g]; [congruence|]. injection E as <- _. inversion Hg as [|? ? (H & _) _]; subst. exact H. }
  f_equal. assert (Lw : 1 <= length w) by (destruct Hw as (sg & d & ds & g' & xs & -> & _); rewrite app_length; cbn; lia).
  assert (L1 : length (w ++ g ++ T) = length w + length (g ++ T)) by apply app_length. assert (L2 : length (g ++ T) = length g + length T) by apply app_length.
  rewrite filler_skip; [|exact Hg|lia]. apply IH; [lia|exact HF'].
Qed.
Lemma sci_line qs l : SciLine qs l -> exists ws, findall_sci l = ws /\ Forall2 numeral ws qs.
Proof.
  intros (pre & parts & -> & Hp & HF). eexists. split; [reflexivity|]. unfold findall_sci. set (T := concat (map (fun p => fst p ++ snd p) parts)).
  assert (LT : length (pre ++ T) = length pre + length T) by apply app_length.
  rewrite filler_skip; [|exact Hp|lia]. unfold T in *. rewrite sci_all.
  - clear - HF. induction HF as [|p q parts qs (_ & _ & _ & H) HF IH]; constructor; assumption.
  - match type of LT with ?a = ?b + ?c => change (c < S a - b); lia end.
  - clear - HF. induction HF as [|p q parts qs (H1 & H2 & H3 & _) HF IH]; constructor; auto.
Qed.
Lemma three_ok x y z more l : SciLine (x :: y :: z :: more) l -> three (findall_sci l) = Ok (x, y, z).
Proof.
  intros H. destruct (sci_line _ _ H) as (ws & -> & HF). inversion HF as [|a ? ws1 ? Ha HF1]; subst. inversion HF1 as [|b ? ws2 ? Hb HF2]; subst. inversion HF2 as [|c ? ws3 ? Hc HF3]; subst.
  unfold three. cbn [nth_error of_opt bind]. rewrite Ha. cbn [bind]. rewrite Hb. cbn [bind]. rewrite Hc. reflexivity.
Qed.
Lemma three_short l ws : findall_sci l = ws -> length ws < 3 -> exists e, three ws = Err e.
Proof.
  intros _ H. destruct ws as [|a [|b [|c ws]]]; cbn in H; try lia; unfold three; cbn [nth_error of_opt bind].
  - eexists; reflexivity.
  - destruct (parse_float a); eexists; reflexivity.
  - destruct (parse_float a); [|eexists; reflexivity]. destruct (parse_float b); eexists; reflexivity.
Qed.

(** ** places in order *)
Fixpoint where_ (p : str -> bool) (i : nat) (lines : list str) : list nat :=
  match lines with [] => [] | l :: r => (if p l then [i] else []) ++ where_ p (S i) r end.
Lemma where_in p lines : forall i k, In k (where_ p i lines) <-> exists j l, k = i + j /\ nth_error lines j = Some l /\ p l = true.
Proof.
  induction lines as [|l r IH]; intros i k; cbn [where_].
  - split; [intros []|]. intros (j & l & _ & H & _). destruct j; discriminate H.
  - rewrite in_app_iff, IH. split.
    + intros [H|(j & x & -> & H1 & H2)]; [destruct (p l) eqn:E; [destruct H as [<-|[]]; exists 0, l; split; [lia|split; [reflexivity|exact E]]|destruct H]|]. exists (S j), x. split; [lia|split; assumption].
    + intros (j & x & -> & H1 & H2). destruct j as [|j]; [left; cbn in H1; injection H1 as ->; rewrite H2; left; lia|right; exists j, x; split; [lia|split; assumption]].
Qed.
Lemma where_sorted p lines : forall i, StronglySorted lt (where_ p i lines) /\ Forall (fun k => i <= k) (where_ p i lines).
Proof.
  induction lines as [|l r IH]; intros i; cbn [where_]; [split; constructor|]. destruct (IH (S i)) as [H1 H2].
  assert (H3 : Forall (fun k => i <= k) (where_ p (S i) r)) by (eapply Forall_impl; [|exact H2]; cbn; lia).
  destruct (p l); cbn [app]; [|split; assumption]. split; [constructor; [exact H1|eapply Forall_impl; [|exact H2]; cbn; lia]|constructor; [lia|exact H3]].
Qed.
Lemma sorted_same (a : list nat) : forall b, StronglySorted lt a -> StronglySorted lt b -> (forall i, In i a <-> In i b) -> a = b.
Proof.
  induction a as [|x a IH]; intros b Ha Hb H.
  - destruct b as [|y b]; [reflexivity|]. exfalso. apply (proj2 (H y)). left; reflexivity.
  - destruct b as [|y b]; [exfalso; apply (proj1 (H x)); left; reflexivity|]. inversion Ha as [|? ? Ha' Fa]; subst. inversion Hb as [|? ? Hb' Fb]; subst. rewrite Forall_forall in Fa, Fb.
    assert (x = y). { destruct (proj1 (H x) (or_introl eq_refl)) as [->|I1]; [reflexivity|]. destruct (proj2 (H y) (or_introl eq_refl)) as [->|I2]; [reflexivity|]. specialize (Fb x I1). specialize (Fa y I2). lia. }
    subst y. f_equal. apply IH; [assumption|assumption|]. intros i. split; intros Hi.
    + destruct (proj1 (H i) (or_intror Hi)) as [<-|I]; [specialize (Fa _ Hi); lia|exact I].
    + destruct (proj2 (H i) (or_intror Hi)) as [<-|I]; [specialize (Fb _ Hi); lia|exact I].
Qed.
Lemma places_where P p lines is : (forall i, P i <-> exists l, nth_error lines i = Some l /\ p l = true) -> Places P is -> is = where_ p 0 lines.
Proof.
  intros HP [HS HI]. apply sorted_same; [exact HS|apply where_sorted|]. intros i. rewrite HI, HP, where_in. split.
  - intros (l & H1 & H2). exists i, l. auto.
  - intros (j & l & -> & H1 & H2). exists l. auto.
Qed.
Lemma lost_where lines is : Places (lost_at lines) is -> is = where_ (has surface_id) 0 lines.
Proof. apply places_where. intros i. unfold lost_at. split; intros (l & H1 & H2); exists l; (split; [exact H1|]); apply has_iff; exact H2. Qed.

(** ** the reports *)
Lemma report_read cos univ all i l r row : nth_error all i = Some l -> skipn (S i) all = r -> ReportAt cos univ all i row -> read_lp cos univ l r = Ok row.
Proof.
  intros Hl Hr (l0 & l1 & l6 & l7 & x & y & z & u & v & w & m1 & m2 & E0 & E1 & E6 & E7 & F0 & F1 & S6 & X & S7 & U & G).
  assert (N : forall k, nth_error r k = nth_error all (S i + k)). { intros k. subst r. clear. revert all. induction (S i) as [|n IH]; intros all; [reflexivity|]. destruct all; [destruct k; reflexivity|]. cbn [skipn Nat.add nth_error]. apply IH. }
  rewrite E0 in Hl. injection Hl as ->. unfold read_lp. rewrite (first_number _ _ F0). cbn [of_opt bind].
  rewrite !N. replace (S i + 0) with (i + 1) by lia. replace (S i + 5) with (i + 6) by lia. replace (S i + 6) with (i + 7) by lia. rewrite E1, E6, E7. cbn [of_opt bind].
  rewrite (first_number _ _ F1). cbn [of_opt bind]. rewrite (three_ok _ _ _ _ _ S6), (three_ok _ _ _ _ _ S7). destruct row as [sf ce xyz uvw un]. cbn [l_surface l_cell l_xyz l_uvw l_univ] in *. subst xyz uvw.
  destruct univ as [g|]; [destruct G as (n & Gn & ->); rewrite Gn|subst un]; cbn [bind]; destruct cos; reflexivity.
Qed.
Lemma skipn_S {A} n (l : list A) x r : skipn n l = x :: r -> skipn (S n) l = r /\ nth_error l n = Some x.
Proof. revert l. induction n as [|n IH]; intros l E; [cbn in E; subst; auto|]. destruct l as [|y l]; [discriminate E|]. cbn [skipn nth_error] in *. apply IH. exact E. Qed.
Lemma reports_read cos univ all ls : forall i rows, skipn i all = ls -> Forall2 (ReportAt cos univ all) (where_ (has surface_id) i ls) rows -> get_lp_debug_df cos univ ls = Ok rows.
Proof.
  induction ls as [|l r IH]; intros i rows E HF; cbn [where_ get_lp_debug_df] in *; [inversion HF; reflexivity|]. apply skipn_S in E as [E1 E2].
  destruct (has surface_id l) eqn:Hl; cbn [app] in HF; [|apply (IH (S i)); assumption].
  inversion HF as [|? row ? rows' H1 H2]; subst. rewrite (report_read cos univ all i l _ row E2 eq_refl H1). cbn [bind]. rewrite (IH (S i) _ eq_refl H2). reflexivity.
Qed.
Theorem lost_ok cos univ lines is rows : Places (lost_at lines) is -> Forall2 (ReportAt cos univ lines) is rows -> get_lp_debug_df cos univ lines = Ok rows.
Proof. intros HP HF. rewrite (lost_where _ _ HP) in HF. apply (reports_read cos univ lines lines 0); [reflexivity|exact HF]. Qed.
Theorem lost_count cos univ lines is rows : Places (lost_at lines) is -> get_lp_debug_df cos univ lines = Ok rows -> length rows = length is.
Proof.
  intros HP. rewrite (lost_where _ _ HP). clear HP. generalize 0. revert rows. induction lines as [|l r IH]; intros rows i H; cbn [get_lp_debug_df where_] in *; [injection H as <-; reflexivity|].
  destruct (has surface_id l); cbn [app]; [|apply IH; exact H]. destruct (read_lp cos univ l r) as [x|]; [|discriminate H]. cbn [bind] in H. destruct (get_lp_debug_df cos univ r) as [xs|] eqn:E; [|discriminate H]. injection H as <-. cbn [length]. f_equal. apply (IH xs (S i) eq_refl).
Qed.
Theorem lost_cut cos univ lines i : lost_at lines i -> length lines <= i + 7 -> exists e, get_lp_debug_df cos univ lines = Err e.
Proof.
  intros (l & Hl & Hm) Hn. revert i Hl Hn. induction lines as [|a r IH]; intros i Hl Hn; [destruct i; discriminate Hl|]. cbn [get_lp_debug_df]. destruct i as [|i].
  - injection Hl as ->. replace (has surface_id l) with true by (symmetry; apply has_iff; exact Hm). assert (E : nth_error r 6 = None) by (apply nth_error_None; cbn in Hn; lia).
    assert (X : exists e, read_lp cos univ l r = Err e); [|destruct X as (e & ->); eexists; reflexivity].
    unfold read_lp. rewrite E. destruct (of_opt AttributeError (first_digits l)); cbn [bind]; [|eexists; reflexivity].
    destruct (of_opt IndexError (nth_error r 0)) as [l1|]; cbn [bind]; [|eexists; reflexivity]. destruct (of_opt AttributeError (first_digits l1)); cbn [bind]; [|eexists; reflexivity].
    match goal with |- context [bind ?m _] => destruct m end; cbn [bind]; [|eexists; reflexivity]. destruct (of_opt IndexError (nth_error r 5)); cbn [bind of_opt]; eexists; reflexivity.
  - destruct (IH i Hl ltac:(cbn in Hn; lia)) as (e & ->). destruct (has surface_id a); [|eexists; reflexivity]. destruct (read_lp cos univ a r); eexists; reflexivity.
Qed.

(** ** groups *)
Section Groups.
Context {A : Type} (eqb : A -> A -> bool) (Heq : forall x y, eqb x y = true <-> x = y).
Lemma eqb_r x : eqb x x = true. Proof. apply Heq. reflexivity. Qed.
Lemma uniq_in l x : In x (uniq eqb l) <-> In x l.
Proof.
  induction l as [|y l IH]; cbn [uniq In]; [reflexivity|]. rewrite filter_In, IH. destruct (eqb y x) eqn:E.
  - apply Heq in E. subst. intuition.
  - intuition.
Qed.
Lemma uniq_nodup l : NoDup (uniq eqb l).
Proof.
  induction l as [|y l IH]; cbn [uniq]; constructor.
  - rewrite filter_In, eqb_r. intros [_ H]. discriminate H.
  - apply NoDup_filter. exact IH.
Qed.
Lemma insert_count_perm (x : A * nat) l : Permutation (insert_count x l) (x :: l).
Proof. induction l as [|y l IH]; [reflexivity|]. cbn [insert_count]. destruct (snd y <=? snd x); [reflexivity|]. rewrite IH. apply perm_swap. Qed.
Lemma by_count_perm (l : list (A * nat)) : Permutation (by_count l) l.
Proof. induction l as [|x l IH]; [reflexivity|]. cbn [by_count fold_right]. rewrite insert_count_perm. apply perm_skip. exact IH. Qed.
Lemma insert_count_sorted (x : A * nat) l : StronglySorted more_first l -> StronglySorted more_first (insert_count x l).
Proof.
  induction 1 as [|y l HS IH HF]; cbn [insert_count]; [repeat constructor|]. destruct (Nat.leb_spec (snd y) (snd x)) as [E|E].
  - constructor; [constructor; assumption|]. constructor; [exact E|]. eapply Forall_impl; [|exact HF]. unfold more_first. intros; lia.
  - constructor; [exact IH|]. apply Forall_forall. intros z Hz. apply (Permutation_in _ (insert_count_perm x l)) in Hz. destruct Hz as [<-|Hz]; [unfold more_first; lia|]. rewrite Forall_forall in HF. apply HF. exact Hz.
Qed.
Lemma by_count_sorted (l : list (A * nat)) : StronglySorted more_first (by_count l).
Proof. induction l as [|x l IH]; [constructor|]. cbn [by_count fold_right]. apply insert_count_sorted. exact IH. Qed.
Lemma count_split x l : length l = count_of eqb x l + length (filter (fun y => negb (eqb x y)) l).
Proof. unfold count_of. induction l as [|y l IH]; [reflexivity|]. cbn [filter]. destruct (eqb x y); cbn [negb length]; lia. Qed.
Lemma count_filter x y l : eqb x y = false -> count_of eqb y (filter (fun z => negb (eqb x z)) l) = count_of eqb y l.
Proof.
  intros E. unfold count_of. induction l as [|z l IH]; [reflexivity|]. cbn [filter]. destruct (eqb x z) eqn:Ez; cbn [negb filter].
  - apply Heq in Ez. subst z. destruct (eqb y x) eqn:E2; [apply Heq in E2; subst; rewrite eqb_r in E; discriminate E|exact IH].
  - destruct (eqb y z); cbn [length]; rewrite IH; reflexivity.
Qed.
Lemma uniq_filter x l : filter (fun y => negb (eqb x y)) (uniq eqb l) = uniq eqb (filter (fun y => negb (eqb x y)) l).
Proof.
  induction l as [|y l IH]; [reflexivity|]. cbn [uniq filter]. assert (C : forall p q (m : list A), filter p (filter q m) = filter q (filter p m)).
  { intros p q m. induction m as [|a m IHm]; [reflexivity|]. cbn [filter]. destruct (p a) eqn:P, (q a) eqn:Q; cbn [filter]; rewrite ?P, ?Q, IHm; reflexivity. }
  destruct (eqb x y) eqn:E; cbn [negb].
  - apply Heq in E. subst y. rewrite <- IH. clear. induction (uniq eqb l) as [|z m IHm]; [reflexivity|]. cbn [filter]. destruct (eqb x z) eqn:Ez; cbn [negb filter]; [exact IHm|]. rewrite Ez. cbn [negb]. f_equal. exact IHm.
  - cbn [uniq]. f_equal. rewrite C, IH. reflexivity.
Qed.
Lemma sum_counts n : forall l, length l <= n -> list_sum (map (fun x => count_of eqb x l) (uniq eqb l)) = length l.
Proof.
  induction n as [|n IH]; intros l H; [destruct l; [reflexivity|cbn in H; lia]|]. destruct l as [|x l]; [reflexivity|]. cbn [uniq map list_sum fold_right].
  set (m := filter (fun y => negb (eqb x y)) l). assert (Lm : length m <= n) by (pose proof (count_split x l); fold m in H0; cbn in H; lia).
  rewrite (uniq_filter x l). fold m. rewrite (map_ext_in _ (fun y => count_of eqb y m)).
  - unfold list_sum in IH. rewrite (IH m Lm). rewrite (count_split x (x :: l)). cbn [filter]. rewrite eqb_r. cbn [negb]. reflexivity.
  - intros y Hy. apply (proj1 (uniq_in _ _)) in Hy. apply filter_In in Hy as [_ Hy]. destruct (eqb x y) eqn:E; [discriminate Hy|]. unfold m. rewrite (count_filter x y l E).
    unfold count_of. cbn [filter]. destruct (eqb y x) eqn:E2; [apply Heq in E2; subst; rewrite eqb_r in E; discriminate E|reflexivity].
Qed.
Lemma list_sum_perm (a b : list nat) : Permutation a b -> list_sum a = list_sum b.
Proof. induction 1; cbn [list_sum fold_right] in *; unfold list_sum in *; cbn [fold_right] in *; lia. Qed.
Theorem groups_ok l : (forall x n, In (x, n) (groups eqb l) <-> In x l /\ n = count_of eqb x l) /\ NoDup (map fst (groups eqb l))
  /\ list_sum (map snd (groups eqb l)) = length l /\ StronglySorted more_first (groups eqb l).
Proof.
  unfold groups. set (m := map (fun x => (x, count_of eqb x l)) (uniq eqb l)). pose proof (by_count_perm m) as P. split; [|split; [|split]].
  - intros x n. split.
    + intros H. apply (Permutation_in _ P) in H. apply in_map_iff in H as (y & E & H). injection E as <- <-. apply (proj1 (uniq_in _ _)) in H. auto.
    + intros [H ->]. apply (Permutation_in _ (Permutation_sym P)). apply in_map_iff. exists x. split; [reflexivity|apply uniq_in; exact H].
  - apply (Permutation_NoDup (Permutation_map fst (Permutation_sym P))). unfold m. rewrite map_map. cbn [fst]. rewrite map_id. apply uniq_nodup.
  - rewrite (list_sum_perm _ _ (Permutation_map snd P)). unfold m. rewrite map_map. cbn [snd]. apply (sum_counts (length l)). lia.
  - apply by_count_sorted.
Qed.
End Groups.
Lemma pair_eqb_eq a b : pair_eqb a b = true <-> a = b.
Proof. destruct a, b. unfold pair_eqb. cbn [fst snd]. rewrite Bool.andb_true_iff, !str_eqb_eq. split; [intros [-> ->]; reflexivity|intros E; injection E; auto]. Qed.
Lemma trip_eqb_eq a b : trip_eqb a b = true <-> a = b.
Proof. destruct a, b. unfold trip_eqb. cbn [fst snd]. rewrite Bool.andb_true_iff, Z.eqb_eq, pair_eqb_eq. split; [intros [-> ->]; reflexivity|intros E; injection E; auto]. Qed.

(** ** histories *)
Lemma parse_digits d : all_digits d -> parse_int d = Ok (Z.of_N (num_of d)).
Proof.
  intros [Hn Hd]. pose proof (span_digits_app d [] Hd ltac:(intros c r E; discriminate E)) as E. rewrite app_nil_r in E.
  unfold parse_int, take_sign. destruct d as [|c d]; [congruence|]. inversion Hd as [|? ? Hc _]; subst. pose proof (sign_digit c Hc) as S. unfold is_sign in S. apply Bool.orb_false_iff in S as [S1 S2].
  unfold ascii_eqb in *. rewrite ?S1, ?S2. rewrite E. reflexivity.
Qed.
Lemma the_int_ok z l : FirstInt z l -> the_int (first_digits l) = Ok z.
Proof. intros (d & H & ->). rewrite (first_number _ _ H). unfold the_int. cbn [of_opt bind]. destruct H as (a & b & _ & _ & Hd & _). apply parse_digits. exact Hd. Qed.
Lemma tot_skip a : forall r, Forall (fun l => ~ mentions total_lp l) a -> tot_lp (a ++ r) = tot_lp r.
Proof. induction a as [|l a IH]; intros r H; [reflexivity|]. inversion H; subst. cbn [app tot_lp]. rewrite has_not by assumption. apply IH. assumption. Qed.
Theorem tot_ok a l b : mentions total_lp l -> Forall (fun x => ~ mentions total_lp x) b ->
  (forall z, FirstInt z l -> get_tot_lp (a ++ l :: b) = Some z) /\ (digit_free l -> get_tot_lp (a ++ l :: b) = None).
Proof.
  intros Hm Hb. unfold get_tot_lp. rewrite rev_app_distr. cbn [rev]. rewrite <- app_assoc, tot_skip by (apply Forall_rev; exact Hb). cbn [app tot_lp].
  replace (has total_lp l) with true by (symmetry; apply has_iff; exact Hm). split.
  - intros z Hz. pose proof (the_int_ok z l Hz) as E. unfold the_int in E. destruct (first_digits l); [cbn [of_opt bind] in E; rewrite E; reflexivity|discriminate E].
  - intros Hd. rewrite (first_none _ Hd). reflexivity.
Qed.
Theorem tot_none lines : Forall (fun x => ~ mentions total_lp x) lines -> get_tot_lp lines = None.
Proof. intros H. unfold get_tot_lp. pose proof (tot_skip (rev lines) [] (Forall_rev H)) as E. rewrite app_nil_r in E. exact E. Qed.
Lemma strip_prefix_some p : forall s r, strip_prefix p s = Some r <-> s = p ++ r.
Proof.
  induction p as [|c p IH]; intros s r; cbn [strip_prefix app]; [split; [intros E; injection E; auto|intros ->; reflexivity]|]. destruct s as [|d s]; [split; discriminate|].
  destruct (Ascii.eqb_spec c d) as [->|N]; [rewrite IH; split; [intros ->; reflexivity|intros E; injection E; auto]|split; [discriminate|intros E; injection E; congruence]].
Qed.
Lemma contains_iff p s : contains p s = true <-> Mentions p s.
Proof.
  induction s as [|c s IH]; cbn [contains].
  - destruct (strip_prefix p []) as [r|] eqn:E; [apply strip_prefix_some in E; split; [intros _; exists [], r; exact E|reflexivity]|]. split; [discriminate|]. intros (a & b & H).
    destruct a; [|discriminate H]. cbn [app] in H. symmetry in E. exfalso. assert (X : strip_prefix p [] = Some b) by (apply strip_prefix_some; exact H). congruence.
  - destruct (strip_prefix p (c :: s)) as [r|] eqn:E; [apply strip_prefix_some in E; split; [intros _; exists [], r; exact E|reflexivity]|]. rewrite IH. split.
    + intros (a & b & ->). exists (c :: a), b. reflexivity.
    + intros (a & b & H). destruct a as [|d a]; [cbn [app] in H; exfalso; assert (X : strip_prefix p (c :: s) = Some b) by (apply strip_prefix_some; exact H); congruence|]. injection H as -> ->. exists a, b. reflexivity.
Qed.
Lemma contains_not p s : ~ Mentions p s -> contains p s = false.
Proof. intros H. destruct (contains p s) eqn:E; [apply contains_iff in E; contradiction|reflexivity]. Qed.
Theorem nps_ok particle a l b : Mentions (particle ++ s2l " creation") l -> Forall (fun x => ~ Mentions (particle ++ s2l " creation") x) a ->
  (forall l3 z, nth_error b 2 = Some l3 -> FirstInt z l3 -> get_NPS particle (a ++ l :: b) = Ok z)
  /\ (forall l3, nth_error b 2 = Some l3 -> digit_free l3 -> get_NPS particle (a ++ l :: b) = Err AttributeError)
  /\ (length b < 3 -> get_NPS particle (a ++ l :: b) = Err IndexError).
Proof.
  intros Hm Ha. assert (E : get_NPS particle (a ++ l :: b) = do l3 <- of_opt IndexError (nth_error b 2); the_int (first_digits l3)).
  { induction Ha as [|x a Hx Ha IH]; cbn [app get_NPS]; [replace (contains (particle ++ s2l " creation") l) with true by (symmetry; apply contains_iff; exact Hm); reflexivity|]. rewrite (contains_not _ _ Hx). exact IH. }
  rewrite E. split; [|split].
  - intros l3 z -> Hz. cbn [of_opt bind]. apply the_int_ok. exact Hz.
  - intros l3 -> Hd. cbn [of_opt bind]. rewrite (first_none _ Hd). reflexivity.
  - intros Hn. replace (nth_error b 2) with (@None str) by (symmetry; apply nth_error_None; lia). reflexivity.
Qed.
Theorem nps_none particle lines : Forall (fun x => ~ Mentions (particle ++ s2l " creation") x) lines -> get_NPS particle lines = Err ValueError.
Proof. induction 1 as [|x a Hx Ha IH]; [reflexivity|]. cbn [get_NPS]. rewrite (contains_not _ _ Hx). exact IH. Qed.
