(** Reaction files, schedule editing, selection, library change (proofs). *)
From Coq Require Import NArith Nnat Sorted.
From Verif Require Import PyBase PyLemmas PyStr PyStrLemmas WWTextModel WWTextProofs WWTextProofs2 PyText D1SModel D1SSpec D1SProofs.
Open Scope nat_scope.

(** ** strip in general *)
Lemma split_aux_trail c x : is_ws c = true -> forall cur, split_aux cur (x ++ [c]) = split_aux cur x.
Proof. intros H. induction x as [|a x IH]; intros cur; simpl.
  - rewrite H. destruct cur; reflexivity.
  - destruct (is_ws a); [|apply IH]. destruct cur; rewrite IH; reflexivity. Qed.
Lemma split_trail x q : all_ws q -> split (x ++ q) = split x.
Proof. intros H. revert x; induction H as [|c q Hc Hq IH]; intros x; [now rewrite app_nil_r|].
  change (c :: q) with ([c] ++ q). rewrite app_assoc, IH. unfold split. now apply split_aux_trail. Qed.

Lemma lstrip_spec s : exists p, all_ws p /\ s = p ++ lstrip s /\ (lstrip s = [] \/ exists a m, lstrip s = a :: m /\ is_ws a = false).
Proof. induction s as [|c s [p [Hp [E D]]]]; simpl.
  - exists []. split; [constructor|]. auto.
  - destruct (is_ws c) eqn:W.
    + exists (c :: p). split; [constructor; assumption|]. split; [simpl; congruence|exact D].
    + exists []. split; [constructor|]. split; [reflexivity|]. right. eauto. Qed.
Lemma strip_spec s : exists p q, all_ws p /\ all_ws q /\ s = p ++ strip s ++ q /\ tight (strip s).
Proof. unfold strip. destruct (lstrip_spec s) as [p [Hp [E D]]]. set (t := lstrip s) in *.
  destruct (lstrip_spec (rev t)) as [q [Hq [E' D']]]. set (u := lstrip (rev t)) in *.
  assert (Et : t = rev u ++ rev q).
  { rewrite <- (rev_involutive t), E', rev_app_distr. reflexivity. }
  exists p, (rev q). split; [exact Hp|]. split; [apply Forall_rev; exact Hq|]. split; [rewrite <- Et; exact E|].
  destruct D' as [Eu|[b [m [Eu Hb]]]]; [left; rewrite Eu; reflexivity|]. right. split.
  - destruct D as [E0|[a [m' [E0 Ha]]]].
    + rewrite E0 in Et. symmetry in Et. apply app_eq_nil in Et. destruct Et as [Et _]. rewrite Eu in Et. simpl in Et. destruct (rev m); discriminate.
    + destruct (rev u) as [|a' r] eqn:R.
      * rewrite Eu in R. simpl in R. destruct (rev m); discriminate.
      * rewrite E0 in Et. simpl in Et. injection Et as <- _. eauto.
  - exists b, (rev m). rewrite Eu. auto. Qed.
Lemma resplit_strip s : split s <> [] -> resplit (strip s) = split s.
Proof. intros N. destruct (strip_spec s) as [p [q [Hp [Hq [E T]]]]].
  assert (ES : split s = split (strip s)) by (rewrite E at 1; rewrite split_ws by exact Hp; now rewrite split_trail).
  destruct T as [E0|[[a [m [Ea Ha]]] [b [m' [Eb Hb]]]]].
  - rewrite E0 in ES. contradiction.
  - unfold resplit. assert (S1 : starts_ws (strip s) = false) by (rewrite Ea; exact Ha).
    assert (S2 : ends_ws (strip s) = false) by (unfold ends_ws; rewrite Eb, rev_app_distr; exact Hb).
    rewrite S1, S2, <- ES. destruct (strip s); [discriminate|]. simpl. apply app_nil_r. Qed.

(** ** reaction files *)
Definition norm_reac (r : reac) : reac := mkreac (x_parent r) (x_mt r) (x_daughter r) (Some (match x_comment r with Some c => c | None => [] end)).

Lemma is_c_digit c : is_digit c = true -> is_c c = false.
Proof. intros H. unfold is_c. destruct (Ascii.eqb_spec c "C"); [subst; discriminate|]. destruct (Ascii.eqb_spec c "c"); [subst; discriminate|]. reflexivity. Qed.
Lemma str_of_Z_digit z : exists c, In c (str_of_Z z) /\ is_digit c = true.
Proof. assert (G : forall n, exists c, In c (str_of_N n) /\ is_digit c = true).
  { intros n. pose proof (str_of_N_digits n) as D. pose proof (str_of_N_ne n). destruct (str_of_N n) as [|c s]; [contradiction|]. exists c. inversion D; split; [left; reflexivity|assumption]. }
  destruct z; simpl str_of_Z; try apply G. destruct (G (N.pos p)) as [c [A B]]. exists c. split; [right; exact A|exact B]. Qed.

Lemma reac_row_facts r : carryable_reac r ->
  ~ In nl (reac_row r) /\ pat_blank (reac_row r ++ [nl]) = false /\ pat_comment (reac_row r ++ [nl]) = false /\
  reac_from_text (reac_row r ++ [nl]) = Ok (norm_reac r).
Proof. intros (TP & LP & [z Ez] & LM & TD & LD & HC).
  set (c := match x_comment r with Some c => c | None => [] end).
  assert (WC : words_text c /\ length c < 40).
  { unfold c. destruct (x_comment r); [exact HC|]. split; [exists []; split; [constructor|reflexivity]|simpl; lia]. }
  destruct WC as [[ws [Hws Ec]] LC].
  assert (TM : token (x_mt r)) by (rewrite Ez; split; apply str_of_Z_no_ws).
  pose (cols := [(13, x_parent r); (7, x_mt r); (12, x_daughter r)]).
  assert (HCo : Forall (fun wt => token (snd wt) /\ length (snd wt) < fst wt) cols) by (unfold cols; repeat (apply Forall_cons; [cbn [fst snd]; split; assumption|]); apply Forall_nil).
  assert (ER : reac_row r = concat (map (fun wt => rjust (fst wt) (snd wt)) cols) ++ rjust 40 c).
  { unfold reac_row. fold c. unfold cols. cbn [map List.concat fst snd]. rewrite app_nil_r. now rewrite <- !app_assoc. }
  assert (NL : ~ In nl (reac_row r)).
  { rewrite ER. intros X. apply in_app_or in X. destruct X as [X|X].
    - revert X. apply concat_nl. apply Forall_map. eapply Forall_impl; [|exact HCo]. intros wt [T _]. apply rjust_nl, no_ws_nl, T.
    - revert X. apply rjust_nl. rewrite Ec. now apply join_nl. }
  split; [exact NL|]. split; [|split].
  - destruct (str_of_Z_digit z) as [ch [Hin Hd]]. apply (pat_blank_false _ ch).
    + apply in_or_app. left. rewrite ER. apply in_or_app. left. unfold cols. cbn [map List.concat fst snd]. apply in_or_app. right. apply in_or_app. left.
      unfold rjust. apply in_or_app. right. rewrite Ez. exact Hin.
    + now apply digit_not.
    + now apply is_c_digit.
    + rewrite removelast_snoc. exact NL.
  - unfold reac_row, rjust at 1. destruct (13 - length (x_parent r)) as [|k] eqn:E; [lia|]. simpl. destruct (_ ++ [nl]); reflexivity.
  - assert (SP : split (reac_row r ++ [nl]) = [x_parent r; x_mt r; x_daughter r] ++ ws).
    { rewrite ER, <- app_assoc. rewrite split_cols; [|exact HCo|now apply rjust_ws]. unfold cols. cbn [map fst snd]. f_equal. rewrite split_rjust, split_nl, Ec.
      rewrite <- (app_nil_r (join_sp ws)). rewrite split_join; [apply app_nil_r|exact Hws|exact I]. }
    unfold reac_from_text. rewrite resplit_strip by (rewrite SP; discriminate). rewrite SP. cbn [app take_n bind List.concat]. rewrite !app_nil_r.
    rewrite strip_comment by exact Hws. rewrite <- Ec. unfold mk_reaction. rewrite Ez, parse_str_of_Z. cbn [bind]. rewrite <- Ez.
    assert (SPa : strip (x_parent r) = x_parent r).
    { pose proof (strip_tight [] (x_parent r) [] ltac:(constructor) ltac:(constructor) (token_tight _ TP)) as S. simpl in S. now rewrite app_nil_r in S. }
    rewrite SPa. reflexivity. Qed.

Lemma rread_rwrite l : Forall carryable_reac l -> rread (rwrite l) = Ok (map norm_reac l).
Proof. intros H. unfold rread, rwrite.
  rewrite <- (app_nil_r (concat (map (fun r => reac_row r ++ [nl]) l))). rewrite lines_concat.
  2:{ apply Forall_map. eapply Forall_impl; [|exact H]. intros r Hr. exists (reac_row r). split; [reflexivity|]. now apply reac_row_facts. }
  change (lines_of []) with (@nil str). rewrite app_nil_r.
  assert (G : forall acc, foldM (fun acc line => if pat_blank line || pat_comment line then Ok acc else do r <- reac_from_text line; Ok (acc ++ [r])) acc (map (fun r => reac_row r ++ [nl]) l) = Ok (acc ++ map norm_reac l)).
  { induction H as [|r l Hr HF IH]; intros acc; cbn [map foldM]; [now rewrite app_nil_r|].
    destruct (reac_row_facts r Hr) as (_ & P1 & P2 & P3). rewrite P1, P2, P3. cbn [orb bind]. rewrite IH. now rewrite <- app_assoc. }
  apply G. Qed.

(** ** editing the schedules *)
Lemma str_eqb_eq a b : str_eqb a b = true <-> a = b.
Proof. revert b; induction a as [|x a IH]; intros [|y b]; simpl; split; intros H; try discriminate; auto.
  - apply andb_true_iff in H. destruct H as [H1 H2]. apply Ascii.eqb_eq in H1. apply IH in H2. congruence.
  - injection H as -> ->. rewrite Ascii.eqb_refl. apply IH. reflexivity. Qed.
Lemma memb_str x l : memb str_eqb x l = true <-> In x l.
Proof. apply memb_in. apply str_eqb_eq. Qed.

Lemma all_same_spec l n : all_same l = true -> In n l -> forall m, In m l -> m = n.
Proof. destruct l as [|k l]; [intros _ []|]. simpl. rewrite forallb_forall. intros H.
  assert (G : forall m, k = m \/ In m l -> m = k). { intros m [->|Hm]; [reflexivity|]. apply H in Hm. apply Nat.eqb_eq in Hm. auto. }
  intros Hn m Hm. rewrite (G m Hm), (G n Hn). reflexivity. Qed.

Definition grown (n k : nat) (i j : irr) : Prop :=
  i_daughter j = i_daughter i /\ i_lambda j = i_lambda i /\ i_comment j = i_comment i /\
  length (i_times i) = n /\ exists ts, i_times j = i_times i ++ ts /\ length ts = k.

Lemma dget_in_str d td (v : list str) : dget str_eqb d td = Some v -> In v (map snd td).
Proof. intros H. apply (dget_some_in str_eqb str_eqb_eq) in H. apply in_map_iff. exists (d, v). auto. Qed.

Lemma maxs_const n l : (forall m, In m l -> m = n) -> fold_left Nat.max l n = n.
Proof. induction l as [|m l IH]; intros H; simpl; [reflexivity|]. rewrite (H m) by (left; reflexivity). rewrite Nat.max_id. apply IH. intros; apply H; right; assumption. Qed.

Lemma add_times_spec f td : rectangular f -> (0 <= f_nsc f)%Z ->
  (snd (add_times f td) <> None /\ fst (add_times f td) = f) \/
  (snd (add_times f td) = None /\ exists k, f_nsc (fst (add_times f td)) = (f_nsc f + Z.of_nat k)%Z /\
     f_header (fst (add_times f td)) = f_header f /\ f_fmt (fst (add_times f td)) = f_fmt f /\
     Forall2 (fun i j => i_daughter j = i_daughter i /\ i_lambda j = i_lambda i /\ i_comment j = i_comment i /\
        exists ts, dget str_eqb (i_daughter i) td = Some ts /\ length ts = k /\ i_times j = i_times i ++ ts)
       (f_scheds f) (f_scheds (fst (add_times f td)))).
Proof. intros HR Hn. unfold add_times.
  destruct (negb (all_same _)) eqn:E1; [left; split; [discriminate|reflexivity]|].
  destruct (negb (forallb _ td)) eqn:E2; [left; split; [discriminate|reflexivity]|].
  destruct (negb (forallb _ (get_daughters f))) eqn:E3; [left; split; [discriminate|reflexivity]|].
  apply negb_false_iff in E1, E3. rewrite forallb_forall in E3.
  destruct (f_scheds f) as [|i0 l] eqn:El.
  { left. simpl. split; [discriminate|]. destruct f; simpl in *; subst; reflexivity. }
  assert (HD : forall i, In i (i0 :: l) -> exists ts, dget str_eqb (i_daughter i) td = Some ts).
  { intros i Hi. specialize (E3 (i_daughter i)). unfold get_daughters in E3. rewrite El in E3. specialize (E3 (in_map _ _ _ Hi)).
    unfold dmem in E3. destruct (dget str_eqb (i_daughter i) td); [eauto|discriminate]. }
  destruct (HD i0 (or_introl eq_refl)) as [ts0 Hts0]. set (k := length ts0).
  assert (HK : forall i ts, dget str_eqb (i_daughter i) td = Some ts -> length ts = k).
  { intros i ts Hts. apply (all_same_spec _ k E1).
    - apply dget_in_str in Hts0. rewrite <- (map_map snd (@List.length str)). now apply in_map.
    - apply dget_in_str in Hts. rewrite <- (map_map snd (@List.length str)). now apply in_map. }
  unfold rectangular in HR. rewrite El, Forall_forall in HR.
  set (g := fun i => match dget str_eqb (i_daughter i) td with Some ts => mkirr (i_daughter i) (i_lambda i) (i_times i ++ ts) (i_comment i) | None => i end).
  assert (HL : forall i, In i (i0 :: l) -> length (i_times (g i)) = Z.to_nat (f_nsc f) + k).
  { intros i Hi. destruct (HD i Hi) as [ts Hts]. unfold g. rewrite Hts. simpl. rewrite app_length, (HK i ts Hts). specialize (HR i Hi). lia. }
  right. cbn [map]. split; [reflexivity|]. exists k. cbn [fst f_nsc f_header f_fmt f_scheds]. split; [|split; [reflexivity|split; [reflexivity|]]].
  - rewrite maxs_const.
    + change (Z.of_nat (length (i_times (g i0))) = (f_nsc f + Z.of_nat k)%Z). rewrite HL by (left; reflexivity). lia.
    + intros m Hm. rewrite in_map_iff in Hm. destruct Hm as [j [<- Hj]]. rewrite in_map_iff in Hj. destruct Hj as [i [<- Hi]].
      change (length (i_times (g i)) = length (i_times (g i0))). rewrite !HL; [reflexivity|left; reflexivity|right; exact Hi].
  - change (Forall2 (fun i j => i_daughter j = i_daughter i /\ i_lambda j = i_lambda i /\ i_comment j = i_comment i /\
        exists ts, dget str_eqb (i_daughter i) td = Some ts /\ length ts = k /\ i_times j = i_times i ++ ts) (i0 :: l) (map g (i0 :: l))).
    revert HD. generalize (i0 :: l) as s. clear - HK g. induction s as [|i s IH]; intros HD; simpl; constructor.
    + destruct (HD i (or_introl eq_refl)) as [ts Hts]. unfold g. rewrite Hts. simpl. repeat split. exists ts. repeat split; eauto.
    + apply IH. intros; apply HD; right; assumption. Qed.

Lemma pop_all_rect n ix l : Forall (fun i => length (i_times i) = n) l ->
  (l <> [] /\ ((ix < 0)%Z \/ (Z.of_nat n <= ix)%Z) /\ pop_all ix l = (l, Some IndexError)) \/
  ((l = [] \/ (0 <= ix < Z.of_nat n)%Z) /\
   pop_all ix l = (map (fun i => mkirr (i_daughter i) (i_lambda i) (remove_at (Z.to_nat ix) (i_times i)) (i_comment i)) l, None)).
Proof. intros H. destruct l as [|i l]; [right; simpl; auto|]. inversion H as [|? ? Hi HF]; subst.
  destruct ((ix <? 0)%Z || (Z.of_nat (length (i_times i)) <=? ix)%Z) eqn:E.
  - left. split; [discriminate|]. split; [apply orb_true_iff in E; rewrite Z.ltb_lt, Z.leb_le in E; exact E|]. simpl. rewrite E. reflexivity.
  - right. assert (R : (0 <= ix < Z.of_nat (length (i_times i)))%Z) by (apply orb_false_iff in E; rewrite Z.ltb_ge, Z.leb_gt in E; lia).
    split; [right; exact R|]. clear E. revert H R. generalize (length (i_times i)) as n. generalize (i :: l) as s. clear.
    intros s n H R. induction H as [|i s Hi HF IH]; [reflexivity|]. simpl.
    replace ((ix <? 0)%Z || (Z.of_nat (length (i_times i)) <=? ix)%Z) with false.
    2:{ symmetry. apply orb_false_iff. rewrite Z.ltb_ge, Z.leb_gt. lia. }
    rewrite IH. reflexivity. Qed.

Lemma remove_at_length {A} n (l : list A) : n < length l -> length (remove_at n l) = length l - 1.
Proof. revert n; induction l as [|x l IH]; intros [|n] H; simpl in *; try lia. rewrite IH by lia. lia. Qed.
Lemma remove_at_app {A} (a : list A) x b : remove_at (length a) (a ++ x :: b) = a ++ b.
Proof. induction a; simpl; [reflexivity|]. now rewrite IHa. Qed.

Lemma rect_nat f : rectangular f -> (f_scheds f = [] \/ (0 <= f_nsc f)%Z).
Proof. unfold rectangular. intros H. destruct (f_scheds f); [auto|]. inversion H; subst. right. lia. Qed.
Lemma rect_lengths f : rectangular f -> Forall (fun i => length (i_times i) = Z.to_nat (f_nsc f)) (f_scheds f).
Proof. apply Forall_impl. intros i H. rewrite <- H. symmetry. apply Nat2Z.id. Qed.

Lemma remove_time_spec f ix : rectangular f ->
  (snd (remove_time f ix) <> None /\ fst (remove_time f ix) = f /\ f_scheds f <> [] /\ ~ (0 <= ix < f_nsc f)%Z) \/
  (snd (remove_time f ix) = None /\ f_nsc (fst (remove_time f ix)) = (f_nsc f - 1)%Z /\ (f_scheds f <> [] -> (0 <= ix < f_nsc f)%Z) /\
   f_header (fst (remove_time f ix)) = f_header f /\ f_fmt (fst (remove_time f ix)) = f_fmt f /\
   f_scheds (fst (remove_time f ix)) = map (fun i => mkirr (i_daughter i) (i_lambda i) (remove_at (Z.to_nat ix) (i_times i)) (i_comment i)) (f_scheds f)).
Proof. intros HR. unfold remove_time. pose proof (rect_nat f HR) as HN. destruct (pop_all_rect _ ix _ (rect_lengths f HR)) as [[N [B E]]|[B E]]; rewrite E.
  - left. split; [discriminate|]. split; [destruct f; reflexivity|]. split; [exact N|]. destruct HN as [HN|HN]; [contradiction|]. lia.
  - right. cbn [fst snd f_nsc f_header f_fmt f_scheds]. repeat split; try reflexivity; destruct B as [B|B]; try contradiction; lia. Qed.

Lemma remove_rect f ix : rectangular f -> rectangular (fst (remove_time f ix)).
Proof. intros HR. destruct (remove_time_spec f ix HR) as [(_ & E & _)|(_ & En & HB & _ & _ & Es)]; [now rewrite E|].
  unfold rectangular in *. rewrite En, Es. rewrite Forall_map. rewrite Forall_forall in HR |- *. intros i Hi. simpl. specialize (HR i Hi).
  assert (f_scheds f <> []) by (intros X; rewrite X in Hi; destruct Hi). specialize (HB H). rewrite remove_at_length by lia. lia. Qed.

Lemma add_rect f td : rectangular f -> rectangular (fst (add_times f td)).
Proof. intros HR. destruct (rect_nat f HR) as [E0|Hn].
  - unfold add_times. repeat match goal with |- context [if ?b then _ else _] => destruct b; [exact HR|] end. rewrite E0. simpl. unfold rectangular. simpl. constructor.
  - destruct (add_times_spec f td HR Hn) as [[_ E]|[_ [k [En [_ [_ F2]]]]]]; [now rewrite E|].
    unfold rectangular in *. rewrite En. clear En. revert F2 HR. generalize (f_scheds (fst (add_times f td))). generalize (f_scheds f). generalize (f_nsc f).
    intros z l l' F2. induction F2 as [|i j l l' (_ & _ & _ & ts & _ & Lt & Et) F2 IH]; intros HR; constructor.
    + inversion HR; subst. rewrite Et, app_length. lia.
    + inversion HR; subst. now apply IH. Qed.

Lemma select_rect f ds : rectangular f -> rectangular (fst (select_daughters f ds)).
Proof. unfold rectangular, select_daughters. simpl. intros H. rewrite Forall_forall in *. intros i Hi. apply filter_In in Hi. apply H. tauto. Qed.
Lemma set_at_length {A} n (x : A) l : length (set_at n x l) = length l.
Proof. revert n; induction l as [|y l IH]; intros [|n]; simpl; auto. Qed.
Lemma Forall_set_at {A} (P : A -> Prop) n x l : Forall P l -> P x -> Forall P (set_at n x l).
Proof. intros H Hx. revert n; induction H; intros [|n]; simpl; constructor; auto. Qed.
Lemma modify_rect f k ix txt : rectangular f -> rectangular (istep f (OpModify k ix txt)).
Proof. intros HR. simpl. destruct (nth_error (f_scheds f) k) as [i|] eqn:E; [|exact HR]. unfold rectangular in *. simpl. apply Forall_set_at; [exact HR|].
  apply nth_error_In in E. rewrite Forall_forall in HR. specialize (HR i E). unfold modify_time. destruct (_ || _); simpl; [exact HR|]. now rewrite set_at_length. Qed.
Lemma steps_rect ops : forall f, rectangular f -> rectangular (fold_left istep ops f).
Proof. induction ops as [|o ops IH]; intros f H; simpl; [exact H|]. apply IH. destruct o; [apply add_rect|apply remove_rect|apply select_rect|apply modify_rect]; exact H. Qed.

Lemma add_then_remove f td f1 : rectangular f -> f_scheds f <> [] -> add_times f td = (f1, None) ->
  exists k, f_nsc f1 = (f_nsc f + Z.of_nat k)%Z /\ repeat_remove k (f_nsc f) f1 = Some f.
Proof. intros HR HN HA. destruct (rect_nat f HR) as [E0|Hn]; [contradiction|].
  destruct (add_times_spec f td HR Hn) as [[X _]|[_ [k [En [Eh [Ef F2]]]]]]; [rewrite HA in X; contradiction|].
  rewrite HA in *. cbn [fst] in *. exists k. split; [exact En|].
  assert (G : forall k f1, f_nsc f1 = (f_nsc f + Z.of_nat k)%Z -> f_header f1 = f_header f -> f_fmt f1 = f_fmt f ->
     Forall2 (grown (Z.to_nat (f_nsc f)) k) (f_scheds f) (f_scheds f1) -> repeat_remove k (f_nsc f) f1 = Some f).
  { clear - Hn HN. induction k as [|k IH]; intros f1 En Eh Ef F2.
    - simpl. f_equal. assert (Es : f_scheds f1 = f_scheds f).
      { clear - F2. induction F2 as [|i j l l' (A & B & C & _ & ts & T & L) F2 IH]; [reflexivity|]. f_equal; [|exact IH].
        destruct ts; [|discriminate]. rewrite app_nil_r in T. destruct i, j; simpl in *; congruence. }
      destruct f, f1; simpl in *; subst. f_equal. lia.
    - cbn [repeat_remove].
      assert (HR1 : rectangular f1).
      { unfold rectangular. rewrite En. clear - F2 Hn. induction F2 as [|i j l l' (_ & _ & _ & L1 & ts & T & L) F2 IH]; constructor; [|exact IH]. rewrite T, app_length. lia. }
      destruct (remove_time_spec f1 (f_nsc f) HR1) as [(_ & _ & _ & B)|(E1 & E2 & _ & E4 & E5 & E6)]; [exfalso; lia|].
      destruct (remove_time f1 (f_nsc f)) as [f2 e]. cbn [fst snd] in *. rewrite E1. apply IH; [lia|congruence|congruence|].
      rewrite E6. clear - F2. induction F2 as [|i j l l' (A & B & C & L1 & ts & T & L) F2 IH]; simpl; constructor; [|exact IH].
      destruct ts as [|t ts]; [discriminate|]. unfold grown. simpl. repeat split; auto. exists ts. split; [|simpl in L; lia]. rewrite T, <- L1. apply remove_at_app. }
  apply G; auto. clear - F2 HR. unfold rectangular in HR. revert HR. induction F2 as [|i j l l' (A & B & C & ts & _ & L & T) F2 IH]; intros HR; constructor.
  - inversion HR; subst. unfold grown. repeat split; auto; [lia|eauto].
  - inversion HR; subst. now apply IH. Qed.

(** a text with a single "nsc" line is read as a rectangular file *)
Lemma take_n_length {A} n (l a b : list A) : take_n n l = Ok (a, b) -> length a = n.
Proof. revert l a b; induction n as [|n IH]; intros l a b H; simpl in H; [injection H as <- <-; reflexivity|].
  destruct l; [discriminate|]. destruct (take_n n l) as [[a' b']|] eqn:E; [|discriminate]. simpl in H. injection H as <- <-. simpl. now rewrite (IH _ _ _ E). Qed.
Lemma irr_from_text_times text n i : irr_from_text text n = Ok i -> length (i_times i) = Z.to_nat n.
Proof. unfold irr_from_text. intros H. apply bind_ok in H. destruct H as [[d p1] [_ H]]. apply bind_ok in H. destruct H as [[la p2] [_ H]].
  apply bind_ok in H. destruct H as [[ts p3] [E H]]. injection H as <-. simpl. now apply take_n_length in E. Qed.
Lemma iread_rect_aux ls : forall st st', (r_nsc st = None -> r_scheds st = []) ->
  (match r_nsc st with Some n => (0 <= n)%Z /\ Forall (fun i => Z.of_nat (length (i_times i)) = n) (r_scheds st) | None => True end) ->
  length (filter pat_nsc ls) + (if r_nsc st then 1 else 0) <= 1 -> foldM read_line st ls = Ok st' ->
  match r_nsc st' with Some n => Forall (fun i => Z.of_nat (length (i_times i)) = n) (r_scheds st') | None => True end.
Proof. induction ls as [|l ls IH]; intros st st' H0 H1 HC H.
  - injection H as <-. destruct (r_nsc st); tauto.
  - cbn [foldM] in H. destruct (read_line st l) as [st1|] eqn:E; [|discriminate]. cbn [bind] in H.
    unfold read_line in E. cbn [filter] in HC. destruct (pat_nsc l).
    + simpl in HC. destruct (r_nsc st) eqn:En; [lia|]. destruct (first_digits l); [|discriminate]. injection E as <-.
      apply (IH _ _) in H; [exact H| | |]; simpl; try discriminate; try lia. rewrite H0 by reflexivity. split; [lia|constructor].
    + destruct (r_nsc st) as [n|] eqn:En.
      * destruct (pat_blank l || pat_comment l); [injection E as <-; apply (IH st st'); rewrite ?En; auto|].
        destruct (irr_from_text l n) as [i|] eqn:Ei; [|discriminate]. injection E as <-. apply (IH _ _) in H; [exact H| | |]; simpl; try discriminate; try lia.
        destruct H1 as [Hp H1]. split; [exact Hp|]. apply Forall_app. split; [exact H1|]. constructor; [|constructor]. apply irr_from_text_times in Ei. lia.
      * injection E as <-. apply (IH _ _) in H; [exact H| | |]; simpl; auto. Qed.
Lemma iread_rect text f : length (filter pat_nsc (lines_of text)) = 1 -> iread text = Ok f -> rectangular f.
Proof. intros H R. unfold iread in R. apply bind_ok in R. destruct R as [st [E R]].
  apply iread_rect_aux in E; simpl; auto; [|lia]. destruct (r_nsc st); [|discriminate]. injection R as <-. exact E. Qed.

(** ** selection *)
Lemma subseq_filter {A} (p : A -> bool) l : subseq (filter p l) l.
Proof. induction l as [|x l IH]; simpl; [constructor|]. destruct (p x); constructor; exact IH. Qed.
Lemma select_spec f ds : let (f', ok) := select_daughters f ds in
  subseq (f_scheds f') (f_scheds f) /\ (forall i, In i (f_scheds f') <-> In i (f_scheds f) /\ In (i_daughter i) ds) /\
  f_nsc f' = f_nsc f /\ f_header f' = f_header f /\
  (NoDup (get_daughters f) -> NoDup ds -> (ok = true <-> forall d, In d ds -> In d (get_daughters f))).
Proof. unfold select_daughters. cbn [f_scheds f_nsc f_header]. split; [apply subseq_filter|]. split.
  { intros i. rewrite filter_In. rewrite memb_str. reflexivity. }
  split; [reflexivity|]. split; [reflexivity|]. intros N1 N2. rewrite Nat.eqb_eq.
  set (n := filter (fun i => memb str_eqb (i_daughter i) ds) (f_scheds f)).
  assert (Nn : NoDup (map i_daughter n)).
  { unfold n. unfold get_daughters in N1. induction (f_scheds f) as [|i l IH]; simpl; [constructor|]. simpl in N1. inversion N1; subst.
    destruct (memb str_eqb (i_daughter i) ds); [|now apply IH]. simpl. constructor; [|now apply IH]. intros X. apply H1.
    apply in_map_iff in X. destruct X as [j [E Hj]]. apply filter_In in Hj. apply in_map_iff. exists j. tauto. }
  assert (I1 : incl (map i_daughter n) ds).
  { intros d Hd. apply in_map_iff in Hd. destruct Hd as [i [<- Hi]]. apply filter_In in Hi. apply memb_str. tauto. }
  split.
  - intros L d Hd. assert (I2 : incl ds (map i_daughter n)) by (apply NoDup_length_incl; [exact Nn|rewrite map_length; lia|exact I1]).
    apply I2 in Hd. apply in_map_iff in Hd. destruct Hd as [i [<- Hi]]. apply filter_In in Hi. unfold get_daughters. apply in_map. tauto.
  - intros H. assert (I2 : incl ds (map i_daughter n)).
    { intros d Hd. specialize (H d Hd). unfold get_daughters in H. apply in_map_iff in H. destruct H as [i [E Hi]]. apply in_map_iff. exists i. split; [exact E|].
      apply filter_In. split; [exact Hi|]. apply memb_str. now rewrite E. }
    apply NoDup_incl_length in I1; [|exact Nn]. apply NoDup_incl_length in I2; [|exact N2]. rewrite map_length in *. lia. Qed.

Lemma get_irrad_spec f d : match get_irrad f d with
  | Some i => exists a b, f_scheds f = a ++ i :: b /\ i_daughter i = d /\ ~ In d (map i_daughter a)
  | None => ~ In d (get_daughters f)
  end.
Proof. unfold get_irrad, get_daughters. induction (f_scheds f) as [|i l IH]; simpl; [tauto|].
  destruct (str_eqb d (i_daughter i)) eqn:E.
  - apply str_eqb_eq in E. exists [], l. simpl. auto.
  - assert (N : i_daughter i <> d) by (intros X; rewrite <- X in E; rewrite (proj2 (str_eqb_eq _ _) eq_refl) in E; discriminate).
    destruct (find _ l) as [j|].
    + destruct IH as [a [b [E1 [E2 E3]]]]. exists (i :: a), b. simpl. split; [congruence|]. split; [exact E2|]. tauto.
    + tauto. Qed.

(** ** library change *)
Lemma change_lib_plain lib l : lib <> [] -> hd_error lib <> Some "{"%char ->
  change_lib lib None l = Ok (map (reac_change_lib lib) l).
Proof. intros N H. unfold change_lib, parse_lib. destruct lib as [|c lib]; [contradiction|]. destruct (Ascii.eqb_spec c "{"); [subst; contradiction H; reflexivity|]. reflexivity. Qed.
Lemma change_lib_avail lib av l : lib <> [] -> hd_error lib <> Some "{"%char ->
  change_lib lib (Some av) l = Ok (map (fun r => if memb str_eqb lib (av (before_dot (x_parent r))) then reac_change_lib lib r else r) l).
Proof. intros N H. unfold change_lib, parse_lib. destruct lib as [|c lib]; [contradiction|]. destruct (Ascii.eqb_spec c "{"); [subst; contradiction H; reflexivity|]. reflexivity. Qed.

Definition lib_name (s : str) : Prop := exists a b c, s = [a; b; c] /\ is_digit a = true /\ is_digit b = true /\ is_letter c = true.
Lemma find_libs_skip fuel s t : length s <= fuel -> ~ In quote s -> 5 <= length t -> find_libs (fuel) (s ++ t) = find_libs (fuel - length s) t.
Proof. revert s; induction fuel as [|fuel IH]; intros s Hf Hs Ht; [destruct s; [reflexivity|simpl in Hf; lia]|].
  destruct s as [|c s]; [simpl; now rewrite ?Nat.sub_0_r|].
  assert (Hc : Ascii.eqb c quote = false) by (destruct (Ascii.eqb_spec c quote); [subst; exfalso; apply Hs; left; reflexivity|reflexivity]).
  cbn [app]. destruct (s ++ t) as [|a1 [|a2 [|a3 [|a4 r]]]] eqn:E; try (apply (f_equal (@List.length ascii)) in E; rewrite app_length in E; simpl in E; lia).
  cbn [find_libs]. rewrite Hc. cbn [andb tl]. rewrite <- E. rewrite IH; [reflexivity|simpl in Hf; lia|intros X; apply Hs; right; exact X|exact Ht]. Qed.
Lemma find_libs_hit fuel x t : lib_name x -> find_libs (S fuel) (quote :: x ++ quote :: t) = x :: find_libs fuel t.
Proof. intros [a [b [c [-> [Ha [Hb Hc]]]]]]. cbn [app find_libs]. rewrite !Ascii.eqb_refl, Ha, Hb, Hc. reflexivity. Qed.

Lemma parse_lib_dict pre old mid new rest : lib_name old -> lib_name new -> ~ In quote pre -> ~ In quote mid ->
  parse_lib ("{"%char :: pre ++ quote :: old ++ quote :: mid ++ quote :: new ++ quote :: rest) = Ok new.
Proof. intros Ho Hn Hp Hm. unfold parse_lib. rewrite Ascii.eqb_refl.
  set (T2 := quote :: new ++ quote :: rest). set (T1 := quote :: old ++ quote :: mid ++ T2).
  assert (L2 : 5 <= length T2) by (destruct Hn as [a [b [c [E _]]]]; unfold T2; rewrite E; simpl; lia).
  assert (L1 : 5 <= length T1) by (destruct Ho as [a [b [c [E _]]]]; unfold T1; rewrite E; simpl; lia).
  change ("{"%char :: pre ++ T1) with (("{"%char :: pre) ++ T1).
  rewrite find_libs_skip; [|rewrite app_length; lia|intros [X|X]; [discriminate|contradiction]|exact L1].
  rewrite app_length. replace (length ("{"%char :: pre) + length T1 - length ("{"%char :: pre)) with (length T1) by lia.
  assert (E1 : length T1 = S (4 + length (mid ++ T2))) by (destruct Ho as [a [b [c [E _]]]]; unfold T1; rewrite E; simpl; lia).
  rewrite E1. unfold T1. rewrite find_libs_hit by exact Ho. rewrite find_libs_skip; [|rewrite app_length; lia|exact Hm|exact L2].
  rewrite app_length. replace (4 + (length mid + length T2) - length mid) with (S (3 + length T2)) by lia.
  unfold T2 at 2. rewrite find_libs_hit by exact Hn. reflexivity. Qed.

Lemma change_lib_dict_manager newlib av l lib : parse_lib newlib = Ok lib -> hd_error newlib = Some "{"%char ->
  (forall z x, In x (av z) -> lib_name x) -> change_lib newlib (Some av) l = Ok l.
Proof. intros HP HB HA. unfold change_lib. rewrite HP. cbn [bind]. f_equal. rewrite <- (map_id l) at 2. apply map_ext. intros r.
  destruct (memb str_eqb newlib (av (before_dot (x_parent r)))) eqn:E; [|reflexivity]. apply memb_str in E. apply HA in E.
  destruct E as [a [b [c [-> [Ha _]]]]]. simpl in HB. injection HB as ->. discriminate. Qed.

(** ** parents *)
Lemma insert_sorted_in x y l : In y (insert_sorted x l) <-> y = x \/ In y l.
Proof. induction l as [|z l IH]; simpl; [intuition|]. destruct (str_leb x z); simpl; [intuition|]. rewrite IH. intuition. Qed.
Lemma sorted_in y l : In y (sorted_strs l) <-> In y l.
Proof. induction l as [|x l IH]; simpl; [tauto|]. rewrite insert_sorted_in, IH. intuition. Qed.
Lemma insert_nodup x l : ~ In x l -> NoDup l -> NoDup (insert_sorted x l).
Proof. intros H N. induction N as [|z l Hz N IH]; simpl; [constructor; [intros []|constructor]|].
  destruct (str_leb x z); [constructor; [exact H|constructor; assumption]|]. constructor; [|apply IH; intros X; apply H; right; exact X].
  rewrite insert_sorted_in. intros [->|X]; [apply H; left; reflexivity|contradiction]. Qed.
Lemma dedup_in x l : In x (dedup l) <-> In x l.
Proof. induction l as [|y l IH]; simpl; [tauto|]. destruct (memb str_eqb y l) eqn:E.
  - rewrite IH. apply memb_str in E. split; [auto|]. intros [->|H]; assumption.
  - simpl. rewrite IH. tauto. Qed.
Lemma dedup_nodup l : NoDup (dedup l).
Proof. induction l as [|y l IH]; simpl; [constructor|]. destruct (memb str_eqb y l) eqn:E; [exact IH|]. constructor; [|exact IH].
  rewrite dedup_in. intros X. apply memb_str in X. congruence. Qed.
Lemma sorted_nodup l : NoDup l -> NoDup (sorted_strs l).
Proof. induction 1; simpl; [constructor|]. apply insert_nodup; [rewrite sorted_in; assumption|assumption]. Qed.
Lemma str_leb_total a b : str_leb a b = false -> str_leb b a = true.
Proof. revert b; induction a as [|x a IH]; intros [|y b] H; simpl in *; try discriminate; try reflexivity.
  apply orb_false_iff in H. destruct H as [H1 H2]. apply N.ltb_ge in H1. apply orb_true_iff. destruct (Ascii.eqb_spec x y) as [->|N].
  - simpl in H2. right. rewrite Ascii.eqb_refl. simpl. now apply IH.
  - left. apply N.ltb_lt. apply N.le_lteq in H1. destruct H1 as [H1|H1]; [exact H1|]. exfalso. apply N. rewrite <- (ascii_N_embedding x), <- (ascii_N_embedding y). congruence. Qed.
Lemma str_leb_trans a b c : str_leb a b = true -> str_leb b c = true -> str_leb a c = true.
Proof. revert b c; induction a as [|x a IH]; intros [|y b] [|z c] H1 H2; simpl in *; try discriminate; try reflexivity.
  apply orb_true_iff in H1, H2. apply orb_true_iff. destruct H1 as [H1|H1], H2 as [H2|H2].
  - left. rewrite N.ltb_lt in *. lia.
  - apply andb_true_iff in H2. destruct H2 as [E _]. apply Ascii.eqb_eq in E. subst. auto.
  - apply andb_true_iff in H1. destruct H1 as [E _]. apply Ascii.eqb_eq in E. subst. auto.
  - apply andb_true_iff in H1, H2. destruct H1 as [E1 G1], H2 as [E2 G2]. apply Ascii.eqb_eq in E1, E2. subst. right. rewrite Ascii.eqb_refl. simpl. eauto. Qed.
Lemma insert_sorted_ss x l : StronglySorted (fun a b => str_leb a b = true) l -> StronglySorted (fun a b => str_leb a b = true) (insert_sorted x l).
Proof. induction 1 as [|y l S IH F]; simpl; [repeat constructor|]. destruct (str_leb x y) eqn:E.
  - constructor; [constructor; assumption|]. constructor; [exact E|]. eapply Forall_impl; [|exact F]. intros z Hz. eapply str_leb_trans; eauto.
  - constructor; [exact IH|]. apply str_leb_total in E. rewrite Forall_forall in *. intros z Hz. apply insert_sorted_in in Hz. destruct Hz as [->|Hz]; auto. Qed.
Lemma get_parents_spec l : StronglySorted (fun a b => str_leb a b = true) (get_parents l) /\ NoDup (get_parents l) /\
  forall z, In z (get_parents l) <-> exists r, In r l /\ before_dot (x_parent r) = z.
Proof. unfold get_parents. split; [|split].
  - generalize (dedup (map (fun r => before_dot (x_parent r)) l)). induction l0; simpl; [constructor|now apply insert_sorted_ss].
  - apply sorted_nodup, dedup_nodup.
  - intros z. rewrite sorted_in, dedup_in, in_map_iff. firstorder. Qed.

Lemma add_then_remove' f td f1 : rectangular f -> add_times f td = (f1, None) ->
  exists k, f_nsc f1 = (f_nsc f + Z.of_nat k)%Z /\ repeat_remove k (f_nsc f) f1 = Some f.
Proof. intros HR HA. apply (add_then_remove f td f1 HR); [|exact HA]. intros E. unfold add_times in HA. rewrite E in HA.
  repeat match type of HA with context [if ?b then _ else _] => destruct b; [discriminate|] end. simpl in HA. discriminate. Qed.
Lemma rejected f o e : rectangular f ->
  (exists td, o = OpAdd td /\ snd (add_times f td) = Some e) \/ (exists ix, o = OpRemove ix /\ snd (remove_time f ix) = Some e) \/
  (exists k i ix t, o = OpModify k ix t /\ nth_error (f_scheds f) k = Some i /\ snd (modify_time i ix t) = Some e) ->
  istep f o = f.
Proof. intros HR [[td [-> H]]|[[ix [-> H]]|[k [i [ix [t [-> [Hk H]]]]]]]]; simpl.
  - destruct (rect_nat f HR) as [E0|Hn].
    + unfold add_times. repeat match goal with |- context [if ?b then _ else _] => destruct b; [reflexivity|] end. rewrite E0. simpl. destruct f; simpl in *; subst; reflexivity.
    + destruct (add_times_spec f td HR Hn) as [[_ E]|[X _]]; [exact E|rewrite X in H; discriminate].
  - destruct (remove_time_spec f ix HR) as [(_ & E & _)|(X & _)]; [exact E|rewrite X in H; discriminate].
  - rewrite Hk. unfold modify_time in *. destruct (_ || _); [|discriminate]. simpl.
    assert (S : set_at k i (f_scheds f) = f_scheds f).
    { revert k Hk. induction (f_scheds f) as [|y l IH]; intros [|k] Hk; simpl in *; try discriminate; [congruence|]. now rewrite IH. }
    rewrite S. destruct f; reflexivity. Qed.
