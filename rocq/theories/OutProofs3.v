(** Proofs about the table of all checks, descriptions, printed tables, versions, warnings. *)
From Coq Require Import Lia ZArith Permutation Sorted.
From Verif Require Import PyBase PyLemmas PyStr PyText PyStrLemmas D1SModel D1SProofs2 MatProofs2 MctalProofs8 InpProofs2 DataModel MeshModel MeshSpec MeshProofs OutModel OutSpec OutProofs OutProofs2.
Open Scope nat_scope.

(** ** the table of all tallies *)
Lemma row_ok lines p r : RowFor lines p r -> table_row lines p = Ok r.
Proof.
  destruct p as [t v], r as [t' c v']. unfold RowFor, table_row. cbn [fst snd tr_tally tr_verdict tr_cells]. intros (-> & -> & [(dw & of_ & o7 & os & pf & p7 & ps & HT & ->)|(-> & HN & ->)]).
  - rewrite (table_read _ _ _ _ _ _ _ _ _ HT). reflexivity.
  - rewrite (no_table _ _ HN). reflexivity.
Qed.
Definition by_tally (a b : trow) : Prop := (tr_tally a <= tr_tally b)%Z.
Lemma insert_tr_perm x l : Permutation (insert_tr x l) (x :: l).
Proof. induction l as [|y l IH]; [reflexivity|]. cbn [insert_tr]. destruct (tr_tally x <=? tr_tally y)%Z; [reflexivity|]. rewrite IH. apply perm_swap. Qed.
Lemma insert_tr_sorted x l : StronglySorted by_tally l -> StronglySorted by_tally (insert_tr x l).
Proof.
  induction 1 as [|y l HS IH HF]; cbn [insert_tr]; [repeat constructor|]. destruct (Z.leb_spec (tr_tally x) (tr_tally y)) as [E|E].
  - constructor; [constructor; assumption|]. constructor; [exact E|]. eapply Forall_impl; [|exact HF]. unfold by_tally. intros; lia.
  - constructor; [exact IH|]. apply Forall_forall. intros z Hz. apply (Permutation_in _ (insert_tr_perm x l)) in Hz. destruct Hz as [<-|Hz]; [unfold by_tally; lia|]. rewrite Forall_forall in HF. apply HF. exact Hz.
Qed.
Lemma sort_tr l : Permutation (fold_right insert_tr [] l) l /\ StronglySorted by_tally (fold_right insert_tr [] l).
Proof. induction l as [|x l [P S]]; [split; constructor|]. cbn [fold_right]. split; [rewrite insert_tr_perm; apply perm_skip; exact P|apply insert_tr_sorted; exact S]. Qed.
Theorem all_checks lines es rows : SummaryText es lines -> NoDup (map fst es) -> es <> [] -> Forall2 (RowFor lines) es rows ->
  exists tab, get_stat_checks_table lines = Ok tab /\ Permutation tab rows /\ StronglySorted by_tally tab.
Proof.
  intros HS HN Hne HF. unfold get_stat_checks_table. rewrite (summary_read _ _ HS), (summary_distinct _ HN). cbn [bind].
  assert (E : mapM (table_row lines) es = Ok rows). { clear - HF. induction HF as [|p r es rows H HF IH]; [reflexivity|]. cbn [mapM]. rewrite (row_ok _ _ _ H). cbn [bind]. rewrite IH. reflexivity. }
  rewrite E. cbn [bind]. destruct (sort_tr rows) as [P S]. destruct rows as [|r rows]; [inversion HF; congruence|]. eexists. split; [reflexivity|]. split; assumption.
Qed.
Theorem all_checks_missing lines es t v : SummaryText es lines -> NoDup (map fst es) -> In (t, v) es -> v <> AllZeros -> (forall l, In l lines -> ~ TitleOf t l) ->
  exists e, get_stat_checks_table lines = Err e.
Proof.
  intros HS HN HI Hv HT. unfold get_stat_checks_table. rewrite (summary_read _ _ HS), (summary_distinct _ HN). cbn [bind]. clear HS HN.
  assert (E : exists e, mapM (table_row lines) es = Err e); [|destruct E as (e & ->); eexists; reflexivity].
  induction es as [|p es IH]; [destruct HI|]. cbn [mapM]. destruct HI as [->|HI].
  - unfold table_row. rewrite (no_table _ _ HT). cbn [bind]. destruct v; try (eexists; reflexivity). congruence.
  - destruct (table_row lines p); [|eexists; reflexivity]. cbn [bind]. destruct (IH HI) as (e & ->). eexists; reflexivity.
Qed.

(** ** descriptions *)
Lemma describe_app t d a b : describe t d (a ++ b) = describe t (describe t d a) b. Proof. apply fold_left_app. Qed.
Lemma describe_none t d ts : (forall k c, In (k, c) ts -> k <> t) -> describe t d ts = d.
Proof.
  unfold describe. revert d. induction ts as [|[k c] ts IH]; intros d H; [reflexivity|]. cbn [fold_left fst snd]. destruct (Z.eqb_spec k t) as [->|N]; [exfalso; apply (H t c); [left; reflexivity|reflexivity]|]. apply IH. intros k' c' X. eapply H. right. exact X.
Qed.
Lemma describe_last t d ts c : last_of (fun x => x = t) ts c -> describe t d ts = Some (first_comment c).
Proof.
  intros (a & k & b & -> & -> & H). rewrite describe_app. change ((t, c) :: b) with ([(t, c)] ++ b). rewrite describe_app, describe_none by exact H. unfold describe. cbn [fold_left fst snd]. rewrite Z.eqb_refl. destruct c; reflexivity.
Qed.
Lemma split_at_unique {A} (c : A) (a b x y : list A) : ~ In c a -> ~ In c b -> a ++ c :: x = b ++ c :: y -> a = b /\ x = y.
Proof.
  revert b. induction a as [|h a IH]; intros [|k b] Ha Hb E; cbn [app] in E.
  - injection E; auto.
  - injection E as E1 _. exfalso. apply Hb. left. auto.
  - injection E as E1 _. exfalso. apply Ha. left. auto.
  - injection E as -> E. destruct (IH b) as [-> ->]; [intros X; apply Ha; right; exact X|intros X; apply Hb; right; exact X|exact E|auto].
Qed.
Lemma no_bracket z : ~ In "["%char (str_of_Z z).
Proof.
  assert (H : Forall (fun c => c <> "["%char) (str_of_Z z)).
  { unfold str_of_Z. assert (D : forall n, Forall (fun c => c <> "["%char) (str_of_N n)).
    { intros n. pose proof (str_of_N_digits n) as HD. unfold digits in HD. rewrite Forall_forall in *. intros c Hc E. subst c. specialize (HD _ Hc). discriminate HD. }
    destruct z; [apply D|apply D|constructor; [discriminate|apply D]]. }
  rewrite Forall_forall in H. intros X. exact (H _ X eq_refl).
Qed.
Lemma named_inj d t d' t' : named d t = named d' t' -> t = t'.
Proof.
  unfold named. intros E. apply (f_equal (@rev _)) in E. rewrite !rev_app_distr in E. cbn [s2l list_ascii_of_string rev app] in E. rewrite <- !app_assoc in E. cbn [app] in E.
  injection E as E. apply split_at_unique in E as [E _]; try (rewrite <- in_rev; apply no_bracket). apply (f_equal (@rev _)) in E. rewrite !rev_involutive in E. apply str_of_Z_inj. exact E.
Qed.
Theorem assign_ok tallies s : NoDup (map fst s) -> Forall (fun p => exists c, last_of (fun x => x = fst p) tallies c) s ->
  exists names, Forall2 (fun p n => exists c, last_of (fun x => x = fst p) tallies c /\ n = (named (first_comment c) (fst p), snd p)) s names
    /\ assign_tally_description tallies s = Ok names.
Proof.
  intros HN HF. unfold assign_tally_description.
  assert (G : forall s tdescr (d : list (str * verdict)), NoDup (map fst s) -> Forall (fun p => exists c, last_of (fun x => x = fst p) tallies c) s ->
    (forall t k x, In t (map fst s) -> In (k, x) d -> forall y, k <> named y t) ->
    exists names, Forall2 (fun p n => exists c, last_of (fun x => x = fst p) tallies c /\ n = (named (first_comment c) (fst p), snd p)) s names /\ assign tdescr tallies s d = Ok (d ++ names)).
  { clear s HN HF. induction s as [|[t v] s IH]; intros tdescr d HN HF HD; [exists []; split; [constructor|cbn [assign]; rewrite app_nil_r; reflexivity]|].
    cbn [map fst] in HN. inversion HN as [|? ? Hn HN']; subst. inversion HF as [|? ? (c & Hc) HF']; subst. cbn [fst] in Hc. cbn [assign]. rewrite (describe_last _ tdescr _ _ Hc). cbn [of_opt bind].
    change (first_comment c ++ s2l " [" ++ str_of_Z t ++ s2l "]") with (named (first_comment c) t).
    rewrite (dset_new str_eqb) by (apply (dget_none_iff str_eqb str_eqb_eq); intros X; apply in_map_iff in X as ([k x] & E & X); cbn [fst] in E; subst k; exact (HD t _ x (or_introl eq_refl) X _ eq_refl)).
    destruct (IH (Some (first_comment c)) (d ++ [(named (first_comment c) t, v)]) HN' HF') as (names & H1 & H2).
    - intros u k x Hu Hk y. apply in_app_or in Hk as [Hk|[Hk|[]]]; [apply (HD u k x); [right; exact Hu|exact Hk]|]. injection Hk as <- <-. intros E. apply named_inj in E. subst u. exact (Hn Hu).
    - exists ((named (first_comment c) t, v) :: names). split; [constructor; [exists c; split; [exact Hc|reflexivity]|exact H1]|]. rewrite H2, <- app_assoc. reflexivity. }
  destruct (G s None [] HN HF ltac:(intros ? ? ? _ [])) as (names & H1 & H2). exists names. auto.
Qed.
Theorem assign_stale tallies t v t' v' c : t <> t' -> last_of (fun x => x = t) tallies c -> (forall k x, In (k, x) tallies -> k <> t') ->
  assign_tally_description tallies [(t, v); (t', v')] = Ok [(named (first_comment c) t, v); (named (first_comment c) t', v')].
Proof.
  intros N Hc Hn. unfold assign_tally_description. cbn [assign]. rewrite (describe_last _ None _ _ Hc). cbn [of_opt bind]. rewrite (describe_none t' _ _ Hn). cbn [of_opt bind].
  change (first_comment c ++ s2l " [" ++ str_of_Z t ++ s2l "]") with (named (first_comment c) t). change (first_comment c ++ s2l " [" ++ str_of_Z t' ++ s2l "]") with (named (first_comment c) t').
  cbn [dset]. destruct (str_eqb (named (first_comment c) t') (named (first_comment c) t)) eqn:E; [apply str_eqb_eq in E; apply named_inj in E; congruence|reflexivity].
Qed.
Theorem assign_unknown tallies t v s : (forall k x, In (k, x) tallies -> k <> t) -> assign_tally_description tallies ((t, v) :: s) = Err UnboundLocalError.
Proof. intros Hn. unfold assign_tally_description. cbn [assign]. rewrite (describe_none t _ _ Hn). reflexivity. Qed.

(** ** columns *)
Lemma fwf_spaces n : forall c s, fwf true c (repeat sp n ++ s) = fwf true (n + c) s.
Proof. induction n as [|n IH]; intros c s; [reflexivity|]. cbn [repeat app fwf]. rewrite Ascii.eqb_refl. cbn [negb andb]. rewrite IH. f_equal. lia. Qed.
Lemma fwf_chars w : forall c s, Forall (fun x => x <> sp) w -> fwf false c (w ++ s) = fwf false (c + length w) s.
Proof.
  induction w as [|x w IH]; intros c s H; [cbn; f_equal; lia|]. inversion H; subst. cbn [app fwf]. replace (Ascii.eqb x sp) with false by (symmetry; apply Ascii.eqb_neq; assumption). cbn [andb]. rewrite IH by assumption. f_equal. cbn [length]. lia.
Qed.
Lemma fwf_column n w c s : word w -> fwf false c (repeat sp (S n) ++ w ++ s) = c :: fwf false (S n + length w) s.
Proof.
  intros [Hn Hw]. cbn [repeat app fwf]. rewrite Ascii.eqb_refl. cbn [negb andb]. rewrite fwf_spaces. f_equal. destruct w as [|x w]; [congruence|]. inversion Hw; subst. cbn [app fwf].
  replace (Ascii.eqb x sp) with false by (symmetry; apply Ascii.eqb_neq; assumption). cbn [andb]. rewrite fwf_chars by assumption. f_equal. cbn [length]. lia.
Qed.
Lemma fwf_columns ws : forall c, Forall (fun p : nat * str => word (snd p)) ws ->
  fwf false c (concat (map (fun p : nat * str => repeat sp (S (fst p)) ++ snd p) ws)) = c :: map (fun p => S (fst p) + length (snd p)) ws.
Proof.
  induction ws as [|[n w] ws IH]; intros c H; [reflexivity|]. inversion H; subst. cbn [map concat fst snd] in *. rewrite <- app_assoc, fwf_column by assumption. rewrite IH by assumption. reflexivity.
Qed.
Theorem widths_ok ws l : columns ws l -> fwf_widths l = map (fun p => S (fst p) + length (snd p)) ws.
Proof. intros [-> H]. unfold fwf_widths. rewrite fwf_columns by exact H. reflexivity. Qed.
Theorem widths_first w ws l : word w -> columns ws l -> fwf_widths (w ++ l) = fwf_widths l.
Proof.
  intros Hw HC. rewrite (widths_ok _ _ HC). destruct HC as [-> H]. unfold fwf_widths. rewrite fwf_chars by apply Hw. rewrite fwf_columns by exact H. reflexivity.
Qed.

(** ** printed tables *)
Lemma quiet_no title l : quiet title l -> contains title l = false. Proof. apply contains_not. Qed.
Lemma scan_quiet title all ls : forall i st rest, Forall (quiet title) ls -> ts_skip st = None -> scan_tables title all i st (ls ++ rest) = scan_tables title all (i + length ls) st rest.
Proof.
  induction ls as [|l ls IH]; intros i st rest H Hs; [cbn; f_equal; lia|]. inversion H; subst. cbn [app scan_tables]. rewrite Hs. cbn [bind]. rewrite quiet_no by assumption. rewrite IH by assumption. f_equal. cbn [length]. lia.
Qed.
Lemma scan_body title all ls : forall i st k rest, Forall (fun l => quiet title l /\ ~ mentions "total" l) ls -> ts_skip st = Some k -> scan_tables title all i st (ls ++ rest) = scan_tables title all (i + length ls) st rest.
Proof.
  induction ls as [|l ls IH]; intros i st k rest H Hs; [cbn; f_equal; lia|]. inversion H as [|? ? (Hq & Ht) H']; subst. cbn [app scan_tables]. rewrite Hs, has_not by exact Ht. cbn [bind]. rewrite quiet_no by assumption. rewrite (IH _ _ k) by assumption. f_equal. cbn [length]. lia.
Qed.
Lemma scan_instance title all pre x rest st : Instance title x -> ts_skip st = None -> all = pre ++ lines_of_instance x ++ rest ->
  scan_tables title all (length pre) st (lines_of_instance x ++ rest) =
  scan_tables title all (length pre + length (lines_of_instance x))
    (mkTs None (ts_found st ++ [(length pre + S (length (i_before x)), (Z.of_nat (length (i_body x)) - 2)%Z)]) (fwf_widths (model_line x))) rest.
Proof.
  intros (Hb & Ht & Hl & HB & Htot & Hq) Hs Hall. unfold lines_of_instance in *. rewrite <- app_assoc. rewrite (scan_quiet title all (i_before x) _ _ _ Hb Hs).
  cbn [app scan_tables]. rewrite Hs. cbn [bind]. replace (contains title (i_title x)) with true by (symmetry; apply contains_iff; exact Ht).
  rewrite <- app_assoc. erewrite (scan_body title all (i_body x)); [|exact HB|reflexivity]. cbn [app scan_tables ts_skip].
  replace (has "total" (i_total x)) with true by (symmetry; apply has_iff; exact Htot).
  assert (E : py_nth (Z.of_nat (S (length pre + length (i_before x)) + length (i_body x)) - 2) all = Some (model_line x)).
  { unfold py_nth. destruct (Z.ltb_spec (Z.of_nat (S (length pre + length (i_before x)) + length (i_body x)) - 2) 0) as [X|_]; [lia|].
    replace (Z.to_nat (Z.of_nat (S (length pre + length (i_before x)) + length (i_body x)) - 2)) with (length pre + (length (i_before x) + S (length (i_body x) - 2))) by lia.
    rewrite Hall. rewrite nth_error_app2 by lia. replace (length pre + (length (i_before x) + S (length (i_body x) - 2)) - length pre) with (length (i_before x) + S (length (i_body x) - 2)) by lia.
    rewrite nth_error_app1 by (rewrite app_length; cbn [length]; rewrite app_length; cbn [length]; lia). rewrite nth_error_app2 by lia. replace (length (i_before x) + S (length (i_body x) - 2) - length (i_before x)) with (S (length (i_body x) - 2)) by lia.
    cbn [nth_error]. rewrite nth_error_app1 by lia. unfold model_line. apply nth_error_nth'. lia. }
  rewrite E. cbn [of_opt bind ts_found ts_widths]. rewrite (quiet_no _ _ Hq). f_equal.
  - rewrite app_length. cbn [length]. rewrite app_length. cbn [length]. lia.
  - f_equal. f_equal. f_equal. f_equal; [lia|]. lia.
Qed.
Definition plans (pre : nat) (xs : list instance) : list (nat * Z) :=
  map (fun n => (pre + first_row xs n, (Z.of_nat (length (i_body (nth n xs (mkInst [] [] [] [])))) - 2)%Z)) (seq 0 (length xs)).
Lemma plans_cons pre x xs : plans pre (x :: xs) = (pre + S (length (i_before x)), (Z.of_nat (length (i_body x)) - 2)%Z) :: plans (pre + length (lines_of_instance x)) xs.
Proof.
  unfold plans. cbn [length seq map]. f_equal. rewrite <- seq_shift, map_map. apply map_ext. intros n. cbn [nth]. f_equal. unfold first_row. cbn [firstn map concat nth_error]. rewrite app_length. lia.
Qed.
Lemma scan_instances title all xs : forall pre rest st, Forall (Instance title) xs -> ts_skip st = None -> all = pre ++ concat (map lines_of_instance xs) ++ rest ->
  scan_tables title all (length pre) st (concat (map lines_of_instance xs) ++ rest) =
  scan_tables title all (length pre + length (concat (map lines_of_instance xs)))
    (mkTs None (ts_found st ++ plans (length pre) xs) (match rev xs with x :: _ => fwf_widths (model_line x) | [] => ts_widths st end)) rest.
Proof.
  induction xs as [|x xs IH]; intros pre rest st HF Hs Hall.
  - cbn [map concat app rev length]. unfold plans. cbn [length seq map]. rewrite app_nil_r, Nat.add_0_r. destruct st as [sk fo wi]. cbn in *. subst sk. reflexivity.
  - pose proof (Forall_inv HF) as Hx. pose proof (Forall_inv_tail HF) as HF'. cbn [map concat] in *. rewrite <- app_assoc in Hall |- *.
    rewrite (scan_instance title _ pre x _ st Hx Hs Hall). rewrite <- app_length.
    rewrite IH; [|exact HF'|reflexivity|rewrite <- app_assoc; exact Hall]. cbn [ts_found ts_widths]. f_equal.
    + rewrite !app_length. lia.
    + rewrite plans_cons, <- app_assoc. cbn [app]. rewrite app_length. f_equal. cbn [rev]. destruct (rev xs) eqn:E; reflexivity.
Qed.
Theorem tables_found num xs tail n x y : Forall (Instance (s2l "table " ++ str_of_Z num)) xs -> Forall (quiet (s2l "table " ++ str_of_Z num)) tail ->
  nth_error xs n = Some x -> nth_error xs (length xs - 1) = Some y ->
  get_table_plan num (Z.of_nat n) (concat (map lines_of_instance xs) ++ tail) = Ok (first_row xs n, (Z.of_nat (length (i_body x)) - 2)%Z, fwf_widths (model_line y))
  /\ get_table_plan num (Z.of_nat n - Z.of_nat (length xs)) (concat (map lines_of_instance xs) ++ tail) = Ok (first_row xs n, (Z.of_nat (length (i_body x)) - 2)%Z, fwf_widths (model_line y)).
Proof.
  intros HF HT Hx Hy. unfold get_table_plan. set (title := s2l "table " ++ str_of_Z num) in *.
  pose proof (scan_instances title (concat (map lines_of_instance xs) ++ tail) xs [] tail (mkTs None [] []) HF eq_refl eq_refl) as E. cbn [length] in E. rewrite E. clear E.
  assert (Q : forall all i st, ts_skip st = None -> scan_tables title all i st tail = Ok st).
  { intros all i st Hs. pose proof (scan_quiet title all tail i st [] HT Hs) as E. rewrite app_nil_r in E. rewrite E. reflexivity. }
  rewrite Q by reflexivity. cbn [bind ts_found ts_widths app].
  assert (Ln : n < length xs) by (apply nth_error_Some; congruence). assert (Lp : length (plans 0 xs) = length xs) by (unfold plans; rewrite map_length, seq_length; reflexivity).
  assert (W : match rev xs with z :: _ => fwf_widths (model_line z) | [] => [] end = fwf_widths (model_line y)).
  { destruct (rev xs) as [|z r] eqn:Er; [apply (f_equal (@length _)) in Er; rewrite rev_length in Er; cbn in Er; lia|]. apply (f_equal (@rev _)) in Er. rewrite rev_involutive in Er. cbn [rev] in Er.
    rewrite Er in Hy. rewrite app_length in Hy. cbn [length] in Hy. rewrite nth_error_app2 in Hy by lia. replace (length (rev r) + 1 - 1 - length (rev r)) with 0 in Hy by lia. injection Hy as ->. reflexivity. }
  rewrite W. assert (P : nth_error (plans 0 xs) n = Some (first_row xs n, (Z.of_nat (length (i_body x)) - 2)%Z)).
  { unfold plans. erewrite map_nth_error; [|rewrite nth_error_nth' with (d := 0) by (rewrite seq_length; exact Ln); rewrite seq_nth by exact Ln; reflexivity].
    cbn [Nat.add]. rewrite (nth_error_nth xs n _ Hx). reflexivity. }
  destruct (plans 0 xs) as [|q ps] eqn:Ep; [cbn in Lp; lia|]. rewrite <- Ep in *. split.
  - unfold py_nth. destruct (Z.ltb_spec (Z.of_nat n) 0) as [X|_]; [lia|]. rewrite Nat2Z.id, P. reflexivity.
  - unfold py_nth. destruct (Z.ltb_spec (Z.of_nat n - Z.of_nat (length xs)) 0) as [_|X]; [|lia]. rewrite Lp. destruct (Z.leb_spec (- (Z.of_nat n - Z.of_nat (length xs))) (Z.of_nat (length xs))) as [_|X]; [|lia].
    replace (Z.to_nat (Z.of_nat (length xs) + (Z.of_nat n - Z.of_nat (length xs)))) with n by lia. rewrite P. reflexivity.
Qed.
Theorem no_tables num idx ls : Forall (quiet (s2l "table " ++ str_of_Z num)) ls -> get_table_plan num idx ls = Err ValueError.
Proof.
  intros H. unfold get_table_plan. pose proof (scan_quiet (s2l "table " ++ str_of_Z num) ls ls 0 (mkTs None [] []) [] H eq_refl) as E. rewrite app_nil_r in E. rewrite E. reflexivity.
Qed.
