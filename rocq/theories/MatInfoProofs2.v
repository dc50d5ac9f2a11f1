From Coq Require Import Lia Lqa Sorted.
From Verif Require Import PyBase PyLemmas PyStr PyStrLemmas PyText D1SModel D1SProofs2 LibModel LibSpec MatModel MatSpec MatProofs MatProofs2 MatProofs3 MatInfoModel MatInfoSpec MatInfoProofs.
Open Scope nat_scope.

(** ordered keys *)
Lemma str_lt_leb (a : str) : forall b, str_leb b a = false <-> str_lt a b.
Proof. induction a as [|x a IH]; intros [|y b]; cbn [str_leb str_lt]; try tauto; try (split; [intros; discriminate|tauto]).
  rewrite orb_false_iff, andb_false_iff, N.ltb_ge, IH. destruct (Ascii.eqb_spec y x) as [->|N].
  - split; [intros [_ [Q|Q]]; [discriminate|right; auto]|]. intros [Q|[_ Q]]; [lia|split; [lia|now right]].
  - assert (N_of_ascii x <> N_of_ascii y) by (intros Q; apply N; rewrite <- (ascii_N_embedding x), <- (ascii_N_embedding y), Q; reflexivity).
    split; [intros [Q _]; left; lia|]. intros [Q|[Q _]]; [split; [lia|now left]|congruence]. Qed.
Definition key_lt (a b : ekey) : Prop := fst a < fst b \/ (fst a = fst b /\ str_lt (snd a) (snd b)).
Lemma key_ltb_iff a b : key_ltb a b = true <-> key_lt a b.
Proof. unfold key_ltb, key_lt. rewrite orb_true_iff, andb_true_iff, Nat.ltb_lt, Nat.eqb_eq, negb_true_iff, str_lt_leb. reflexivity. Qed.
Lemma key_eqb_iff a b : key_eqb a b = true <-> a = b.
Proof. unfold key_eqb. rewrite andb_true_iff, Nat.eqb_eq, str_eqb_eq. destruct a, b; cbn [fst snd]. split; [intros [-> ->]; reflexivity|intros H; injection H as -> ->; auto]. Qed.
Lemma str_lt_trans (a : str) : forall b c, str_lt a b -> str_lt b c -> str_lt a c.
Proof. induction a as [|x a IH]; intros [|y b] [|z c]; cbn [str_lt]; try tauto. intros [H|[-> H]] [H'|[-> H']]; [left; lia|left; lia|left; lia|right; split; [reflexivity|eauto]]. Qed.
Lemma key_lt_trans a b c : key_lt a b -> key_lt b c -> key_lt a c.
Proof. unfold key_lt. intros [H|[H1 H2]] [H'|[H1' H2']]; [left; lia|left; lia|left; lia|right; split; [congruence|eapply str_lt_trans; eauto]]. Qed.
Lemma key_total a b : a <> b -> key_ltb a b = false -> key_lt b a.
Proof. intros N H. assert (~ key_lt a b) by (intros Q; apply key_ltb_iff in Q; congruence). unfold key_lt in *. destruct (lt_eq_lt_dec (fst a) (fst b)) as [[Q|Q]|Q]; [exfalso; apply H0; now left| |now left].
  right. split; [congruence|]. destruct (str_leb (snd a) (snd b)) eqn:L; [|now apply str_lt_leb].
  destruct (str_leb (snd b) (snd a)) eqn:L'; [|exfalso; apply H0; right; split; [exact Q|now apply str_lt_leb]].
  exfalso. apply N. destruct a as [i s], b as [j t]. cbn [fst snd] in *. rewrite Q. f_equal. clear -L L'. revert t L L'. induction s as [|x s IH]; intros [|y t]; cbn [str_leb]; try discriminate; [reflexivity|].
  rewrite !orb_true_iff, !andb_true_iff, !N.ltb_lt, !Ascii.eqb_eq. intros [A|[-> A]] [B|[B B']]; try lia; try (subst; lia). f_equal. now apply IH. Qed.
Lemma insert_key_in x l k : In k (insert_key x l) <-> k = x \/ In k l.
Proof. induction l as [|y l IH]; cbn [insert_key]; [cbn; intuition|]. destruct (key_eqb x y) eqn:E.
  - apply key_eqb_iff in E. subst. cbn. intuition.
  - destruct (key_ltb x y); cbn [In]; rewrite ?IH; intuition. Qed.
Lemma keys_in l k : In k (keys l) <-> In k l.
Proof. induction l as [|x l IH]; [reflexivity|]. unfold keys in *. cbn [fold_right]. rewrite insert_key_in, IH. cbn [In]. intuition. Qed.
Lemma insert_key_sorted x l : StronglySorted key_lt l -> StronglySorted key_lt (insert_key x l).
Proof. induction 1 as [|y l S IH F]; cbn [insert_key]; [repeat constructor|]. destruct (key_eqb x y) eqn:E; [constructor; assumption|]. destruct (key_ltb x y) eqn:L.
  - apply key_ltb_iff in L. constructor; [constructor; assumption|]. constructor; [exact L|]. rewrite Forall_forall in *. intros z Hz. eapply key_lt_trans; eauto.
  - constructor; [exact IH|]. assert (key_lt y x) by (apply key_total; [|exact L]; intros Q; apply key_eqb_iff in Q; congruence). rewrite Forall_forall in *. intros z Hz. apply insert_key_in in Hz. destruct Hz as [->|Hz]; auto. Qed.
Lemma keys_sorted l : StronglySorted key_lt (keys l).
Proof. induction l as [|x l IH]; [constructor|]. apply insert_key_sorted. exact IH. Qed.
Lemma key_lt_irrefl k : ~ key_lt k k.
Proof. intros [H|[_ H]]; [lia|]. destruct k as [i s]. cbn [snd] in H. apply (str_lt_leb s s) in H. clear -H. induction s as [|c s IH]; [discriminate|]. cbn [str_leb] in H. rewrite orb_false_iff, andb_false_iff, (proj2 (Ascii.eqb_eq c c) eq_refl) in H. destruct H as [_ [H|H]]; [discriminate|now apply IH]. Qed.
Lemma keys_nodup l : NoDup (keys l).
Proof. pose proof (keys_sorted l) as S. induction S as [|k ks S IH F]; [constructor|]. constructor; [|exact IH]. intros H. rewrite Forall_forall in F. exact (key_lt_irrefl k (F k H)). Qed.

(** the raw rows, submaterial by submaterial *)
Section Raw.
  Context {A : Type} (g : A -> list irow).
  Definition raw (b : nat) (l : list A) : list srow := concat (map (fun x => map (fun r => (fst x, r)) (g (snd x))) (combine (seq b (length l)) l)).
  Lemma raw_cons b x l : raw b (x :: l) = map (fun r => (b, r)) (g x) ++ raw (S b) l. Proof. reflexivity. Qed.
  Lemma fsum_app p a b : (fsum p (a ++ b) == fsum p a + fsum p b)%Q.
  Proof. unfold fsum. rewrite filter_app, map_app. apply qsum_app. Qed.
  Definition at_sub (b k : nat) (l : list A) : option A := if b <=? k then nth_error l (k - b) else None.
  Lemma at_cons b k x l : at_sub b k (x :: l) = if Nat.eqb b k then Some x else at_sub (S b) k l.
  Proof. unfold at_sub. destruct (Nat.eqb_spec b k) as [->|N]; [rewrite (proj2 (Nat.leb_le k k)) by lia; rewrite Nat.sub_diag; reflexivity|].
    destruct (Nat.leb_spec b k); [rewrite (proj2 (Nat.leb_le (S b) k)) by lia|rewrite (proj2 (Nat.leb_gt (S b) k)) by lia; reflexivity]. replace (k - b) with (S (k - S b)) by lia. reflexivity. Qed.
  Lemma fsum_block (b k : nat) (P : irow -> bool) rs : (fsum (fun r => Nat.eqb (fst r) k && P (snd r)) (map (fun r => (b, r)) rs) == if Nat.eqb b k then rsum P rs else 0)%Q.
  Proof. unfold fsum, rsum. induction rs as [|r rs IH]; [cbn; destruct (Nat.eqb b k); reflexivity|]. cbn [map filter fst snd]. destruct (Nat.eqb b k); cbn [andb]; [|exact IH].
    destruct (P r); cbn [map]; [|exact IH]. rewrite !qsum_cons. cbn [snd]. rewrite IH. reflexivity. Qed.
  Lemma raw_sum (k : nat) (P : irow -> bool) l : forall b,
    (fsum (fun r => Nat.eqb (fst r) k && P (snd r)) (raw b l) == match at_sub b k l with Some x => rsum P (g x) | None => 0 end)%Q.
  Proof. induction l as [|x l IH]; intros b.
    - assert (at_sub b k [] = None) as -> by (unfold at_sub; destruct (b <=? k); [destruct (k - b)|]; reflexivity). reflexivity.
    - rewrite raw_cons, fsum_app, fsum_block, IH, at_cons. destruct (Nat.eqb_spec b k) as [->|N]; [|lra]. unfold at_sub. rewrite (proj2 (Nat.leb_gt (S k) k)) by lia. lra. Qed.
  Lemma raw_all l : forall b, (fsum (fun _ => true) (raw b l) == qsum (map (fun x => rsum (fun _ => true) (g x)) l))%Q.
  Proof. induction l as [|x l IH]; intros b; [reflexivity|]. rewrite raw_cons, fsum_app, IH. cbn [map]. rewrite qsum_cons. apply Qplus_comp; [|reflexivity].
    unfold fsum, rsum. induction (g x) as [|r rs IHr]; [reflexivity|]. cbn [map filter]. rewrite !qsum_cons. cbn [snd]. rewrite IHr. reflexivity. Qed.
  Lemma raw_keys l : forall b k e, In (k, e) (map s_key (raw b l)) <-> exists x, at_sub b k l = Some x /\ In e (map i_elem (g x)).
  Proof. induction l as [|x l IH]; intros b k e.
    - split; [intros []|]. intros [x [H _]]. unfold at_sub in H. destruct (b <=? k); [destruct (k - b)|]; discriminate.
    - rewrite raw_cons, map_app, in_app_iff, IH, at_cons. rewrite map_map, in_map_iff. unfold s_key. cbn [fst snd]. destruct (Nat.eqb_spec b k) as [->|N].
      + split.
        * intros [[r [Er Hr]]|[y [Hy _]]]; [exists x; split; [reflexivity|]; injection Er as <-; now apply in_map|]. exfalso. unfold at_sub in Hy. rewrite (proj2 (Nat.leb_gt (S k) k)) in Hy by lia. discriminate.
        * intros [y [Hy He]]. injection Hy as <-. left. apply in_map_iff in He. destruct He as [r [<- Hr]]. exists r. split; [reflexivity|exact Hr].
      + split; [intros [[r [Er _]]|H]; [injection Er; intros; congruence|exact H]|intros H; now right]. Qed.
End Raw.
Lemma nth_at m k s : nth_sub m k s <-> at_sub 1 k (mt_subs m) = Some s.
Proof. unfold nth_sub, at_sub. destruct (Nat.leb_spec 1 k); [tauto|]. split; [intros [Q _]; lia|discriminate]. Qed.

(** decomposition of get_info *)
Lemma switch_copy_length t E m sa : switch_copy t E m = Ok sa -> length sa = length (mt_subs m).
Proof. unfold switch_copy, switch_subs. destruct (must_switch t (tot_fraction m)); [|intros H; now injection H as <-]. destruct (mapM (weight_of t E) (all_zaids m)) as [ws|]; [|discriminate]. cbn [bind]. intros H. apply mapM_Forall2 in H.
  induction H; [reflexivity|]. cbn [length]. now f_equal. Qed.
Lemma numbered_map {A B} (f : A -> B) l : numbered (map f l) = map (fun x => (fst x, f (snd x))) (numbered l).
Proof. unfold numbered. rewrite map_length. generalize 1. induction l as [|x l IH]; intros b; [reflexivity|]. cbn [length seq combine map]. f_equal. apply IH. Qed.
Lemma combine_fst {A B} (a : list A) : forall (b : list B), length a = length b -> map fst (combine a b) = a.
Proof. induction a as [|x a IH]; intros [|y b] H; try discriminate; [reflexivity|]. cbn [combine map fst]. f_equal. apply IH. injection H as H. exact H. Qed.
Lemma mapM_oks {A B} (f : A -> res B) l r : mapM f l = Ok r -> forall x, In x l -> exists y, f x = Ok y.
Proof. intros M. apply mapM_Forall2 in M. induction M; intros z Hz; [destruct Hz|]. destruct Hz as [->|Hz]; eauto. Qed.
Lemma mat_info_ok E b m rows el : wf_table (l_iso (m_lib E)) -> mat_info E b m = Ok (rows, el) ->
  exists sa sm, switch_copy Atom E m = Ok sa /\ switch_copy Mass E m = Ok sm /\ length sa = length (mt_subs m) /\ length sm = length (mt_subs m) /\ mt_subs m <> [] /\
   rows = concat (map (fun x => complete (fst x) (lvl E b (fst (snd x))) (lvl E b (fst (snd (snd x)))) (lvl E b (snd (snd (snd x))))) (numbered (combine (mt_subs m) (combine sa sm)))) /\
   el = elem_table (raw (lvl E b) 1 (mt_subs m)) /\
   forall s, In s (mt_subs m) -> (forall g, In g (s_elems s) -> g <> []) /\ forall z, In z (shown s) -> symbol_of E z (symb E z) /\ label_of E z (label E z).
Proof. intros W H. unfold mat_info in H. destruct (switch_copy Atom E m) as [sa|] eqn:SA; [|discriminate]. cbn [bind] in H. destruct (switch_copy Mass E m) as [sm|] eqn:SM; [|discriminate]. cbn [bind] in H.
  destruct (mapM _ _) as [ts|] eqn:M in H; [|discriminate]. cbn [bind] in H. pose proof (switch_copy_length _ _ _ _ SA) as LA. pose proof (switch_copy_length _ _ _ _ SM) as LM.
  exists sa, sm. split; [reflexivity|]. split; [reflexivity|]. split; [exact LA|]. split; [exact LM|].
  assert (T : ts = map (fun x => (lvl E b (fst x), lvl E b (fst (snd x)), lvl E b (snd (snd x)))) (combine (mt_subs m) (combine sa sm))).
  { refine (mapM_map _ _ _ _ _ M). intros [s [a c]] y _ Hy. cbn [fst snd] in *. destruct (sub_info E s) as [t|] eqn:S1; [|discriminate]. destruct (sub_info E a) as [ta|] eqn:S2; [|discriminate]. destruct (sub_info E c) as [tc|] eqn:S3; [|discriminate]. cbn [bind] in Hy.
    destruct (sub_info_ok E s t W S1) as [R1 [R2 _]], (sub_info_ok E a ta W S2) as [R3 [R4 _]], (sub_info_ok E c tc W S3) as [R5 [R6 _]].
    assert (forall t s, rows_of true t = map (zrow E) (shown s) -> rows_of false t = map (grow E) (s_elems s) -> rows_of b t = lvl E b s) as Q by (intros t0 s0 Q1 Q2; destruct b; assumption).
    rewrite (Q t s R1 R2), (Q ta a R3 R4), (Q tc c R5 R6) in Hy. symmetry. exact (f_equal (fun r => match r with Ok x => x | Err _ => ([], [], []) end) Hy). }
  assert (L : length (mt_subs m) = length (combine sa sm)) by (rewrite combine_length; lia).
  split.
  { intros Q. rewrite Q in T. cbn [combine map] in T. rewrite T in H. discriminate. }
  assert (R : rows = concat (map (fun x => complete (fst x) (fst (fst (snd x))) (snd (fst (snd x))) (snd (snd x))) (numbered ts)) /\
              el = elem_table (concat (map (fun x => map (fun r => (fst x, r)) (fst (fst (snd x)))) (numbered ts)))).
  { destruct ts as [|t0 ts']; [discriminate|]. injection H as H1 H2. split; symmetry; assumption. }
  destruct R as [R1 R2]. split; [|split].
  - rewrite R1, T, numbered_map, map_map. reflexivity.
  - rewrite R2, T, numbered_map, map_map. cbn [fst snd]. unfold raw. fold (numbered (mt_subs m)).
    assert (N : numbered (mt_subs m) = map (fun x => (fst x, fst (snd x))) (numbered (combine (mt_subs m) (combine sa sm)))) by (rewrite <- numbered_map, combine_fst by exact L; reflexivity).
    rewrite N, map_map. reflexivity.
  - intros s Hs. assert (exists x, In (s, x) (combine (mt_subs m) (combine sa sm))) as [x Hx].
    { clear -Hs L. revert L. generalize (combine sa sm). induction (mt_subs m) as [|y l IH]; intros [|z r] L; try discriminate; [destruct Hs|]. destruct Hs as [->|Hs]; [exists z; now left|]. destruct (IH Hs r) as [x Hx]; [now injection L|]. exists x. now right. }
    destruct (mapM_oks _ _ _ M _ Hx) as [y Hy]. cbn [fst snd] in Hy. destruct (sub_info E s) as [t|] eqn:S1; [|discriminate]. destruct (sub_info_ok E s t W S1) as [_ [_ Q]]. exact Q. Qed.
