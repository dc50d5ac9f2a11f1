From Coq Require Import Lia ZArith.
From Verif Require Import PyBase PyLemmas PyStr PyStrLemmas PyText D1SModel D1SSpec D1SProofs2 WWTextModel LibModel LibSpec LibProofs LibProofs2 LibProofs3 MatModel MatSpec MatProofs MatProofs2 MatProofs3 PathsModel PathsSpec PathsProofs PathsProps FlowSpec FlowProofs.
Open Scope nat_scope.

Lemma str_of_N_len n k : (n < 10 ^ N.of_nat k)%N -> 1 <= k -> length (str_of_N n) <= k.
Proof. intros H K. destruct (N.eq_0_gt_0_cases n) as [->|P0]; [cbn; lia|]. unfold str_of_N. rewrite ndig_length. destruct (dlen_spec n) as [_ [H1 H2]]. destruct (le_lt_dec (dlen n) k) as [L|L]; [exact L|]. exfalso. specialize (H2 P0).
  assert (10 ^ N.of_nat k <= 10 ^ (N.of_nat (dlen n) - 1))%N by (apply N.pow_le_mono_r; lia). lia. Qed.
Lemma str_of_Z_len z : (-99999 <= z <= 999999)%Z -> length (str_of_Z z) < 7.
Proof. intros H. destruct z as [|p|p].
  - cbn. lia.
  - unfold str_of_Z. pose proof (str_of_N_len (Z.to_N (Z.pos p)) 6) as L. change (10 ^ N.of_nat 6)%N with 1000000%N in L. assert (length (str_of_N (Z.to_N (Z.pos p))) <= 6) by (apply L; lia). lia.
  - unfold str_of_Z. pose proof (str_of_N_len (N.pos p) 5) as L. change (10 ^ N.of_nat 5)%N with 100000%N in L. cbn [length]. assert (length (str_of_N (N.pos p)) <= 5) by (apply L; lia). lia. Qed.
Lemma digits_no_ws s : digits s -> no_ws s.
Proof. unfold digits, no_ws. apply Forall_impl. intros c H. destruct c as [[] [] [] [] [] [] [] []]; cbn in *; congruence. Qed.
Lemma letters_no_ws s : Forall (fun c => is_letter c = true) s -> no_ws s.
Proof. unfold no_ws. apply Forall_impl. intros c H. destruct c as [[] [] [] [] [] [] [] []]; cbn in *; congruence. Qed.

Lemma reac_loop_rows t l : forall acc r, reac_loop t acc l = Ok r -> forall m d, In (m, d) r -> In (m, d) acc \/ exists row, In row l /\ m = str_of_Z (a_mt row) /\ daughter_num t (a_daughter row) = Ok d.
Proof. induction l as [|x l IH]; intros acc r H m d I; cbn [reac_loop] in H; [injection H as <-; now left|].
  destruct (daughter_num t (a_daughter x)) as [d0|e0] eqn:E; [|destruct e0; try discriminate; injection H as <-; now left].
  destruct (IH _ _ H m d I) as [J|(row & J & K)]; [|right; exists row; split; [now right|exact K]]. apply in_app_or in J as [J|[J|[]]]; [now left|]. injection J as <- <-. right. exists x. split; [now left|auto]. Qed.
Lemma find_first {A} (p : A -> bool) l x : In x l -> p x = true -> exists y, find p l = Some y.
Proof. intros I P. destruct (find p l) as [y|] eqn:F; [eauto|]. pose proof (find_none p l F x I). congruence. Qed.
Lemma word_of t r : wf_table t -> In r t -> word (r_E r).
Proof. intros [H _] I. now apply H. Qed.
Lemma row_E_W2 t r : In r t -> exists z, W2 t z (r_E r) /\ exists q, In q t /\ r_Z q = z.
Proof. intros I. unfold W2, row_by_E. destruct (find_first (fun q => str_eqb (r_E q) (r_E r)) t r I (str_eqb_refl _)) as [y Y]. exists (r_Z y). split; [exists y; auto|]. exists y. split; [|reflexivity]. now apply find_some in Y. Qed.
Lemma row_Z_W1 t q : In q t -> exists r, W1 t (r_Z q) (r_E r) /\ In r t.
Proof. intros I. unfold W1, row_by_Z. destruct (find_first (fun r => Z.eqb (Z.of_N (r_Z r)) (Z.of_N (r_Z q))) t q I (Z.eqb_refl _)) as [y Y]. exists y. split; [exists y; auto|]. now apply find_some in Y. Qed.

Lemma formula_len (t : list isorow) r a : In r t -> (forall r, In r t -> (r_Z r < 1000)%N /\ length (r_E r) <= 3) -> wf_table t -> (a < 1000)%N -> token (formula (r_E r) a) /\ length (formula (r_E r) a) <= 7.
Proof. intros I B W H. destruct (B r I) as [_ L]. destruct (word_of t r W I) as [Ne Le]. pose proof (str_of_N_len a 3 H ltac:(lia)) as LA. unfold formula, token. destruct (a =? 0)%N.
  - split; [split; [exact Ne|exact (letters_no_ws _ Le)]|lia].
  - split; [split|].
    + destruct (r_E r); [now elim Ne|discriminate].
    + apply Forall_app. split; [exact (letters_no_ws _ Le)|]. apply Forall_app. split; [repeat constructor|]. exact (digits_no_ws _ (str_of_N_digits a)).
    + rewrite !app_length. cbn [length s2l]. change (length (s2l "-")) with 1. lia. Qed.

Lemma zaid_parent t n a s nm f : wf_table t -> zaid_text n a s -> get_zaidname t s = Ok (nm, f) -> exists r, In r t /\ r_Z r = n /\ f = formula (r_E r) a.
Proof. intros W T G. assert (R : exists r, row_by_Z t (Z.of_N n) = Some r).
  { pose proof T as T'. apply zaid_text_fmt in T' as [Ha ->]. unfold get_zaidname in G.
    assert (Dg : digits (str_of_N n ++ fmt03 a)) by (apply Forall_app; split; [apply str_of_N_digits|apply fmt03_digits]).
    rewrite MatProofs3.before_dot_no in G by (now apply MatProofs2.digits_no_dot). destruct (but3_app (str_of_N n) (fmt03 a) (fmt03_len a Ha)) as [B1 B2]. rewrite B1, parse_int_N in G. cbn [bind] in G.
    destruct (row_by_Z t (Z.of_N n)) as [r|]; [eauto|discriminate G]. }
  destruct R as [r R]. assert (Ir : In r t /\ r_Z r = n). { unfold row_by_Z in R. apply find_some in R as [I E]. apply Z.eqb_eq in E. split; [exact I|lia]. }
  destruct (get_zaidname_ok t n (r_E r) a s) as [nm' G']; [exists r; auto|exact T|]. rewrite G in G'. injection G' as _ ->. exists r. tauto. Qed.

Lemma zaid_text_token n a s : zaid_text n a s -> (n < 1000)%N -> token s /\ length s <= 6.
Proof. intros T H. apply zaid_text_fmt in T as [Ha ->]. pose proof (str_of_N_len n 3 H ltac:(lia)). pose proof (fmt03_len a Ha). split; [split|].
  - intros Q. apply app_eq_nil in Q as [Q _]. now apply str_of_N_ne in Q.
  - apply Forall_app. split; [exact (digits_no_ws _ (str_of_N_digits n))|exact (digits_no_ws _ (fmt03_digits a))].
  - rewrite app_length. lia. Qed.

Lemma generated_carryable D lib f ms rs : tidy D lib -> numbered ms -> token lib -> length lib <= 5 -> get_reaction_file D lib (Some f) ms = Ok rs ->
  Forall carryable_reac rs /\ Forall (fun r => exists c, x_comment r = Some c) rs.
Proof. intros (WT & SH & RO) NU TL LL H. destruct (C37_reaction_file_exact _ _ _ _ _ H) as (ts & _ & _ & IN & F).
  assert (G : Forall (fun t => material_path D lib ms (fst (fst t)) (snd (fst t)) (snd t)) ts) by (apply Forall_forall; intros [[p mt] d] I; apply IN in I; apply I). clear IN H.
  induction F as [|[[p mt] d] x ts rs (A & B & C & c & E & PC) _ IH]; [split; constructor|]. inversion G as [|? ? MP G']; subst. destruct (IH G') as [IH1 IH2]. cbn [fst snd] in *. split; [|constructor; [eauto|exact IH2]]. constructor; [|exact IH1]. clear IH IH1 IH2 G G'.
  destruct MP as (m & s & z & l & Im & Is & Iz & Ep & GR & Il). destruct (NU z) as (n & a & T); [exists m, s; auto|]. rewrite Ep in T. subst p.
  unfold get_reactions in GR. destruct (dget str_eqb lib (a_sheets D)) as [df|] eqn:Dg; [|injection GR as <-; destruct Il]. apply dget_some_in in Dg; [|exact str_eqb_eq].
  destruct (get_zaidname (a_iso D) (z_elem z ++ z_iso z)) as [[nm fm]|e0] eqn:GZ; [|destruct e0; try discriminate; injection GR as <-; destruct Il].
  destruct (zaid_parent _ _ _ _ _ _ WT T GZ) as (rp & Ip & Zp & Ef). destruct (reac_loop_rows _ _ _ _ GR _ _ Il) as [[]|(row & Irow & Em & Ed)]. apply filter_In in Irow as [Irow _].
  destruct (RO df row Dg Irow) as (Bm & r0 & a0 & b & I0 & Da & Ha). rewrite Da in Ed. destruct (row_E_W2 _ _ I0) as (z0 & W20 & q & Iq & Zq). rewrite (daughter_num_ok _ z0 (r_E r0) a0 b W20 (word_of _ _ WT I0) ltac:(lia)) in Ed. injection Ed as Ed.
  assert (Ta : zaid_text z0 a0 (str_of_N z0 ++ fmt03 a0)) by (apply zaid_text_fmt; split; [lia|reflexivity]). assert (Z0 : (z0 < 1000)%N) by (rewrite <- Zq; now apply SH). destruct (zaid_text_token _ _ _ Ta Z0) as [TKa LNa].
  assert (Zn : (n < 1000)%N) by (rewrite <- Zp; now apply SH). destruct (zaid_text_token _ _ _ T Zn) as [TKp LNp].
  unfold carryable_reac. rewrite A, B, C, E. split.
  { destruct TKp as [N1 N2], TL as [M1 M2]. split; [destruct (z_elem z ++ z_iso z); [now elim N1|discriminate]|]. apply Forall_app. split; [exact N2|]. constructor; [reflexivity|exact M2]. }
  split; [rewrite app_length; cbn [length]; lia|]. split; [eauto|]. split; [rewrite Em; now apply str_of_Z_len|]. rewrite app_assoc in Ed.
  assert (TD : token d /\ length d < 12).
  { rewrite <- Ed. destruct b; [|rewrite app_nil_r; split; [exact TKa|lia]]. destruct TKa as [N1 N2]. split; [split|].
    - destruct (str_of_N z0 ++ fmt03 a0); [now elim N1|discriminate].
    - apply Forall_app. split; [exact N2|repeat constructor].
    - rewrite app_length. cbn [length s2l list_ascii_of_string]. clear - LNa. lia. }
  destruct TD as [TD LD]. split; [exact TD|]. split; [exact LD|].
  assert (PP : get_zaidname (a_iso D) (x_parent x) = Ok (nm, fm)).
  { rewrite A, <- GZ. unfold get_zaidname. assert (X : ~ In dot (z_elem z ++ z_iso z)). { pose proof T as T'. apply zaid_text_clean in T'. apply T'. } rewrite before_dot_dot, MatProofs3.before_dot_no by exact X. reflexivity. }
  destruct (row_Z_W1 _ _ Iq) as (r2 & W1d & I2). rewrite Zq in W1d. destruct (get_zaidname_ok _ _ _ _ _ W1d Ta) as [nd Nd].
  pose proof T as T'. apply zaid_text_fmt in T' as [Han _]. destruct (formula_len _ rp a Ip SH WT Han) as [F1 F2]. destruct (formula_len _ r2 a0 I2 SH WT ltac:(lia)) as [F3 F4].
  unfold path_comment in PC. rewrite PP in PC. cbn [bind] in PC. rewrite C, <- Ed in PC. rewrite <- Ef in F1, F2.
  assert (FD : exists df0, c = fm ++ s2l " -> " ++ df0 /\ token df0 /\ length df0 <= 8).
  { destruct b.
    - destruct (but3_app (str_of_N z0 ++ fmt03 a0) (s2l "900") eq_refl) as [B1 B2]. change (s2l "900") with ["9"; "0"; "0"]%char in B1, B2, PC. rewrite B2, str_eqb_refl, B1, Nd in PC. cbn [bind] in PC. injection PC as <-. eexists. split; [reflexivity|]. split; [split|].
      + destruct F3 as [N1 _]. destruct (formula (r_E r2) a0); [now elim N1|discriminate].
      + apply Forall_app. split; [apply F3|repeat constructor].
      + rewrite app_length. cbn [length s2l list_ascii_of_string]. lia.
    - rewrite app_nil_r in PC. assert (L : str_eqb (last3 (str_of_N z0 ++ fmt03 a0)) (s2l "900") = false).
      { destruct (str_eqb (last3 (str_of_N z0 ++ fmt03 a0)) (s2l "900")) eqn:Q; [|reflexivity]. exfalso. apply str_eqb_eq in Q. destruct (zaid_text_parts _ _ _ Ta) as [_ L]. rewrite L in Q. pose proof (parse_int_fmt03 a0) as P. rewrite Q in P. cbn in P. injection P as P. lia. }
      rewrite L, Nd in PC. injection PC as <-. eexists. split; [reflexivity|]. split; [exact F3|lia]. }
  destruct FD as (df0 & -> & FD1 & FD2). split.
  - exists [fm; s2l "->"; df0]. split; [repeat constructor; try exact F1; try exact FD1; try apply F1; try apply FD1; try discriminate|]. reflexivity.
  - rewrite !app_length. change (length (s2l " -> ")) with 4. lia. Qed.
