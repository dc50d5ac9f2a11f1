(** Proofs for C33: the text of the edited card. *)
From Coq Require Import Lia ZArith.
From Verif Require Import PyBase PyLemmas PyStr PyStrLemmas PyText D1SProofs2 WWTextProofs LibModel MatModel MatProofs MatProofs2 MatProofs4 InpModel InpSpec InpGeomSpec InpProofs InpProofs2 InpProofs6 InpGeomProofs.
Open Scope nat_scope.

Lemma split_aux_app a : forall cur c b, is_ws c = true -> split_aux cur (a ++ c :: b) = split_aux cur a ++ split b.
Proof. induction a as [|x a IH]; intros cur c b W; cbn [app split_aux].
  - rewrite W. destruct cur; reflexivity.
  - destruct (is_ws x); [destruct cur|]; rewrite IH by exact W; reflexivity. Qed.
Lemma split_app_ws a c b : is_ws c = true -> split (a ++ c :: b) = split a ++ split b. Proof. apply split_aux_app. Qed.

Fixpoint fillw (ws : list tline) (vs : list Z) (hs : list str) : res (list str * (list Z * list str)) :=
  match ws with
  | [] => Ok ([], (vs, hs))
  | w :: ws' => do '(s, (vs', hs')) <- fill w vs hs; do '(r, q) <- fillw ws' vs' hs'; Ok (s :: r, q)
  end.
Lemma fillw_lines ws : forall vs hs, fill_lines ws vs hs = match fillw ws vs hs with Ok (l, _) => Ok l | Err e => Err e end.
Proof. induction ws as [|w ws IH]; intros vs hs; cbn [fill_lines fillw]; [reflexivity|]. destruct (fill w vs hs) as [[s [v1 h1]]|]; cbn [bind]; [|reflexivity]. rewrite IH. destruct (fillw ws v1 h1) as [[l q]|]; reflexivity. Qed.
Lemma fillw_app a : forall b vs hs, fillw (a ++ b) vs hs = do '(l1, (v1, h1)) <- fillw a vs hs; do '(l2, q) <- fillw b v1 h1; Ok (l1 ++ l2, q).
Proof. induction a as [|w a IH]; intros b vs hs; cbn [app fillw bind]; [destruct (fillw b vs hs) as [[l q]|]; reflexivity|].
  destruct (fill w vs hs) as [[s [v1 h1]]|]; cbn [bind]; [|reflexivity]. rewrite IH. destruct (fillw a v1 h1) as [[l1 [v2 h2]]|]; cbn [bind]; [|reflexivity]. destruct (fillw b v2 h2) as [[l2 q]|]; reflexivity. Qed.
(** a row and its words print the same words *)
Definition agree (x : res (str * (list Z * list str))) (y : res (list str * (list Z * list str))) : Prop :=
  match x, y with Ok (s, r), Ok (l, r') => r = r' /\ split s = words l | Err e, Err e' => e = e' | _, _ => False end.
Lemma row_words s : forall cur vs hs, agree (fill (rev cur ++ s) vs hs) (fillw (tsplit_aux cur s) vs hs).
Proof. induction s as [|i s IH]; intros cur vs hs; cbn [tsplit_aux].
  - rewrite app_nil_r. destruct cur as [|x cur]; [split; reflexivity|]. cbn [fillw]. destruct (fill (rev (x :: cur)) vs hs) as [[t [v1 h1]]|]; cbn [bind agree]; [|reflexivity]. split; [reflexivity|]. unfold words. cbn. now rewrite app_nil_r.
  - destruct (is_ws_t i) eqn:W.
    + destruct i as [c|w]; [|discriminate W]. cbn in W. assert (T : Ascii.eqb c tilde = false). { destruct (Ascii.eqb_spec c tilde) as [->|]; [discriminate W|reflexivity]. }
      assert (F : forall vs hs, fill (Ch c :: s) vs hs = do '(t, r) <- fill s vs hs; Ok (c :: t, r)) by (intros; cbn [fill]; now rewrite T).
      destruct cur as [|x cur].
      * cbn [rev app]. rewrite F. specialize (IH [] vs hs). cbn [rev app] in IH. destruct (fill s vs hs) as [[t r]|], (fillw (tsplit_aux [] s) vs hs) as [[l q]|]; cbn [bind agree] in *; try exact IH. destruct IH as [-> E]. split; [reflexivity|]. rewrite <- E. exact (split_app_ws [] c t W).
      * rewrite fill_app. cbn [fillw]. destruct (fill (rev (x :: cur)) vs hs) as [[t [v1 h1]]|]; cbn [bind agree]; [|reflexivity]. rewrite F. specialize (IH [] v1 h1). cbn [rev app] in IH.
        destruct (fill s v1 h1) as [[t2 r]|], (fillw (tsplit_aux [] s) v1 h1) as [[l q]|]; cbn [bind agree] in *; try exact IH. destruct IH as [-> E]. split; [reflexivity|]. rewrite split_app_ws by exact W. rewrite E. reflexivity.
    + specialize (IH (i :: cur) vs hs). cbn [rev] in IH. rewrite <- app_assoc in IH. exact IH. Qed.
Lemma rows_words rows : forall vs hs,
  match fillw rows vs hs, fillw (concat (map tsplit rows)) vs hs with
  | Ok (l, r), Ok (l', r') => r = r' /\ words l = words l' | Err e, Err e' => e = e' | _, _ => False end.
Proof. induction rows as [|row rows IH]; intros vs hs; cbn [map concat fillw]; [split; reflexivity|]. rewrite fillw_app. pose proof (row_words row [] vs hs) as H. cbn [rev app] in H. change (tsplit_aux [] row) with (tsplit row) in H.
  destruct (fill row vs hs) as [[s [v1 h1]]|], (fillw (tsplit row) vs hs) as [[l [v2 h2]]|]; cbn [agree bind] in *; try exact H; try contradiction. destruct H as [H E]. injection H as <- <-.
  specialize (IH v1 h1). destruct (fillw rows v1 h1) as [[a q]|], (fillw (concat (map tsplit rows)) v1 h1) as [[b q']|]; cbn [bind] in *; try exact IH. destruct IH as [-> E2]. split; [reflexivity|]. unfold words in *. cbn [map concat]. rewrite map_app, concat_app. congruence. Qed.
(** the text of a card through the words of its template *)
Lemma text_words c ls : card_text c = Ok ls -> exists l r, fillw (concat (map tsplit (c_input c))) (map fst (c_values c)) (c_hidden c) = Ok (l, r) /\ words ls = words l.
Proof. unfold card_text. rewrite fillw_lines. pose proof (rows_words (c_input c) (map fst (c_values c)) (c_hidden c)) as H. destruct (fillw (c_input c) _ _) as [[a q]|]; [|discriminate]. intros E. injection E as <-. destruct (fillw (concat _) _ _) as [[l r]|]; [|contradiction]. exists l, r. tauto. Qed.
Lemma words_text c l r : fillw (concat (map tsplit (c_input c))) (map fst (c_values c)) (c_hidden c) = Ok (l, r) -> exists ls, card_text c = Ok ls /\ words ls = words l.
Proof. unfold card_text. rewrite fillw_lines. pose proof (rows_words (c_input c) (map fst (c_values c)) (c_hidden c)) as H. intros E. rewrite E in H. destruct (fillw (c_input c) _ _) as [[a q]|]; [|contradiction]. exists a. tauto. Qed.

(** a geometry word: no letter, no hidden text *)
Lemma fill_plain w : forall va vb hs s r, no_tilde w -> length va = holes w -> fill w (va ++ vb) hs = Ok (s, r) ->
  r = (vb, hs) /\ forall vb' hs', fill w (va ++ vb') hs' = Ok (s, (vb', hs')).
Proof. induction w as [|[c|h] w IH]; intros va vb hs s r NT L H.
  - destruct va; [|discriminate L]. cbn in *. injection H as <- <-. auto.
  - assert (T : Ascii.eqb c tilde = false). { destruct (Ascii.eqb_spec c tilde) as [->|]; [|reflexivity]. elim NT. left. reflexivity. }
    cbn [fill] in *. rewrite T in *. destruct (fill w (va ++ vb) hs) as [[t q]|] eqn:F; cbn [bind] in H; [|discriminate]. injection H as <- <-.
    destruct (IH va vb hs t q) as [-> G]; [intros Q; apply NT; right; exact Q|exact L|exact F|]. split; [reflexivity|]. intros vb' hs'. now rewrite G.
  - destruct va as [|v va]; [discriminate L|]. cbn [fill app] in *. destruct (fill w (va ++ vb) hs) as [[t q]|] eqn:F; cbn [bind] in H; [|discriminate]. injection H as <- <-.
    destruct (IH va vb hs t q) as [-> G]; [intros Q; apply NT; right; exact Q|now injection L|exact F|]. split; [reflexivity|]. intros vb' hs'. now rewrite G. Qed.
Lemma hole_count_cons w ws : hole_count (w :: ws) = holes w + hole_count ws.
Proof. unfold hole_count, holes. cbn [concat]. now rewrite filter_app, app_length. Qed.
Lemma fillw_plain ws : forall va vb hs l r, Forall no_tilde ws -> length va = hole_count ws -> fillw ws (va ++ vb) hs = Ok (l, r) ->
  r = (vb, hs) /\ forall vb' hs', fillw ws (va ++ vb') hs' = Ok (l, (vb', hs')).
Proof. induction ws as [|w ws IH]; intros va vb hs l r NT L H.
  - destruct va; [|discriminate L]. cbn in *. injection H as <- <-. auto.
  - inversion NT as [|? ? N1 N2]; subst. rewrite hole_count_cons in L. rewrite <- (firstn_skipn (holes w) va) in H, L |- *. set (v1 := firstn (holes w) va) in *. set (v2 := skipn (holes w) va) in *.
    assert (L1 : length v1 = holes w). { unfold v1. rewrite firstn_length. unfold v1, v2 in L. rewrite firstn_skipn in L. lia. }
    rewrite app_length in L. rewrite <- app_assoc in H. cbn [fillw] in H. destruct (fill w (v1 ++ v2 ++ vb) hs) as [[s q]|] eqn:F; cbn [bind] in H; [|discriminate]. destruct (fill_plain _ _ _ _ _ _ N1 L1 F) as [-> G].
    destruct (fillw ws (v2 ++ vb) hs) as [[l2 q2]|] eqn:F2; cbn [bind] in H; [|discriminate]. injection H as <- <-. destruct (IH v2 vb hs l2 q2 N2) as [-> G2]; [lia|exact F2|].
    split; [reflexivity|]. intros vb' hs'. cbn [fillw]. rewrite <- app_assoc, G. cbn [bind]. rewrite G2. reflexivity. Qed.
Lemma digit_not_alpha c : is_digit c = true -> is_alpha c = false.
Proof. unfold is_digit, is_alpha. intros H. apply andb_prop in H as [A B]. apply N.leb_le in A, B. apply orb_false_iff. split; apply andb_false_iff; left; apply N.leb_gt; lia. Qed.
Lemma str_of_Z_no_letter z : has_letter (str_of_Z z) = false.
Proof. assert (G : forall n, has_letter (str_of_N n) = false). { intros n. pose proof (str_of_N_digits n) as D. unfold has_letter. induction D as [|c s H _ IH]; [reflexivity|]. cbn [existsb]. now rewrite digit_not_alpha. }
  unfold str_of_Z. destruct z; apply G. Qed.
Lemma no_letter_app a b : has_letter (a ++ b) = has_letter a || has_letter b. Proof. apply existsb_app. Qed.
Lemma fill_no_letter w : forall vs hs s r, has_alpha w = false -> no_tilde w -> fill w vs hs = Ok (s, r) -> has_letter s = false.
Proof. induction w as [|[c|h] w IH]; intros vs hs s r A NT H.
  - injection H as <- <-. reflexivity.
  - cbn [has_alpha existsb] in A. apply orb_false_elim in A as [A1 A2]. assert (T : Ascii.eqb c tilde = false). { destruct (Ascii.eqb_spec c tilde) as [->|]; [|reflexivity]. elim NT. left. reflexivity. }
    cbn [fill] in H. rewrite T in H. destruct (fill w vs hs) as [[t q]|] eqn:F; cbn [bind] in H; [|discriminate]. injection H as <- <-. unfold has_letter. cbn [existsb]. rewrite A1. apply (IH vs hs t q); [exact A2|intros Q; apply NT; right; exact Q|exact F].
  - cbn [fill] in H. destruct vs as [|v vs]; [discriminate|]. destruct (fill w vs hs) as [[t q]|] eqn:F; cbn [bind] in H; [|discriminate]. injection H as <- <-.
    rewrite no_letter_app. unfold ljust. rewrite no_letter_app, str_of_Z_no_letter. cbn [orb]. rewrite (IH vs hs t q A); [|intros Q; apply NT; right; exact Q|exact F]. rewrite orb_false_r. clear. induction (h - length (str_of_Z v)) as [|n IHn]; [reflexivity|exact IHn]. Qed.
Lemma split_aux_letters s : forall cur, has_letter cur = false -> has_letter s = false -> Forall (fun w => has_letter w = false) (split_aux cur s).
Proof. assert (R : forall l, has_letter (rev l) = has_letter l). { intros l. unfold has_letter. induction l as [|x l IH]; [reflexivity|]. cbn [rev existsb]. rewrite existsb_app. cbn [existsb]. rewrite IH, orb_false_r. apply orb_comm. }
  induction s as [|c s IH]; intros cur C S; cbn [split_aux].
  - destruct cur; constructor; [|constructor]. now rewrite R.
  - unfold has_letter in S. cbn [existsb] in S. apply orb_false_elim in S as [S1 S2]. destruct (is_ws c); [destruct cur; [now apply IH|constructor; [now rewrite R|now apply IH]]|]. apply IH; [|exact S2]. unfold has_letter. cbn [existsb]. rewrite S1. exact C. Qed.
Lemma fillw_no_letter ws : forall vs hs l r, Forall (fun w => has_alpha w = false /\ no_tilde w) ws -> fillw ws vs hs = Ok (l, r) -> Forall (fun w => has_letter w = false) (words l).
Proof. induction ws as [|w ws IH]; intros vs hs l r F H; cbn [fillw] in H; [injection H as <- <-; constructor|]. inversion F as [|? ? [F1 F2] F3]; subst.
  destruct (fill w vs hs) as [[s [v1 h1]]|] eqn:E; cbn [bind] in H; [|discriminate]. destruct (fillw ws v1 h1) as [[l2 q]|] eqn:E2; cbn [bind] in H; [|discriminate]. injection H as <- <-.
  unfold words. cbn [map concat]. apply Forall_app. split; [|eapply IH; eassumption]. apply split_aux_letters; [reflexivity|]. eapply fill_no_letter; eassumption. Qed.
Lemma before_plain a b : Forall (fun w => has_letter w = false) a -> before_keywords (a ++ b) = a ++ before_keywords b.
Proof. induction 1 as [|w a H _ IH]; [reflexivity|]. cbn [app before_keywords]. now rewrite H, IH. Qed.
(** the first word printed by a keyword has a letter *)
Lemma alpha_not_ws c : is_alpha c = true -> is_ws c = false /\ Ascii.eqb c tilde = false.
Proof. destruct c as [b0 b1 b2 b3 b4 b5 b6 b7]. destruct b0, b1, b2, b3, b4, b5, b6, b7; vm_compute; intuition discriminate. Qed.
Lemma split_first a s : is_ws a = false -> exists t r, split (a :: s) = (a :: t) :: r /\ (match s with b :: _ => is_ws b = false -> In b t | [] => True end).
Proof. intros W. unfold split. cbn [split_aux]. rewrite W. assert (G : forall s0 cur, cur <> [] -> exists t r, split_aux cur s0 = (rev cur ++ t) :: r).
  { induction s0 as [|c s0 IH]; intros cur N; cbn [split_aux]; [destruct cur; [now elim N|]; exists [], []; now rewrite app_nil_r|]. destruct (is_ws c); [destruct cur; [now elim N|]; exists []; eexists; now rewrite app_nil_r|].
    destruct (IH (c :: cur)) as [t [r E]]; [discriminate|]. exists (c :: t), r. rewrite E. cbn [rev]. now rewrite <- app_assoc. }
  destruct s as [|b s]; [exists [], []; auto|]. destruct (is_ws b) eqn:B.
  - destruct (G (b :: s) [a]) as [t [r E]]; [discriminate|]. exists t, r. split; [exact E|discriminate].
  - cbn [split_aux]. rewrite B. destruct (G s [b; a]) as [t [r E]]; [discriminate|]. exists (b :: t), r. split; [exact E|]. intros _. left. reflexivity. Qed.
Lemma keyword_stops w ws vs hs l r : keyword w -> fillw (w :: ws) vs hs = Ok (l, r) -> before_keywords (words l) = [].
Proof. intros K H. cbn [fillw] in H. destruct (fill w vs hs) as [[s [v1 h1]]|] eqn:F; cbn [bind] in H; [|discriminate]. destruct (fillw ws v1 h1) as [[l2 q]|]; cbn [bind] in H; [|discriminate]. injection H as <- <-.
  unfold words. cbn [map concat]. destruct w as [|[a|h] w]; cbn [keyword] in K; try contradiction. destruct K as [K|[-> K]].
  - pose proof (alpha_not_ws a K) as [W T]. cbn [fill] in F. rewrite T in F. destruct (fill w vs hs) as [[t q']|]; cbn [bind] in F; [|discriminate]. injection F as <- _.
    destruct (split_first a t W) as [t' [r' [-> _]]]. cbn [app before_keywords]. unfold has_letter at 1. cbn [existsb]. now rewrite K.
  - destruct w as [|[b|h] w]; try contradiction. pose proof (alpha_not_ws b K) as [W T]. cbn [fill] in F. change (Ascii.eqb "*" tilde) with false in F. cbv iota in F. rewrite T in F. destruct (fill w vs hs) as [[t q']|]; cbn [bind] in F; [|discriminate]. injection F as <- _.
    destruct (split_first "*"%char (b :: t) eq_refl) as [t' [r' [-> I]]]. cbn [app before_keywords]. assert (L : has_letter ("*"%char :: t') = true). { unfold has_letter. cbn [existsb]. apply orb_true_iff. right. apply existsb_exists. exists b. split; [now apply I|exact K]. } now rewrite L. Qed.

(** the header *)
Lemma split_ljust w z : split (ljust w (str_of_Z z)) = [str_of_Z z].
Proof. unfold ljust. pose proof (str_of_Z_no_ws z) as [W N]. destruct (w - length (str_of_Z z)) as [|k]; cbn [repeat].
  - rewrite app_nil_r. now apply split_tok_end.
  - rewrite split_tok_ws by auto. f_equal. clear. induction k as [|k IH]; [reflexivity|exact IH]. Qed.
Definition hd_text (n m : Z) (hs : list str) : list str :=
  str_of_Z n :: str_of_Z m :: (if (m =? 0)%Z then [] else match hs with d :: _ => [d] | [] => [] end).
Lemma geometry_hd n m hs gw kw : (m <> 0%Z -> hs <> []) -> Forall (fun w => has_letter w = false) gw -> before_keywords kw = [] ->
  geometry_words (hd_text n m hs ++ gw ++ kw) = gw.
Proof. intros D G K. unfold geometry_words, hd_text. cbn [app]. rewrite parse_str_of_Z. destruct (Z.eqb_spec m 0) as [->|N].
  - cbn [app]. rewrite before_plain by exact G. rewrite K. apply app_nil_r.
  - destruct hs as [|d hs]; [now elim D|]. destruct m; [contradiction| |]; cbn [app tl]; rewrite before_plain by exact G; rewrite K; apply app_nil_r. Qed.

Lemma edit_words c n m geo key addition rows xs n' gs ks nm ls :
  ordinary c n m geo key -> add_symbol addition true c = Ok rows ->
  Forall (fun w => has_alpha w = false /\ no_tilde w) (tsplit addition) -> length xs = hole_count (tsplit addition) ->
  c_values c = (n, Kcel) :: (m, Kmat) :: gs ++ ks -> length gs = hole_count geo ->
  card_text c = Ok ls ->
  exists ls' aw gw kw, card_text (mkCard nm ((n', Kcel) :: (m, Kmat) :: gs ++ xs ++ ks) rows (c_hidden c)) = Ok ls' /\
    fillw (tsplit addition) (map fst xs) [] = Ok (aw, ([], [])) /\
    words ls = hd_text n m (c_hidden c) ++ gw ++ kw /\
    words ls' = hd_text n' m (c_hidden c) ++ (s2l "(" :: gw ++ s2l ")" :: words aw) ++ kw /\
    geometry_words (words ls) = gw /\ geometry_words (words ls') = s2l "(" :: gw ++ s2l ")" :: words aw.
Proof. intros O AS FA LX EV LG H. destruct (add_symbol_words c n m geo key addition O) as [w0 [w1 [rows' [EW [AS' ER]]]]]. rewrite AS in AS'. injection AS' as <-.
  destruct (text_words c ls H) as [l [r [F EL]]]. rewrite EW, EV in F. destruct O as [_ OG OK _ OD].
  assert (NTg : Forall no_tilde geo) by (eapply Forall_impl; [|exact OG]; intros w Hw; apply Hw).
  cbn [map fst] in F. rewrite map_app in F. rewrite fillw_app in F.
  assert (HD : exists hl hs', (forall n vs, fillw (hd_words m w0 w1) (n :: m :: vs) (c_hidden c) = Ok (ljust w0 (str_of_Z n) :: hl, (vs, hs'))) /\ words hl = tl (hd_text n m (c_hidden c))).
  { unfold hd_words, hd_text. destruct (Z.eqb_spec m 0) as [E|E].
    - exists [ljust w1 (str_of_Z m)], (c_hidden c). split; [intros; cbn [fillw fill bind]; now rewrite !app_nil_r|]. unfold words. cbn [map concat tl]. now rewrite split_ljust.
    - destruct (OD E) as [d [hs [EH [Nd Wd]]]]. rewrite EH. exists [ljust w1 (str_of_Z m); d], hs. split; [intros; cbn [fillw fill bind]; change (Ascii.eqb tilde tilde) with true; cbn [fill bind]; now rewrite !app_nil_r|].
      unfold words. cbn [map concat tl]. rewrite split_ljust, split_tok_end by assumption. reflexivity. }
  destruct HD as [hl [hs' [HD EHL]]]. rewrite HD in F. cbn [bind] in F. rewrite fillw_app in F.
  destruct (fillw geo (map fst gs ++ map fst ks) hs') as [[gl q]|] eqn:FG; cbn [bind] in F; [|discriminate].
  destruct (fillw_plain geo (map fst gs) (map fst ks) hs' gl q NTg) as [-> GG]; [now rewrite map_length|exact FG|].
  destruct (fillw key (map fst ks) hs') as [[kl q2]|] eqn:FK; cbn [bind] in F; [|discriminate]. injection F as <- <-.
  assert (GX : exists aw, fillw (tsplit addition) (map fst xs) [] = Ok (aw, ([], []))).
  { assert (T : forall ws vs hs, length vs = hole_count ws -> exists l, fillw ws vs hs = Ok l).
    { clear. assert (T1 : forall w vs hs, holes w <= length vs -> exists s v1 h1, fill w vs hs = Ok (s, (v1, h1)) /\ length v1 = length vs - holes w).
      { induction w as [|[c|h] w IH]; intros vs hs L; [exists [], vs, hs; split; [reflexivity|cbn; lia]| |].
        - cbn [fill]. change (holes (Ch c :: w)) with (holes w) in *. destruct (Ascii.eqb c tilde); [destruct hs as [|x hs]|].
          + destruct (IH vs [] L) as [s [v1 [h1 [-> E]]]]. cbn [bind]. eauto.
          + destruct (IH vs hs L) as [s [v1 [h1 [-> E]]]]. cbn [bind]. eauto.
          + destruct (IH vs hs L) as [s [v1 [h1 [-> E]]]]. cbn [bind]. eauto.
        - change (holes (Hole h :: w)) with (S (holes w)) in *. destruct vs as [|v vs]; [cbn in L; lia|]. cbn [fill]. cbn [length] in L. destruct (IH vs hs) as [s [v1 [h1 [-> E]]]]; [lia|]. cbn [bind]. do 3 eexists. split; [reflexivity|]. cbn [length]. lia. }
      induction ws as [|w ws IH]; intros vs hs L; [eexists; reflexivity|]. rewrite hole_count_cons in L. cbn [fillw]. destruct (T1 w vs hs) as [s [v1 [h1 [-> E]]]]; [lia|]. cbn [bind]. destruct (IH v1 h1) as [[l q] ->]; [lia|]. eexists. reflexivity. }
    destruct (T (tsplit addition) (map fst xs) []) as [[aw q] E]; [rewrite map_length; exact LX|]. exists aw. rewrite E. do 2 f_equal. rewrite <- (app_nil_r (map fst xs)) in E. destruct (fillw_plain (tsplit addition) (map fst xs) [] [] aw q) as [-> _]; [|now rewrite map_length|exact E|reflexivity].
    eapply Forall_impl; [|exact FA]. intros w Hw; apply Hw. }
  destruct GX as [aw FX].
  assert (GX : forall vs hs, fillw (tsplit addition) (map fst xs ++ vs) hs = Ok (aw, (vs, hs))).
  { rewrite <- (app_nil_r (map fst xs)) in FX. destruct (fillw_plain (tsplit addition) (map fst xs) [] [] aw ([], [])) as [_ G]; [|now rewrite map_length|exact FX|exact G]. eapply Forall_impl; [|exact FA]. intros w Hw; apply Hw. }
  assert (FN : fillw (concat (map tsplit (c_input (mkCard nm ((n', Kcel) :: (m, Kmat) :: gs ++ xs ++ ks) rows (c_hidden c))))) (map fst (c_values (mkCard nm ((n', Kcel) :: (m, Kmat) :: gs ++ xs ++ ks) rows (c_hidden c)))) (c_hidden c) =
     Ok ((ljust w0 (str_of_Z n') :: hl) ++ s2l "(" :: gl ++ s2l ")" :: aw ++ kl, q2)).
  { cbn [c_input c_values map fst]. rewrite ER, !map_app, fillw_app, HD. cbn [bind]. cbn [fillw lpar fill]. change (Ascii.eqb "(" tilde) with false. cbn [fill bind]. rewrite fillw_app, GG. cbn [bind fillw rpar fill]. change (Ascii.eqb ")" tilde) with false. cbn [fill bind]. rewrite fillw_app, GX. cbn [bind]. rewrite FK. cbn [bind]. reflexivity. }
  destruct (words_text _ _ _ FN) as [ls' [T' EL']]. exists ls', aw, (words gl), (words kl).
  assert (WA : forall a b : list str, words (a ++ b) = words a ++ words b) by (intros; unfold words; now rewrite map_app, concat_app).
  assert (E1 : words ls = hd_text n m (c_hidden c) ++ words gl ++ words kl).
  { rewrite EL. cbn [app]. unfold words at 1. cbn [map concat]. rewrite split_ljust. fold (words (hl ++ gl ++ kl)). rewrite !WA, EHL. reflexivity. }
  assert (TL : tl (hd_text n' m (c_hidden c)) = tl (hd_text n m (c_hidden c))) by reflexivity.
  assert (E2 : words ls' = hd_text n' m (c_hidden c) ++ (s2l "(" :: words gl ++ s2l ")" :: words aw) ++ words kl).
  { rewrite EL'. cbn [app]. change (s2l "(" :: gl ++ s2l ")" :: aw ++ kl) with ([s2l "("] ++ gl ++ [s2l ")"] ++ aw ++ kl). unfold words at 1. cbn [map concat]. rewrite split_ljust. fold (words (hl ++ [s2l "("] ++ gl ++ [s2l ")"] ++ aw ++ kl)). rewrite !WA, EHL.
    change (words [s2l "("]) with [s2l "("]. change (words [s2l ")"]) with [s2l ")"]. unfold hd_text at 2. cbn [app]. rewrite <- !app_assoc. cbn [app]. reflexivity. }
  assert (LGw : Forall (fun w => has_letter w = false) (words gl)) by (eapply fillw_no_letter; [exact OG|exact FG]).
  assert (LAw : Forall (fun w => has_letter w = false) (words aw)) by (eapply fillw_no_letter; [exact FA|exact FX]).
  assert (KW : before_keywords (words kl) = []). { destruct key as [|w key]; [cbn in FK; injection FK as <- _; reflexivity|]. eapply keyword_stops; eassumption. }
  assert (DN : m <> 0%Z -> c_hidden c <> []) by (intros N; destruct (OD N) as [d [hs [-> _]]]; discriminate).
  split; [exact T'|]. split; [exact FX|]. split; [exact E1|]. split; [exact E2|]. split.
  - rewrite E1. now apply geometry_hd.
  - rewrite E2. apply geometry_hd; [exact DN| |exact KW]. constructor; [reflexivity|]. apply Forall_app. split; [exact LGw|]. constructor; [reflexivity|exact LAw]. Qed.
Lemma last_geom_end a b v : geometric (snd v) -> Forall (fun v => ~ geometric (snd v)) b -> last_geom (a ++ v :: b) = Some (length a).
Proof. intros V B. assert (NB : last_geom b = None). { induction B as [|[z k] b H _ IH]; [reflexivity|]. cbn [last_geom]. rewrite IH. cbn [snd] in *. destruct k; try reflexivity; elim H; [right|left]; reflexivity. }
  induction a as [|x a IH]; cbn [app last_geom length]; [rewrite NB; destruct V as [-> | ->]; reflexivity|]. now rewrite IH. Qed.
Lemma insert_after_geometry h1 h2 gs ks x : gs <> [] -> Forall (fun v => geometric (snd v)) gs -> Forall (fun v => ~ geometric (snd v)) ks ->
  insert_value x (h1 :: h2 :: gs ++ ks) = h1 :: h2 :: gs ++ [x] ++ ks.
Proof. intros N G K. destruct (exists_last N) as [gs' [v ->]]. apply Forall_app in G as [_ G]. inversion G as [|? ? V _]; subst. unfold insert_value.
  replace (last_geom (h1 :: h2 :: (gs' ++ [v]) ++ ks)) with (Some (S (S (length gs')))). 2: { rewrite <- app_assoc. cbn [app]. symmetry. exact (last_geom_end (h1 :: h2 :: gs') ks v V K). }
  unfold insert_at. replace (S (S (S (length gs')))) with (length (h1 :: h2 :: gs' ++ [v])) by (cbn [length]; rewrite app_length; cbn [length]; lia).
  change (h1 :: h2 :: (gs' ++ [v]) ++ ks) with ((h1 :: h2 :: gs' ++ [v]) ++ ks). rewrite firstn_app, firstn_all, skipn_app, skipn_all, Nat.sub_diag. cbn [firstn skipn app]. now rewrite app_nil_r. Qed.
