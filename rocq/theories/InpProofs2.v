(** Proofs for C29: keys after renumbering. *)
From Coq Require Import Lia ZArith.
From Verif Require Import PyBase PyLemmas PyStr PyStrLemmas PyText D1SProofs2 WWTextProofs LibModel MatModel MatProofs MatProofs2 MatProofs4 InpModel InpSpec InpProofs.
Open Scope nat_scope.

Lemma apply_map_shifted o c : Forall2 (shifted o) (c_values c) (c_values (apply_map o c)).
Proof. unfold apply_map. cbn [with_values c_values]. induction (c_values c) as [|[z k] vs IH]; cbn [map]; constructor; [|exact IH].
  unfold shifted, renum_val, offset_of, renum_fn. destruct k; cbn [snd fst];
  match goal with |- context [match ?x with Some _ => _ | None => _ end] => destruct x | _ => idtac end; cbn [fst snd]; try (split; reflexivity);
  (split; [reflexivity|]; destruct (z =? 0)%Z eqn:E; [apply Z.eqb_eq in E|apply Z.eqb_neq in E]; split; intros; lia). Qed.

Lemma fill_text_app p t vs hs : Forall (fun x => is_ws x = false /\ Ascii.eqb x tilde = false) p ->
  fill (map Ch p ++ t) vs hs = do '(s, r) <- fill t vs hs; Ok (p ++ s, r).
Proof. induction p as [|x p IH]; cbn [map app fill]; intros H.
  - destruct (fill t vs hs) as [[s r]|]; reflexivity.
  - inversion H as [|? ? [_ E] H']; subst. rewrite E, IH by exact H'. destruct (fill t vs hs) as [[s r]|]; reflexivity. Qed.

Lemma upper_digit c : is_digit c = true -> upper_c c = c.
Proof. unfold is_digit, upper_c. intros H. apply andb_prop in H as [A B]. apply N.leb_le in A, B.
  destruct ((97 <=? N_of_ascii c) && (N_of_ascii c <=? 122))%N eqn:E; [|reflexivity]. apply andb_prop in E as [C _]. apply N.leb_le in C. lia. Qed.
Lemma upper_str_of_Z n : upper (str_of_Z n) = str_of_Z n.
Proof. assert (D : forall s, digits s -> upper s = s).
  { intros s H. unfold upper. induction H as [|x s Hx _ IH]; [reflexivity|]. cbn [map]. now rewrite upper_digit, IH. }
  destruct n as [|p|p]; cbn [str_of_Z]; try (apply D; apply str_of_N_digits).
  unfold upper. cbn [map]. change (upper_c minus) with minus. f_equal. apply D. apply str_of_N_digits. Qed.
Lemma upper_app a b : upper (a ++ b) = upper a ++ upper b. Proof. apply map_app. Qed.

Lemma first_not_ws n r : match str_of_Z n ++ r with c :: _ => is_ws c = false | [] => True end.
Proof. destruct (str_of_Z_no_ws n) as [A B]. destruct (str_of_Z n) as [|x s]; [congruence|]. cbn [app]. inversion A; subst; assumption. Qed.

Lemma key_prints pre k n c : prints_number pre k n c -> card_key c = Ok (upper pre ++ str_of_Z n).
Proof. intros [[vs Hv] [[w [rest [lines [Hi Hr]]]] [[ls Ht] Hp]]]. unfold card_key. rewrite Ht. cbn [bind].
  unfold card_text in Ht. rewrite Hi, Hv in Ht. cbn [map fst fill_lines] in Ht. rewrite fill_text_app in Ht by exact Hp. cbn [fill] in Ht.
  destruct (fill rest (map fst vs) (c_hidden c)) as [[s [v' h']]|] eqn:F; cbn [bind] in Ht; [|discriminate].
  destruct (fill_lines lines v' h') as [r|]; cbn [bind] in Ht; [|discriminate]. injection Ht as <-.
  assert (NW : no_ws (pre ++ str_of_Z n)).
  { apply Forall_app. split; [|apply str_of_Z_no_ws]. eapply Forall_impl; [|exact Hp]. intros x [H _]. exact H. }
  assert (NE : pre ++ str_of_Z n <> []). { intros Q. apply app_eq_nil in Q as [_ Q]. exact (proj2 (str_of_Z_no_ws n) Q). }
  assert (TAIL : match repeat sp (w - length (str_of_Z n)) ++ s with c :: _ => is_ws c = true | [] => True end).
  { destruct (w - length (str_of_Z n)) as [|m]; [|reflexivity]. cbn [repeat app]. destruct rest as [|[x|w'] rest]; [injection F as <- <- <-; exact I| |destruct Hr].
    cbn [fill] in F. destruct (Ascii.eqb x tilde) eqn:T. { apply Ascii.eqb_eq in T. subst x. discriminate Hr. }
    destruct (fill rest (map fst vs) (c_hidden c)) as [[s2 [v2 h2]]|]; cbn [bind] in F; [|discriminate]. injection F as <- <- <-. exact Hr. }
  unfold ljust. rewrite <- app_assoc. set (t := repeat sp (w - length (str_of_Z n)) ++ s) in *. rewrite app_assoc.
  assert (SP : exists ws, split ((pre ++ str_of_Z n) ++ t) = (pre ++ str_of_Z n) :: ws).
  { destruct t as [|x t]; [rewrite app_nil_r; exists []; now apply split_tok_end|]. exists (split t). now apply split_tok_ws. }
  destruct SP as [ws SP].
  assert (NC : pat_comment (((pre ++ str_of_Z n) ++ t) ++ [nl]) = false).
  { destruct pre as [|p [|p2 pre]]; cbn [app].
    - clearbody t. pose proof (proj2 (str_of_Z_no_ws n)) as FW. destruct (str_of_Z n) as [|a st] eqn:Z; [congruence|].
      assert (HC : is_c a = false).
      { assert (DD : is_digit a = true \/ a = minus). { destruct n as [|q|q]; cbn [str_of_Z] in Z; [left|left|injection Z; auto];
          [pose proof (str_of_N_digits (Z.to_N 0)) as HD|pose proof (str_of_N_digits (Z.to_N (Zpos q))) as HD]; rewrite Z in HD; inversion HD; assumption. }
        destruct DD as [DD| ->]; [|reflexivity]. destruct a as [[] [] [] [] [] [] [] []]; try reflexivity; discriminate DD. }
      cbn [app]. unfold pat_comment. destruct ((st ++ t) ++ [nl]); [reflexivity|]. now rewrite HC.
    - pose proof (first_not_ws n (t ++ [nl])) as FW. rewrite <- app_assoc. unfold pat_comment. destruct (str_of_Z n ++ t ++ [nl]) as [|a r0]; [reflexivity|]. rewrite FW. apply andb_false_r.
    - unfold pat_comment. inversion Hp as [|? ? _ Hp2]; subst. inversion Hp2 as [|? ? [E _] _]; subst. rewrite E. apply andb_false_r. }
  cbn [key_of_lines]. destruct ((pre ++ str_of_Z n) ++ t) as [|a l] eqn:EL. { apply app_eq_nil in EL as [EL _]. contradiction. }
  rewrite NC, SP. now rewrite upper_app, upper_str_of_Z. Qed.

Lemma rekey_ok h : forall (d : cdict) (ks : list str) (acc : cdict), Forall2 (fun kl k => exists c, nth_error h (snd kl) = Some c /\ card_key c = Ok k) d ks ->
  NoDup (map fst acc ++ ks) ->
  foldM (fun nd kl => do c <- hget h (snd kl); do key <- card_key c; Ok (dset str_eqb key (snd kl) nd)) acc d = Ok (acc ++ combine ks (map snd d)).
Proof. induction d as [|[k0 l0] d IH]; intros ks acc F ND; inversion F as [|? k ? ks' [c [Hc Hk]] F']; subst; cbn [foldM map combine].
  - now rewrite app_nil_r.
  - cbn [snd] in *. apply hget_ok in Hc. rewrite Hc. cbn [bind]. rewrite Hk. cbn [bind].
    rewrite (dset_new str_eqb). 2:{ apply (dget_none_iff str_eqb str_eqb_eq). intros Q. apply NoDup_remove_2 in ND. apply ND. apply in_or_app. left. exact Q. }
    rewrite (IH ks'); [now rewrite <- app_assoc|exact F'|]. rewrite map_app. cbn [map fst]. rewrite <- app_assoc. exact ND. Qed.

(** the setters on cards whose first value is the number in their key *)
Lemma setter_spec (k : kind) (f : str -> str) (d : cdict) : forall (h h' : heap), NoDup (locs d) ->
  foldM (fun h kl => force_num k (f (fst kl)) h (snd kl)) h d = Ok h' ->
  (forall key l, In (key, l) d -> exists c n, nth_error h l = Some c /\ first_of k (c_values c) = Some n /\ parse_int (f key) = Ok n) ->
  length h' = length h /\
  (forall l, ~ In l (locs d) -> nth_error h' l = nth_error h l) /\
  (forall key l, In (key, l) d -> exists c c' n, nth_error h l = Some c /\ nth_error h' l = Some c' /\ parse_int (f key) = Ok n /\
     c_name c' = Some n /\ c_values c' = c_values c /\ c_input c' = c_input c /\ c_hidden c' = c_hidden c).
Proof. induction d as [|[key0 l0] d IH]; intros h h' ND H P; unfold locs in *; cbn [foldM map snd] in *.
  - injection H as <-. split; [reflexivity|]. split; [reflexivity|]. intros ? ? [].
  - inversion ND; subst. cbn [fst snd] in H. destruct (force_num k (f key0) h l0) as [h1|] eqn:E; cbn [bind] in H; [|discriminate].
    destruct (force_num_frame _ _ _ _ _ E) as [L1 FR].
    destruct (IH h1 h' H3 H) as [L [OUT INN]].
    { intros key l Q. rewrite FR; [apply P; right; exact Q|]. intros ->. apply H2. apply (in_map snd) in Q. exact Q. }
    split; [congruence|]. split.
    + intros l Q. rewrite OUT by (intros R; apply Q; right; exact R). apply FR. intros ->. apply Q. left. reflexivity.
    + intros key l [Q|Q].
      * injection Q as <- <-. destruct (P key0 l0 (or_introl eq_refl)) as [c [n [Hc [Hf Hp]]]].
        rewrite (OUT l0 H2). apply force_num_spec in E as [c0 [m [z [Hc0 [Hn [Hz D]]]]]]. rewrite Hc in Hc0. injection Hc0 as <-.
        rewrite Hp in Hz. injection Hz as Hz. subst z. destruct D as [[-> Em]| ->].
        -- subst m. exists c, c, n. repeat split; auto.
        -- exists c, (rename k n c), n. rewrite hset_same by (eapply nth_lt; eauto). repeat split; auto. cbn [rename c_values]. now apply set_first_id.
      * destruct (INN key l Q) as [c [c' [n X]]]. exists c, c', n. rewrite <- (FR l); [exact X|]. intros ->. apply H2. apply (in_map snd) in Q. exact Q. Qed.

Lemma fill_count t : forall vs vs' hs s v1 h1, length vs = length vs' -> fill t vs hs = Ok (s, (v1, h1)) ->
  exists s' v1', fill t vs' hs = Ok (s', (v1', h1)) /\ length v1' = length v1.
Proof. induction t as [|[c|w] t IH]; intros vs vs' hs s v1 h1 L H; cbn [fill] in *.
  - injection H as <- <- <-. exists [], vs'. auto.
  - destruct (Ascii.eqb c tilde).
    + destruct hs as [|x hs].
      * destruct (fill t vs []) as [[s0 [v0 h0]]|] eqn:F; cbn [bind] in H; [|discriminate]. injection H as <- <- <-.
        destruct (IH _ _ _ _ _ _ L F) as [s' [v' [F' L']]]. rewrite F'. cbn [bind]. eexists _, _. split; [reflexivity|exact L'].
      * destruct (fill t vs hs) as [[s0 [v0 h0]]|] eqn:F; cbn [bind] in H; [|discriminate]. injection H as <- <- <-.
        destruct (IH _ _ _ _ _ _ L F) as [s' [v' [F' L']]]. rewrite F'. cbn [bind]. eexists _, _. split; [reflexivity|exact L'].
    + destruct (fill t vs hs) as [[s0 [v0 h0]]|] eqn:F; cbn [bind] in H; [|discriminate]. injection H as <- <- <-.
      destruct (IH _ _ _ _ _ _ L F) as [s' [v' [F' L']]]. rewrite F'. cbn [bind]. eexists _, _. split; [reflexivity|exact L'].
  - destruct vs as [|v vs]; [discriminate|]. destruct vs' as [|v' vs']; [discriminate L|]. injection L as L.
    destruct (fill t vs hs) as [[s0 [v0 h0]]|] eqn:F; cbn [bind] in H; [|discriminate]. injection H as <- <- <-.
    destruct (IH _ _ _ _ _ _ L F) as [s' [w' [F' L']]]. rewrite F'. cbn [bind]. eexists _, _. split; [reflexivity|exact L']. Qed.
Lemma fill_lines_count ts : forall vs vs' hs ls, length vs = length vs' -> fill_lines ts vs hs = Ok ls -> exists ls', fill_lines ts vs' hs = Ok ls'.
Proof. induction ts as [|t ts IH]; intros vs vs' hs ls L H; cbn [fill_lines] in *; [exists []; reflexivity|].
  destruct (fill t vs hs) as [[s [v1 h1]]|] eqn:F; cbn [bind] in H; [|discriminate]. destruct (fill_count _ _ _ _ _ _ _ L F) as [s' [v' [F' L']]].
  rewrite F'. cbn [bind]. destruct (fill_lines ts v1 h1) as [r|] eqn:R; cbn [bind] in H; [|discriminate].
  destruct (IH v1 v' h1 r (eq_sym L') R) as [r' R']. rewrite R'. cbn [bind]. eexists. reflexivity. Qed.

Lemma prints_apply_map o pre k n c : prints_number pre k n c -> prints_number pre k (fst (renum_val o (n, k))) (apply_map o c).
Proof. intros [[vs Hv] [Hi [[ls Ht] Hp]]]. split; [|split; [exact Hi|split; [|exact Hp]]].
  - exists (map (renum_val o) vs). unfold apply_map. cbn [with_values c_values]. rewrite Hv. cbn [map]. f_equal.
    unfold renum_val. cbn [snd fst]. destruct (offset_of o k); reflexivity.
  - unfold card_text in *. cbn [apply_map with_values c_values c_input c_hidden]. eapply fill_lines_count; [|exact Ht]. now rewrite !map_length. Qed.
Lemma prints_head pre k n c : prints_number pre k n c -> first_of k (c_values c) = Some n /\ exists vs, c_values c = (n, k) :: vs.
Proof. intros [[vs Hv] _]. split; [|eauto]. unfold first_of. rewrite Hv. cbn [find snd]. now rewrite kind_eqb_refl. Qed.
Lemma renum_fn_inj off a b : (a <> 0 -> b <> 0 -> renum_fn off a = renum_fn off b -> a = b)%Z.
Proof. unfold renum_fn. intros A B. apply Z.eqb_neq in A as ->. apply Z.eqb_neq in B as ->. lia. Qed.
Lemma renum_val_inj o k a b : (a <> 0 -> b <> 0 -> fst (renum_val o (a, k)) = fst (renum_val o (b, k)) -> a = b)%Z.
Proof. unfold renum_val. cbn [snd fst]. destruct (offset_of o k); cbn [fst]; [apply renum_fn_inj|auto]. Qed.

Lemma str_of_Z_inj a b : str_of_Z a = str_of_Z b -> a = b.
Proof. intros H. assert (parse_int (str_of_Z a) = parse_int (str_of_Z b)) as P by now rewrite H. rewrite !parse_str_of_Z in P. congruence. Qed.

Lemma block_keys marks k h h' o d : NoDup (locs d) -> numbered_block marks k h d ->
  (forall p1 p2 a b, In p1 marks -> In p2 marks -> upper p1 ++ str_of_Z a = upper p2 ++ str_of_Z b -> a = b) ->
  (forall l, In l (locs d) -> nth_error h' l = option_map (apply_map o) (nth_error h l)) ->
  exists ks, rekey h' d = Ok (combine ks (locs d)) /\ length ks = length d /\
    forall key l, In (key, l) (combine ks (locs d)) -> exists c n pre, nth_error h l = Some c /\ In pre marks /\ prints_number pre k n c /\
      prints_number pre k (fst (renum_val o (n, k))) (apply_map o c) /\ key = upper pre ++ str_of_Z (fst (renum_val o (n, k))).
Proof. intros ND [NB DI] MK HH.
  assert (X : exists ks, Forall2 (fun l key => exists c n pre, nth_error h l = Some c /\ In pre marks /\ prints_number pre k n c /\ n <> 0%Z /\
      prints_number pre k (fst (renum_val o (n, k))) (apply_map o c) /\ key = upper pre ++ str_of_Z (fst (renum_val o (n, k)))) (locs d) ks).
  { assert (G : forall ls, (forall l, In l ls -> In l (locs d)) -> exists ks, Forall2 (fun l key => exists c n pre, nth_error h l = Some c /\ In pre marks /\ prints_number pre k n c /\ n <> 0%Z /\
      prints_number pre k (fst (renum_val o (n, k))) (apply_map o c) /\ key = upper pre ++ str_of_Z (fst (renum_val o (n, k)))) ls ks).
    { induction ls as [|l ls IH]; intros S; [exists []; constructor|]. destruct IH as [ks F]; [intros; apply S; right; assumption|].
      destruct (NB l (S l (or_introl eq_refl))) as [c [n [pre [A [B [C D]]]]]]. exists ((upper pre ++ str_of_Z (fst (renum_val o (n, k)))) :: ks).
      constructor; [|exact F]. exists c, n, pre. refine (conj A (conj B (conj C (conj D (conj _ eq_refl))))). now apply prints_apply_map. }
    apply (G (locs d)). auto. }
  destruct X as [ks F]. exists ks.
  assert (LK : length ks = length d) by (rewrite <- (Forall2_length _ _ _ F); unfold locs; apply map_length).
  split; [|split; [exact LK|]].
  - unfold rekey, locs. rewrite (rekey_ok h' d ks []); [reflexivity| |].
    + assert (G : forall e (es : list str), Forall2 (fun l key => exists c n pre, nth_error h l = Some c /\ In pre marks /\ prints_number pre k n c /\ n <> 0%Z /\
      prints_number pre k (fst (renum_val o (n, k))) (apply_map o c) /\ key = upper pre ++ str_of_Z (fst (renum_val o (n, k)))) (locs e) es -> (forall l, In l (locs e) -> In l (locs d)) ->
        Forall2 (fun kl key => exists c, nth_error h' (snd kl) = Some c /\ card_key c = Ok key) e es).
      { induction e as [|[k0 l0] e IH]; intros es F2 S; unfold locs in F2; cbn [map snd] in F2; inversion F2 as [|? ? ? ? [c [n [pre [A [B [C [D [E EK]]]]]]]] F3]; subst; constructor.
        - cbn [snd]. exists (apply_map o c). rewrite HH by (apply S; left; reflexivity). rewrite A. split; [reflexivity|]. now apply key_prints with k.
        - apply IH; [exact F3|]. intros; apply S; right; assumption. }
      apply (G d ks F). auto.
    + cbn [map app]. assert (G : forall ls (es : list str), Forall2 (fun l key => exists c n pre, nth_error h l = Some c /\ In pre marks /\ prints_number pre k n c /\ n <> 0%Z /\
      prints_number pre k (fst (renum_val o (n, k))) (apply_map o c) /\ key = upper pre ++ str_of_Z (fst (renum_val o (n, k)))) ls es -> NoDup ls -> (forall l, In l ls -> In l (locs d)) -> NoDup es).
      { induction 1 as [|l key ls es [c [n [pre [A [B [C [D [E EK]]]]]]]] F3 IH]; intros N S; constructor.
        - intros Q. inversion N; subst. destruct (Forall2_in_r _ _ _ _ F3 Q) as [l2 [Hl2 [c2 [n2 [p2 [A2 [B2 [C2 [D2 [E2 EK2]]]]]]]]]].
          apply MK in EK2; [|assumption|assumption]. apply renum_val_inj in EK2; [|assumption|assumption]. subst n2.
          assert (l = l2) by (eapply DI; [apply S; left; reflexivity|apply S; right; exact Hl2|exact A|exact A2|exact C|exact C2]). subst. contradiction.
        - inversion N; subst. apply IH; [assumption|]. intros; apply S; right; assumption. }
      apply (G (locs d) ks F ND). auto.
  - intros key l Q. clear - F Q. revert Q. induction F as [|l0 k0 ls es [c [n [pre [A [B [C [D [E EK]]]]]]]] F3 IH]; cbn [combine]; intros Q; [destruct Q|].
    destruct Q as [Q|Q]; [|auto]. injection Q as <- <-. exists c, n, pre. exact (conj A (conj B (conj C (conj E EK)))). Qed.

Lemma renumber_true o h a : renumber o true h a = do '(h4, _) <- renumber o false h a; update_card_keys h4 a.
Proof. unfold renumber. destruct (renum_dict o h (i_cells a)) as [h1|]; cbn [bind]; [|reflexivity].
  destruct (renum_dict o h1 (i_surfs a)) as [h2|]; cbn [bind]; [|reflexivity]. destruct (renum_dict o h2 (i_other a)) as [h3|]; cbn [bind]; [|reflexivity].
  destruct (renum_dict o h3 (i_trans a)) as [h4|]; cbn [bind]; reflexivity. Qed.
Lemma combine_locs (ks : list str) (d : cdict) : length ks = length d -> locs (combine ks (locs d)) = locs d.
Proof. revert ks. induction d as [|[k l] d IH]; intros [|x ks] L; try discriminate L; [reflexivity|]. cbn in *. f_equal. apply IH. lia. Qed.

Lemma prints_same pre k n c c' : prints_number pre k n c -> c_values c' = c_values c -> c_input c' = c_input c -> c_hidden c' = c_hidden c -> prints_number pre k n c'.
Proof. unfold prints_number, card_text. intros H -> -> ->. exact H. Qed.

Lemma star_key_num n : key_num (star (str_of_Z n)) = str_of_Z n. Proof. reflexivity. Qed.
Lemma plain_key_num n : key_num (str_of_Z n) = str_of_Z n.
Proof. unfold key_num. assert (H : memb Ascii.eqb "*"%char (str_of_Z n) = false); [|now rewrite H].
  assert (D : forall s, digits s -> memb Ascii.eqb "*"%char s = false).
  { induction 1 as [|x s Hx _ IH]; [reflexivity|]. cbn [memb]. rewrite IH. destruct (Ascii.eqb "*" x) eqn:E; [|reflexivity]. apply Ascii.eqb_eq in E. subst x. discriminate Hx. }
  destruct n as [|p|p]; cbn [str_of_Z]; try (apply D, str_of_N_digits). cbn [memb]. change (Ascii.eqb "*" minus) with false. cbn [orb]. apply D, str_of_N_digits. Qed.

Lemma marks_inj p1 p2 a b : In p1 surf_marks -> In p2 surf_marks -> upper p1 ++ str_of_Z a = upper p2 ++ str_of_Z b -> a = b.
Proof. assert (Q : forall a b, str_of_Z a <> "*"%char :: str_of_Z b).
  { intros x y E. pose proof (plain_key_num x) as P. rewrite E in P. change (key_num ("*"%char :: str_of_Z y)) with (str_of_Z y) in P.
    assert (length (str_of_Z y) = length ("*"%char :: str_of_Z y)) as L by congruence. cbn [length] in L. lia. }
  intros [<-|[<-|[]]] [<-|[<-|[]]] E.
  - now apply str_of_Z_inj.
  - change (str_of_Z a = "*"%char :: str_of_Z b) in E. destruct (Q _ _ E).
  - change ("*"%char :: str_of_Z a = str_of_Z b) in E. symmetry in E. destruct (Q _ _ E).
  - change ("*"%char :: str_of_Z a = "*"%char :: str_of_Z b) in E. injection E as E. now apply str_of_Z_inj. Qed.
Lemma mark_upper pre : In pre surf_marks -> upper pre = pre. Proof. intros [<-|[<-|[]]]; reflexivity. Qed.
Lemma mark_parse pre n : In pre surf_marks -> parse_int (key_num (pre ++ str_of_Z n)) = Ok n.
Proof. intros [<-|[<-|[]]]; [cbn [app]; rewrite plain_key_num|change (s2l "*" ++ str_of_Z n) with (star (str_of_Z n)); rewrite star_key_num]; apply parse_str_of_Z. Qed.

Lemma renumber_keys o h a h' a' : NoDup (input_locs a) -> input_allocated h a ->
  numbered_block [[]] Kcel h (i_cells a) -> numbered_block surf_marks Ksur h (i_surfs a) ->
  renumber o true h a = Ok (h', a') ->
  follows Kcel [[]] o h h' (i_cells a) (i_cells a') /\ follows Ksur surf_marks o h h' (i_surfs a) (i_surfs a') /\ i_mats a' = i_mats a.
Proof. intros ND AL NC NS H. destruct (renumber_spec o h a ND AL) as [h4 [R [L V]]]. rewrite renumber_true, R in H. cbn [bind] in H.
  pose proof ND as ND0. unfold input_locs in ND. apply nodup_app_l in ND as [N1 [ND D1]]. apply nodup_app_l in ND as [N2 [_ _]].
  assert (VC : forall l, In l (locs (i_cells a)) -> nth_error h4 l = option_map (apply_map o) (nth_error h l)).
  { intros l Q. rewrite V. destruct (in_dec Nat.eq_dec l (input_locs a)) as [_|n]; [reflexivity|]. exfalso. apply n. unfold input_locs. apply in_or_app. tauto. }
  assert (VS : forall l, In l (locs (i_surfs a)) -> nth_error h4 l = option_map (apply_map o) (nth_error h l)).
  { intros l Q. rewrite V. destruct (in_dec Nat.eq_dec l (input_locs a)) as [_|n]; [reflexivity|]. exfalso. apply n. unfold input_locs. apply in_or_app; right; apply in_or_app. tauto. }
  destruct (block_keys [[]] Kcel h h4 o _ N1 NC) as [kc [RC [LC PC]]]; [intros p1 p2 x y [<-|[]] [<-|[]] E; now apply str_of_Z_inj|exact VC|].
  destruct (block_keys surf_marks Ksur h h4 o _ N2 NS) as [ks [RS [LS PS]]]; [apply marks_inj|exact VS|].
  unfold update_card_keys in H. rewrite RC in H; cbn [bind] in H. rewrite RS in H; cbn [bind] in H.
  destruct (rekey h4 (i_other a)) as [os|]; cbn [bind] in H; [|discriminate]. destruct (rekey h4 (i_trans a)) as [ts|]; cbn [bind] in H; [|discriminate].
  destruct (cells_setter h4 (combine kc (locs (i_cells a)))) as [h5|] eqn:SC; cbn [bind] in H; [|discriminate].
  destruct (surfs_setter h5 (combine ks (locs (i_surfs a)))) as [h6|] eqn:SS; cbn [bind] in H; [|discriminate].
  injection H as <- <-. cbn [i_cells i_surfs i_mats].
  set (dc := combine kc (locs (i_cells a))) in *. set (ds := combine ks (locs (i_surfs a))) in *.
  assert (Lc : locs dc = locs (i_cells a)) by (apply combine_locs; exact LC). assert (Ls : locs ds = locs (i_surfs a)) by (apply combine_locs; exact LS).
  destruct (setter_spec Kcel (fun s => s) dc h4 h5) as [L5 [O5 I5]]; [rewrite Lc; exact N1|exact SC| |].
  { intros key l Q. destruct (PC _ _ Q) as [c [n [pre [A [[<-|[]] [C [E ->]]]]]]]. exists (apply_map o c), (fst (renum_val o (n, Kcel))).
    rewrite VC by (rewrite <- Lc; apply (in_map snd) in Q; exact Q). rewrite A. split; [reflexivity|]. split; [now apply prints_head in E|]. apply parse_str_of_Z. }
  assert (V5 : forall l, In l (locs (i_surfs a)) -> nth_error h5 l = nth_error h4 l).
  { intros l Q. apply O5. rewrite Lc. intros Q2. apply (D1 l Q2). apply in_or_app. tauto. }
  destruct (setter_spec Ksur key_num ds h5 h6) as [L6 [O6 I6]]; [rewrite Ls; exact N2|exact SS| |].
  { intros key l Q. destruct (PS _ _ Q) as [c [n [pre [A [B [C [E ->]]]]]]]. exists (apply_map o c), (fst (renum_val o (n, Ksur))).
    assert (In l (locs (i_surfs a))) by (rewrite <- Ls; apply (in_map snd) in Q; exact Q).
    rewrite V5, VS by assumption. rewrite A. split; [reflexivity|]. split; [now apply prints_head in E|]. rewrite mark_upper by exact B. now apply mark_parse. }
  split; [|split; [|reflexivity]]; (split; [assumption|]).
  - intros key l Q. destruct (PC _ _ Q) as [c [n [pre [A [[<-|[]] [C [E EK]]]]]]]. destruct (I5 _ _ Q) as [c4 [c5 [m [X1 [X2 [X3 [X4 [X5 [X6 X7]]]]]]]]].
    assert (QL : In l (locs (i_cells a))) by (rewrite <- Lc; apply (in_map snd) in Q; exact Q).
    rewrite VC, A in X1 by exact QL. injection X1 as <-.
    exists [], c, c5, (fst (renum_val o (n, Kcel))).
    rewrite O6 by (rewrite Ls; intros Q2; apply (D1 l QL); apply in_or_app; tauto).
    subst key. change (upper [] ++ str_of_Z (fst (renum_val o (n, Kcel)))) with (str_of_Z (fst (renum_val o (n, Kcel)))) in X3. rewrite parse_str_of_Z in X3. injection X3 as <-.
    refine (conj (or_introl eq_refl) (conj A (conj X2 (conj _ (conj X6 (conj X7 (conj _ (conj X4 eq_refl)))))))).
    + rewrite X5. apply apply_map_shifted. + eapply prints_same; eauto.
  - intros key l Q. destruct (PS _ _ Q) as [c [n [pre [A [B [C [E EK]]]]]]]. destruct (I6 _ _ Q) as [c5 [c6 [m [X1 [X2 [X3 [X4 [X5 [X6 X7]]]]]]]]].
    assert (QL : In l (locs (i_surfs a))) by (rewrite <- Ls; apply (in_map snd) in Q; exact Q).
    rewrite V5, VS, A in X1 by exact QL. injection X1 as <-.
    exists pre, c, c6, (fst (renum_val o (n, Ksur))). rewrite (mark_upper pre B) in EK. subst key. rewrite mark_parse in X3 by exact B. injection X3 as <-.
    refine (conj B (conj A (conj X2 (conj _ (conj X6 (conj X7 (conj _ (conj X4 eq_refl)))))))).
    + rewrite X5. apply apply_map_shifted. + eapply prints_same; eauto. Qed.
