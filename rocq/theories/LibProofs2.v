From Coq Require Import Lia.
From Verif Require Import PyBase PyLemmas PyStr PyStrLemmas PyText WWTextProofs D1SProofs2 LibModel LibSpec LibProofs.
Open Scope nat_scope.

(** three-digit texts *)
Lemma dlen_small n : ((n < 10)%N -> dlen n = 1) /\ ((10 <= n < 100)%N -> dlen n = 2) /\ ((100 <= n < 1000)%N -> dlen n = 3).
Proof. destruct (dlen_spec n) as [H1 [H2 H3]].
  assert (P : forall a b, (10 ^ a <= n)%N -> (n < 10 ^ b)%N -> (a < b)%N).
  { intros a b Ha Hb. destruct (N.lt_ge_cases a b) as [L|L]; [exact L|]. pose proof (N.pow_le_mono_r 10 b a). lia. }
  repeat split; intros H.
  - destruct (N.eq_dec n 0) as [->|Hn]; [reflexivity|]. specialize (H3 ltac:(lia)).
    pose proof (P (N.of_nat (dlen n) - 1)%N 1%N H3 H). lia.
  - specialize (H3 ltac:(lia)). pose proof (P (N.of_nat (dlen n) - 1)%N 2%N H3 ltac:(simpl; lia)).
    pose proof (P 1%N (N.of_nat (dlen n)) ltac:(simpl; lia) H1). lia.
  - specialize (H3 ltac:(lia)). pose proof (P (N.of_nat (dlen n) - 1)%N 3%N H3 ltac:(simpl; lia)).
    pose proof (P 2%N (N.of_nat (dlen n)) ltac:(simpl; lia) H1). lia.
Qed.
Lemma fmt03_spec n : (n < 1000)%N -> fmt03 n = ndig 3 n.
Proof. intros H. unfold fmt03, str_of_N. destruct (dlen_small n) as [D1 [D2 D3]]. rewrite ndig_length.
  destruct (N.lt_ge_cases n 10) as [L|L]; [rewrite D1 by lia|destruct (N.lt_ge_cases n 100) as [L'|L']; [rewrite D2 by lia|rewrite D3 by lia]].
  - cbn [Nat.sub repeat app ndig]. rewrite (N.div_small n 10) by lia. reflexivity.
  - cbn [Nat.sub repeat app ndig]. assert (n / 10 / 10 = 0)%N as ->.
    { rewrite N.div_div by lia. apply N.div_small. lia. } reflexivity.
  - reflexivity. Qed.
Lemma fmt03_len n : (n < 1000)%N -> length (fmt03 n) = 3.
Proof. intros H. rewrite fmt03_spec by exact H. apply ndig_length. Qed.
Lemma fmt03_digits n : digits (fmt03 n).
Proof. unfold fmt03. apply Forall_app. split; [|apply str_of_N_digits]. apply Forall_forall. intros c H. apply repeat_spec in H. now subst. Qed.
Lemma fmt03_num n : num_of (fmt03 n) = n.
Proof. unfold fmt03. rewrite num_of_app, num_of_str. assert (G : forall k, num_of (repeat "0"%char k) = 0%N).
  { induction k as [|k IH]; [reflexivity|]. change (repeat "0"%char (S k)) with (["0"%char] ++ repeat "0"%char k). rewrite num_of_app, IH. reflexivity. }
  rewrite G. lia. Qed.
Lemma zaid_text_fmt z a s : zaid_text z a s <-> (a < 1000)%N /\ s = str_of_N z ++ fmt03 a.
Proof. unfold zaid_text. split.
  - intros [d1 [d2 [d3 [-> [H1 [H2 [H3 ->]]]]]]]. split; [lia|]. rewrite fmt03_spec by lia. f_equal. cbn [ndig app].
    assert ((d1 * 100 + d2 * 10 + d3) mod 10 = d3)%N as -> by (symmetry; apply (N.mod_unique _ _ (d1 * 10 + d2)); lia).
    assert ((d1 * 100 + d2 * 10 + d3) / 10 = d1 * 10 + d2)%N as -> by (symmetry; apply (N.div_unique _ _ _ d3); lia).
    assert ((d1 * 10 + d2) mod 10 = d2)%N as -> by (symmetry; apply (N.mod_unique _ _ d1); lia).
    assert ((d1 * 10 + d2) / 10 = d1)%N as -> by (symmetry; apply (N.div_unique _ _ _ d2); lia).
    rewrite N.mod_small by lia. reflexivity.
  - intros [H ->]. exists (a / 100)%N, (a / 10 mod 10)%N, (a mod 10)%N. rewrite fmt03_spec by exact H. cbn [ndig app].
    rewrite N.div_div by lia. change (10 * 10)%N with 100%N. assert (A : (a / 100 < 10)%N) by (apply N.div_lt_upper_bound; lia).
    rewrite (N.mod_small (a / 100)) by exact A. split; [reflexivity|]. repeat split; try (apply N.mod_lt; lia); [exact A|].
    pose proof (N.div_mod a 10 ltac:(lia)). pose proof (N.div_mod (a / 10) 10 ltac:(lia)) as H1. rewrite N.div_div in H1 by lia. change (10 * 10)%N with 100%N in H1. lia.
Qed.
Lemma parse_int_N n : parse_int (str_of_N n) = Ok (Z.of_N n).
Proof. rewrite parse_int_digits; [now rewrite num_of_str|apply str_of_N_digits|apply str_of_N_ne]. Qed.
Lemma parse_int_fmt03 n : parse_int (fmt03 n) = Ok (Z.of_N n).
Proof. rewrite parse_int_digits; [now rewrite fmt03_num|apply fmt03_digits|]. unfold fmt03. intros H. apply app_eq_nil in H. destruct H as [_ H]. now apply str_of_N_ne in H. Qed.
Lemma before_dot_no s : Forall (fun c => Ascii.eqb c dot = false) s -> before_dot s = s.
Proof. induction 1 as [|c s H _ IH]; simpl; [reflexivity|]. now rewrite H, IH. Qed.
Lemma digits_no_dot s : digits s -> Forall (fun c => Ascii.eqb c dot = false) s.
Proof. apply Forall_impl. intros c H. now apply digit_not. Qed.

(** letters *)
Lemma span_letters_app s r : Forall (fun c => is_letter c = true) s -> match r with c :: _ => is_letter c = false | [] => True end ->
  span_letters (s ++ r) = (s, r).
Proof. intros H Hr. induction H as [|c s Hc Hs IH]; simpl.
  - destruct r as [|c r]; [reflexivity|]. simpl. now rewrite Hr.
  - rewrite Hc, IH. reflexivity. Qed.
Lemma first_letters_app s r : word s -> match r with c :: _ => is_letter c = false | [] => True end ->
  first_letters (s ++ r) = Some s.
Proof. intros [Hn H] Hr. destruct s as [|c s]; [contradiction|]. simpl. inversion H as [|? ? Hc Hs]; subst. rewrite Hc.
  rewrite (span_letters_app s r Hs Hr). reflexivity. Qed.
Lemma digit_not_letter c : is_digit c = true -> is_letter c = false.
Proof. unfold is_digit, is_letter. rewrite andb_true_iff, !N.leb_le. intros [H1 H2]. 
  rewrite orb_false_iff, !andb_false_iff, !N.leb_gt. lia. Qed.
Lemma letter_not_digit c : is_letter c = true -> is_digit c = false.
Proof. intros H. destruct (is_digit c) eqn:E; [|reflexivity]. apply digit_not_letter in E. congruence. Qed.
Lemma first_digits_skip p s : Forall (fun c => is_digit c = false) p -> first_digits (p ++ s) = first_digits s.
Proof. induction 1 as [|c p H _ IH]; [reflexivity|]. cbn [app first_digits]. now rewrite H. Qed.
Lemma first_digits_all s : digits s -> s <> [] -> first_digits s = Some s.
Proof. intros H Hn. destruct s as [|c s]; [contradiction|]. cbn [first_digits]. inversion H as [|? ? Hc Hs]; subst. rewrite Hc.
  now rewrite span_digits_all. Qed.
Lemma word_nodigits e : word e -> Forall (fun c => is_digit c = false) e.
Proof. intros [_ H]. revert H. apply Forall_impl. intros c. apply letter_not_digit. Qed.

Lemma row_by_Z_symbol t z e : symbol t z e -> exists r, row_by_Z t (Z.of_N z) = Some r /\ In r t /\ r_Z r = z /\ r_E r = e.
Proof. intros [[r [Hr [Hz He]]] U]. unfold row_by_Z. destruct (find _ t) as [r'|] eqn:F.
  - apply find_some in F. destruct F as [F1 F2]. apply Z.eqb_eq in F2. assert (r_Z r' = z) by lia. exists r'. repeat split; auto. now apply U.
  - exfalso. eapply find_none in F; [|exact Hr]. cbv beta in F. rewrite Hz, Z.eqb_refl in F. discriminate. Qed.
Lemma row_by_E_symbol t z e : symbol t z e -> exists r, row_by_E t e = Some r /\ r_Z r = z.
Proof. intros [[r [Hr [Hz He]]] U]. unfold row_by_E. destruct (find _ t) as [r'|] eqn:F.
  - apply find_some in F. destruct F as [F1 F2]. apply str_eqb_eq in F2. exists r'. split; [reflexivity|]. now apply U.
  - exfalso. eapply find_none in F; [|exact Hr]. cbv beta in F. rewrite He in F. assert (str_eqb e e = true) by now apply str_eqb_eq. congruence. Qed.

Definition W1 t z e := exists r, row_by_Z t (Z.of_N z) = Some r /\ r_E r = e.
Definition W2 t z e := exists r, row_by_E t e = Some r /\ r_Z r = z.
Lemma symbol_W1 t z e : symbol t z e -> W1 t z e.
Proof. intros S. destruct (row_by_Z_symbol t z e S) as [r [H1 [_ [_ H2]]]]. exists r. auto. Qed.
Lemma symbol_W2 t z e : symbol t z e -> W2 t z e.
Proof. intros S. exact (row_by_E_symbol t z e S). Qed.

Lemma get_zaidname_ok t z e a s : W1 t z e -> zaid_text z a s ->
  exists nm, get_zaidname t s = Ok (nm, formula e a).
Proof. intros S T. apply zaid_text_fmt in T. destruct T as [Ha ->]. unfold get_zaidname.
  assert (Dg : digits (str_of_N z ++ fmt03 a)) by (apply Forall_app; split; [apply str_of_N_digits|apply fmt03_digits]).
  rewrite before_dot_no by (now apply digits_no_dot). destruct (but3_app (str_of_N z) (fmt03 a) (fmt03_len a Ha)) as [-> ->].
  rewrite parse_int_N. cbn [bind]. destruct S as [r [-> He]]. cbn [of_opt bind]. rewrite parse_int_fmt03. cbn [bind]. rewrite He.
  exists (r_name r). unfold formula. destruct (N.eqb_spec a 0) as [->|Hn]; [reflexivity|].
  assert ((0 <? Z.of_N a)%Z = true) as -> by (apply Z.ltb_lt; lia). do 4 f_equal. destruct a; [contradiction|reflexivity]. Qed.

Lemma get_zaidnum_gen t z e p ds : W2 t z e -> word e -> Forall (fun c => is_digit c = false) p ->
  match p ++ ds with c :: _ => is_letter c = false | [] => True end -> digits ds -> ds <> [] -> (num_of ds < 1000)%N ->
  get_zaidnum t (e ++ p ++ ds) = Ok (str_of_N z ++ fmt03 (num_of ds)).
Proof. intros S W P L D N H. unfold get_zaidnum. rewrite first_letters_app by assumption. cbn [of_opt bind].
  destruct S as [r [-> Hz]]. cbn [of_opt bind]. rewrite first_digits_skip by (now apply word_nodigits).
  rewrite first_digits_skip by exact P. rewrite first_digits_all by assumption. now rewrite Hz. Qed.
Lemma get_zaidnum_nat t z e : W2 t z e -> word e -> get_zaidnum t e = Ok (str_of_N z ++ fmt03 0).
Proof. intros S W. unfold get_zaidnum. pose proof (first_letters_app e [] W I) as F. rewrite app_nil_r in F. rewrite F. cbn [of_opt bind].
  destruct S as [r [-> Hz]]. cbn [of_opt bind]. rewrite Hz.
  pose proof (first_digits_skip e [] (word_nodigits e W)) as Fd. rewrite app_nil_r in Fd. rewrite Fd. reflexivity. Qed.
Lemma get_zaidnum_formula t z e a : W2 t z e -> word e -> (a < 1000)%N -> get_zaidnum t (formula e a) = Ok (str_of_N z ++ fmt03 a).
Proof. intros S W H. unfold formula. destruct (N.eqb_spec a 0) as [->|Hn]; [now apply get_zaidnum_nat|].
  change (e ++ s2l "-" ++ str_of_N a) with (e ++ [dash] ++ str_of_N a). rewrite get_zaidnum_gen with (z := z); auto.
  - now rewrite num_of_str.
  - repeat constructor.
  - apply str_of_N_digits.
  - apply str_of_N_ne.
  - now rewrite num_of_str. Qed.

Lemma get_formulazaid_eq t z e a : W2 t z e -> word e -> (a < 1000)%N ->
  get_formulazaid t (e ++ str_of_N a) = Ok (str_of_N z ++ fmt03 a) /\ get_zaidnum t (e ++ str_of_N a) = Ok (str_of_N z ++ fmt03 a).
Proof. intros S W H.
  assert (L : match str_of_N a with c :: _ => is_letter c = false | [] => True end).
  { pose proof (str_of_N_digits a) as D. destruct (str_of_N a); [exact I|]. inversion D; subst. now apply digit_not_letter. }
  split.
  - unfold get_formulazaid. rewrite (span_letters_app e (str_of_N a)); [|apply W|exact L]. rewrite span_digits_all by apply str_of_N_digits.
    destruct W as [Wn Wl]. pose proof (str_of_N_ne a) as Na. destruct e as [|c e]; [contradiction|]. remember (str_of_N a) as sa eqn:E0. destruct sa as [|d s]; [congruence|]. 
    destruct S as [r [-> Hz]]. cbn [of_opt bind]. rewrite Hz. rewrite E0, num_of_str. reflexivity.
  - pose proof (get_zaidnum_gen t z e [] (str_of_N a) S W ltac:(constructor)) as G. cbn [app] in G. rewrite G; [now rewrite num_of_str|exact L|apply str_of_N_digits|apply str_of_N_ne|now rewrite num_of_str]. Qed.

Lemma zaid_text_parts z a s : zaid_text z a s -> but3 s = str_of_N z /\ last3 s = fmt03 a.
Proof. intros T. apply zaid_text_fmt in T. destruct T as [Ha ->]. apply but3_app. now apply fmt03_len. Qed.

(** mass of a zaid *)
Lemma get_zaid_mass_tab t r : NoDup (map r_idx t) -> In r t -> forall e i, e ++ i = r_idx r -> get_zaid_mass t e i = Ok (r_mass r).
Proof. intros N H e i E. unfold get_zaid_mass. rewrite E. destruct (find _ t) as [r'|] eqn:F.
  - apply find_some in F. destruct F as [F1 F2]. apply str_eqb_eq in F2. f_equal. f_equal. revert N H F1 F2. clear. induction t as [|x t IH]; intros N H1 H2 E; [destruct H1|].
    cbn [map] in N. inversion N; subst. destruct H1 as [->|H1], H2 as [->|H2]; auto.
    + exfalso. apply H3. rewrite <- E. now apply in_map.
    + exfalso. apply H3. rewrite E. now apply in_map.
  - exfalso. eapply find_none in F; [|exact H]. cbv beta in F. assert (str_eqb (r_idx r) (r_idx r) = true) by now apply str_eqb_eq. congruence. Qed.
Lemma get_zaid_mass_nat t z i : (forall r, In r t -> r_idx r <> str_of_N z ++ i) ->
  get_zaid_mass t (str_of_N z) i = if existsb (fun r => N.eqb (r_Z r) z) t
     then Ok (qsum (map (fun r => (r_mass r * r_abund r)%Q) (filter (fun r => N.eqb (r_Z r) z) t))) else Err KeyError.
Proof. intros H. unfold get_zaid_mass. destruct (find _ t) as [r'|] eqn:F.
  { apply find_some in F. destruct F as [F1 F2]. apply str_eqb_eq in F2. now apply H in F1. }
  rewrite parse_int_N. cbn [bind]. 
  assert (E : filter (fun r => Z.eqb (Z.of_N (r_Z r)) (Z.of_N z)) t = filter (fun r => N.eqb (r_Z r) z) t).
  { apply filter_ext. intros r. destruct (N.eqb_spec (r_Z r) z) as [->|Q]; [apply Z.eqb_refl|]. apply Z.eqb_neq. lia. }
  rewrite E. clear E. destruct (existsb _ t) eqn:X.
  - apply existsb_exists in X. destruct X as [r [X1 X2]]. destruct (filter (fun r => N.eqb (r_Z r) z) t) as [|a l] eqn:Ef; [|reflexivity].
    exfalso. assert (In r (filter (fun r => N.eqb (r_Z r) z) t)) by (apply filter_In; auto). rewrite Ef in H0. destruct H0.
  - destruct (filter (fun r => N.eqb (r_Z r) z) t) as [|a l] eqn:Ef; [reflexivity|]. exfalso. assert (In a (filter (fun r => N.eqb (r_Z r) z) t)) by (rewrite Ef; left; reflexivity).
    apply filter_In in H0. assert (existsb (fun r => N.eqb (r_Z r) z) t = true) by (apply existsb_exists; eauto). congruence. Qed.

(** reactions *)
Lemma reac_loop_acc t l : forall acc, reac_loop t acc l = match reac_loop t [] l with Ok r => Ok (acc ++ r) | Err e => Err e end.
Proof. induction l as [|r l IH]; intros acc; cbn [reac_loop]; [now rewrite app_nil_r|].
  destruct (daughter_num t (a_daughter r)) as [d|e]; [|destruct e; try reflexivity; now rewrite app_nil_r].
  rewrite IH, (IH ([] ++ _)). destruct (reac_loop t [] l); [|reflexivity]. now rewrite <- app_assoc. Qed.

Lemma get_libzaids_spec m lib x : distinct_libs m -> In (lib, x) (l_data m) ->
  NoDup (get_libzaids m lib) /\ (forall z, In z (get_libzaids m lib) <-> In (z, lib) x).
Proof. intros D H. unfold get_libzaids. rewrite (conv_loaded m lib x D H). clear.
  assert (G : forall acc, NoDup acc -> let r := fold_left (fun zs t => if str_eqb (snd t) lib
                then (if memb str_eqb (fst t) zs then zs else zs ++ [fst t]) else zs) x acc in
     NoDup r /\ (forall z, In z r <-> In z acc \/ In (z, lib) x)).
  { induction x as [|[z l] x IH]; intros acc N; cbn [fold_left fst snd].
    - split; [exact N|]. intros z. simpl. tauto.
    - destruct (str_eqb l lib) eqn:El.
      + apply str_eqb_eq in El. subst l. destruct (memb str_eqb z acc) eqn:Em.
        * apply memb_str in Em. destruct (IH acc N) as [I1 I2]. split; [exact I1|]. intros z'. rewrite I2. simpl.
          split; [tauto|]. intros [Q|[Q|Q]]; [tauto| |tauto]. injection Q as ->. tauto.
        * assert (Nz : ~ In z acc) by (intros Q; apply memb_str in Q; congruence).
          assert (N' : NoDup (acc ++ [z])). { clear - N Nz. induction acc as [|a acc IH]; simpl; [repeat constructor; auto|]. inversion N; subst. constructor.
            - rewrite in_app_iff. simpl. intros [Q|[Q|[]]]; [tauto|]. subst. apply Nz. left. reflexivity.
            - apply IH; [assumption|]. intros Q. apply Nz. right. exact Q. }
          destruct (IH (acc ++ [z]) N') as [I1 I2]. split; [exact I1|]. intros z'. rewrite I2, in_app_iff. simpl.
          split; [intros [[Q|[Q|[]]]|Q]; subst; tauto|]. intros [Q|[Q|Q]]; [tauto| |tauto]. injection Q as ->. tauto.
      + destruct (IH acc N) as [I1 I2]. split; [exact I1|]. intros z'. rewrite I2. simpl. split; [tauto|].
        intros [Q|[Q|Q]]; [tauto| |tauto]. injection Q as -> ->. assert (str_eqb lib lib = true) by now apply str_eqb_eq. congruence. }
  destruct (G [] ltac:(constructor)) as [G1 G2]. split; [exact G1|]. intros z. rewrite G2. simpl. tauto. Qed.
