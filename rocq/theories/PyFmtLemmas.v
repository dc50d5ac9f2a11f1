(** Lemmas about the number formatters of PyStr (proofs only). *)
From Verif Require Import PyBase PyLemmas PyStr PyStrLemmas WWTextModel WWTextSpec.
From Coq Require Import Lqa NArith Nnat Qpower Qabs.
Open Scope Q_scope.

Lemma inject_pos_le a b : (a <= b)%Z -> inject_Z a <= inject_Z b.
Proof. intros; now rewrite <- Zle_Qle. Qed.

Lemma Q_num_den q : q == inject_Z (Qnum q) / inject_Z (Zpos (Qden q)).
Proof. destruct q as [n d]. unfold Qdiv, Qinv, inject_Z, Qeq; simpl. nia. Qed.

Lemma p10_dlen n : (0 < n)%N -> p10 (Z.of_nat (dlen n) - 1) <= inject_Z (Z.of_N n) /\ inject_Z (Z.of_N n) < p10 (Z.of_nat (dlen n)).
Proof. intros H. destruct (dlen_spec n) as [H1 [H2 H3]]. specialize (H3 H).
  rewrite !p10_nonneg_Z by lia. rewrite <- Zle_Qle, <- Zlt_Qlt. split.
  - apply N2Z.inj_le in H3. rewrite N2Z.inj_pow in H3. rewrite N2Z.inj_sub in H3 by lia. rewrite nat_N_Z in H3. exact H3.
  - apply N2Z.inj_lt in H1. rewrite N2Z.inj_pow, nat_N_Z in H1. exact H1. Qed.

Lemma ilog10_spec q : 0 < q -> p10 (ilog10 q) <= q /\ q < p10 (ilog10 q + 1).
Proof. intros Hq. unfold ilog10.
  set (a := Z.of_nat (dlen (Z.to_N (Qnum q)))). set (b := Z.of_nat (dlen (N.pos (Qden q)))).
  assert (Hn : (0 < Qnum q)%Z) by (destruct q as [n d]; unfold Qlt in Hq; simpl in *; lia).
  destruct (p10_dlen (Z.to_N (Qnum q))) as [A1 A2]; [lia|]. fold a in A1, A2. rewrite Z2N.id in A1, A2 by lia.
  destruct (p10_dlen (N.pos (Qden q))) as [B1 B2]; [lia|]. fold b in B1, B2. simpl Z.of_N in B1, B2.
  pose proof (Q_num_den q) as E.
  set (N := inject_Z (Qnum q)) in *. set (D := inject_Z (Z.pos (Qden q))) in *.
  assert (HD : 0 < D) by (unfold D; rewrite <- (Zlt_Qlt 0); lia).
  assert (E2 : N == q * D) by (rewrite E; field; lra).
  assert (L : p10 (a - b - 1) <= q).
  { apply Qmult_le_r with (z := D); [exact HD|]. rewrite <- E2.
    apply Qle_trans with (p10 (a - b - 1) * p10 b).
    - rewrite (Qmult_comm (p10 (a - b - 1)) D), (Qmult_comm _ (p10 b)). apply Qmult_le_compat_r; [lra|]. apply Qlt_le_weak, p10_pos.
    - rewrite <- p10_plus. replace (a - b - 1 + b)%Z with (a - 1)%Z by lia. exact A1. }
  assert (U : q < p10 (a - b + 1)).
  { apply Qmult_lt_r with (z := D); [exact HD|]. rewrite <- E2.
    apply Qlt_le_trans with (p10 (a - b + 1) * p10 (b - 1)).
    - rewrite <- p10_plus. replace (a - b + 1 + (b - 1))%Z with a by lia. exact A2.
    - rewrite (Qmult_comm _ D), (Qmult_comm _ (p10 (b - 1))). apply Qmult_le_compat_r; [exact B1|]. apply Qlt_le_weak, p10_pos. }
  destruct (Qle_bool (p10 (a - b)) q) eqn:E3.
  - apply Qle_bool_iff in E3. split; assumption.
  - assert (~ p10 (a - b) <= q) by (rewrite <- Qle_bool_iff; congruence).
    split; [exact L|]. replace (a - b - 1 + 1)%Z with (a - b)%Z by lia. lra. Qed.

Lemma ilog10_uniq q x : 0 < q -> p10 x <= q -> q < p10 (x + 1) -> ilog10 q = x.
Proof. intros H H1 H2. destruct (ilog10_spec q H) as [A B].
  assert (ilog10 q < x + 1)%Z by (apply p10_lt_inv; lra).
  assert (x < ilog10 q + 1)%Z by (apply p10_lt_inv; lra). lia. Qed.

Lemma qround_even_spec q : inject_Z (qround_even q) - (1#2) <= q /\ q <= inject_Z (qround_even q) + (1#2).
Proof. destruct q as [n d]. unfold qround_even. cbn [Qnum Qden].
  pose proof (Z.div_mod n (Z.pos d) ltac:(lia)) as E. pose proof (Z.mod_pos_bound n (Z.pos d) ltac:(lia)) as B.
  set (f := (n / Z.pos d)%Z) in *. set (r := (n mod Z.pos d)%Z) in *. cbv zeta.
  assert (P : forall v : Z, (2 * v * Z.pos d - Z.pos d <= 2 * n <= 2 * v * Z.pos d + Z.pos d)%Z ->
     inject_Z v - (1#2) <= n # d /\ n # d <= inject_Z v + (1#2)).
  { intros v Hv. unfold Qle, Qminus, Qplus, Qopp, inject_Z. simpl. split; nia. }
  destruct (Z.ltb_spec (2 * r) (Z.pos d)); [apply P; nia|].
  destruct (Z.ltb_spec (Z.pos d) (2 * r)); [apply P; nia|].
  destruct (Z.even f); apply P; nia. Qed.

Lemma qround_even_int q z : q == inject_Z z -> qround_even q = z.
Proof. destruct q as [n d]. unfold Qeq, inject_Z. cbn [Qnum Qden]. intros H. unfold qround_even. cbn [Qnum Qden].
  assert (E : (n = z * Z.pos d)%Z) by lia. rewrite E, Z.div_mul, Z.mod_mul by lia.
  destruct (Z.ltb_spec (2 * 0) (Z.pos d)); [reflexivity|lia]. Qed.

Lemma qround_even_comp a b : a == b -> qround_even a = qround_even b.
Proof. intros H. destruct a as [n d], b as [m e]. unfold Qeq in H. cbn [Qnum Qden] in H. unfold qround_even. cbn [Qnum Qden].
  pose proof (Z.div_mod n (Z.pos d) ltac:(lia)) as E. pose proof (Z.mod_pos_bound n (Z.pos d) ltac:(lia)) as B.
  pose proof (Z.div_mod m (Z.pos e) ltac:(lia)) as E'. pose proof (Z.mod_pos_bound m (Z.pos e) ltac:(lia)) as B'.
  set (f := (n / Z.pos d)%Z) in *. set (r := (n mod Z.pos d)%Z) in *.
  set (g := (m / Z.pos e)%Z) in *. set (s := (m mod Z.pos e)%Z) in *.
  assert (K : ((f - g) * (Z.pos d * Z.pos e) = s * Z.pos d - r * Z.pos e)%Z) by nia.
  assert (0 <= s * Z.pos d < Z.pos d * Z.pos e)%Z by nia.
  assert (0 <= r * Z.pos e < Z.pos d * Z.pos e)%Z by nia.
  assert (Efg : f = g) by nia.
  assert (Esr : (s * Z.pos d = r * Z.pos e)%Z) by nia. rewrite Efg. clear Efg K E E'. cbv zeta.
  destruct (Z.ltb_spec (2 * r) (Z.pos d)); destruct (Z.ltb_spec (2 * s) (Z.pos e)); try reflexivity; try nia.
  destruct (Z.ltb_spec (Z.pos d) (2 * r)); destruct (Z.ltb_spec (Z.pos e) (2 * s)); try reflexivity; try nia. Qed.

Lemma p10_4 x : p10 x == inject_Z 10000 * p10 (x - 4).
Proof. rewrite <- (p10_nonneg_Z 4) by lia. rewrite <- p10_plus. replace (4 + (x - 4))%Z with x by lia. reflexivity. Qed.

Lemma dec5_spec q d x : 0 < q -> dec5 q = (d, x) ->
  (10000 <= d <= 99999)%Z /\ (ilog10 q <= x <= ilog10 q + 1)%Z /\
  Qabs (inject_Z d * p10 (x - 4) - q) <= (1#2) * p10 (ilog10 q - 4).
Proof. intros Hq. unfold dec5. destruct (ilog10_spec q Hq) as [A B]. set (y := ilog10 q) in *.
  set (P := p10 (y - 4)). assert (HP : 0 < P) by apply p10_pos.
  assert (A' : inject_Z 10000 <= q / P).
  { apply Qle_shift_div_l; [exact HP|]. unfold P. rewrite <- p10_4. exact A. }
  assert (B' : q / P < inject_Z 100000).
  { apply Qlt_shift_div_r; [exact HP|]. rewrite p10_succ, (p10_4 y) in B. fold P in B. change (inject_Z 100000) with (10 * inject_Z 10000). lra. }
  destruct (qround_even_spec (q / P)) as [R1 R2]. set (v := qround_even (q / P)) in *.
  assert (V1 : (10000 <= v)%Z).
  { apply Z.lt_succ_r. rewrite Zlt_Qlt. unfold Z.succ. rewrite inject_Z_plus. change (inject_Z 1) with 1. lra. }
  assert (V2 : (v <= 100000)%Z).
  { apply Z.lt_succ_r. rewrite Zlt_Qlt. unfold Z.succ. rewrite inject_Z_plus. change (inject_Z 1) with 1. lra. }
  assert (Eq : q == (q / P) * P) by (field; lra).
  assert (AB : Qabs (inject_Z v * P - q) <= (1#2) * P).
  { apply Qabs_Qle_condition. rewrite Eq. nra. }
  destruct (Z.eqb_spec v 100000) as [E|E]; intros H; injection H as <- <-.
  - split; [lia|]. split; [lia|].
    assert (EE : inject_Z 10000 * p10 (y + 1 - 4) == inject_Z v * P).
    { rewrite E. unfold P. replace (y + 1 - 4)%Z with (y - 4 + 1)%Z by lia. rewrite p10_succ. change (inject_Z 100000) with (inject_Z 10000 * 10). ring. }
    rewrite EE. exact AB.
  - split; [lia|]. split; [lia|]. exact AB. Qed.

Lemma dec5_exact d x q : (10000 <= d <= 99999)%Z -> q == inject_Z d * p10 (x - 4) -> dec5 q = (d, x).
Proof. intros Hd E. pose proof (p10_pos (x - 4)) as HP.
  assert (D1 : inject_Z 10000 <= inject_Z d) by (rewrite <- Zle_Qle; lia).
  assert (D2 : inject_Z d < inject_Z 100000) by (rewrite <- Zlt_Qlt; lia).
  assert (E10 : inject_Z 10000 == 10000) by reflexivity.
  assert (E11 : inject_Z 100000 == 100000) by reflexivity.
  assert (HL : ilog10 q = x).
  { apply ilog10_uniq.
    - rewrite E. nra.
    - rewrite E, (p10_4 x). nra.
    - rewrite E, p10_succ, (p10_4 x). nra. }
  unfold dec5. rewrite HL. rewrite (qround_even_int _ d).
  - destruct (Z.eqb_spec d 100000); [lia|reflexivity].
  - rewrite E. field. lra. Qed.

Lemma dec5_comp a b : 0 < a -> a == b -> dec5 a = dec5 b.
Proof. intros Ha E. unfold dec5. assert (HL : ilog10 a = ilog10 b).
  { destruct (ilog10_spec b) as [B1 B2]; [lra|]. apply ilog10_uniq; lra. }
  rewrite HL. rewrite (qround_even_comp _ (b / p10 (ilog10 b - 4))); [reflexivity|]. now rewrite E. Qed.

(** ** the text of the formatters *)
Lemma digits_app a b : digits a -> digits b -> digits (a ++ b).
Proof. intros; apply Forall_app; auto. Qed.
Lemma digits_firstn n s : digits s -> digits (firstn n s).
Proof. intros H. revert n; induction H; intros [|n]; simpl; constructor; auto. apply IHForall. Qed.
Lemma digits_skipn n s : digits s -> digits (skipn n s).
Proof. intros H. revert n; induction H; intros [|n]; simpl; try constructor; auto. Qed.
Lemma digits_zeros n : digits (repeat "0"%char n).
Proof. apply Forall_forall. intros c Hc. apply repeat_spec in Hc. subst. reflexivity. Qed.
Lemma num_of_zeros n s : num_of (repeat "0"%char n ++ s) = num_of s.
Proof. induction n as [|n IH]; [reflexivity|]. simpl. unfold num_of in *. simpl. exact IH. Qed.
Lemma num_of_5 d : (10000 <= d <= 99999)%Z -> Z.of_N (num_of (ndig 5 (Z.to_N d))) = d.
Proof. intros H. rewrite num_of_ndig. rewrite N.mod_small; [lia|]. change (10 ^ N.of_nat 5)%N with 100000%N. lia. Qed.

Lemma parse_exp_digits e x : (e = "e"%char \/ e = "E"%char) -> parse_exp (e :: exp_digits x) = Ok x.
Proof. intros He. unfold parse_exp. replace (Ascii.eqb e "e" || Ascii.eqb e "E")%bool with true by (destruct He; subst; reflexivity).
  unfold exp_digits. cbv zeta. set (n := Z.to_N (Z.abs x)).
  assert (D : digits (if (n <? 100)%N then ndig 2 n else str_of_N n)) by (destruct (n <? 100)%N; [apply ndig_digits|apply str_of_N_digits]).
  assert (Hne : (if (n <? 100)%N then ndig 2 n else str_of_N n) <> []).
  { destruct (n <? 100)%N; [discriminate || (intros H; apply (f_equal (@List.length ascii)) in H; rewrite ndig_length in H; discriminate)|apply str_of_N_ne]. }
  assert (V : num_of (if (n <? 100)%N then ndig 2 n else str_of_N n) = n).
  { destruct (N.ltb_spec n 100); [|apply num_of_str]. rewrite num_of_ndig. apply N.mod_small. exact H. }
  destruct (Z.ltb_spec x 0).
  - rewrite parse_int_neg by assumption. unfold str in *. rewrite V. f_equal. unfold n. lia.
  - rewrite parse_int_plus by assumption. unfold str in *. rewrite V. f_equal. unfold n. lia. Qed.

(** general shape: digits . digits [exp] *)
Lemma parse_float_shape ip fp ex e : digits ip -> ip <> [] -> digits fp ->
  (match ex with c :: _ => is_digit c = false | [] => True end) -> parse_exp ex = Ok e ->
  parse_float (ip ++ dot :: fp ++ ex) = Ok (inject_Z (Z.of_N (num_of (ip ++ fp))) * p10 (e - Z.of_nat (length fp)))
  /\ parse_float (minus :: ip ++ dot :: fp ++ ex) = Ok (- (inject_Z (Z.of_N (num_of (ip ++ fp))) * p10 (e - Z.of_nat (length fp)))).
Proof. intros Hi Hn Hf Hx He.
  assert (S1 : span_digits (ip ++ dot :: fp ++ ex) = (ip, dot :: fp ++ ex)) by (apply span_digits_app; [exact Hi|reflexivity]).
  assert (S2 : span_digits (fp ++ ex) = (fp, ex)) by (apply span_digits_app; assumption).
  assert (T1 : take_sign (ip ++ dot :: fp ++ ex) = (false, ip ++ dot :: fp ++ ex)) by (apply take_sign_digit; assumption).
  unfold parse_float. rewrite T1.
  change (take_sign (minus :: ip ++ dot :: fp ++ ex)) with (true, ip ++ dot :: fp ++ ex). cbv iota beta.
  rewrite S1. replace (Ascii.eqb dot dot) with true by reflexivity. rewrite S2.
  destruct (ip ++ fp) as [|c l] eqn:E; [destruct ip; [contradiction|discriminate]|].
  rewrite He. cbn [bind]. split; reflexivity. Qed.

Lemma exp_digits_nodigit e x : (e = "e"%char \/ e = "E"%char) -> match e :: exp_digits x with c :: _ => is_digit c = false | [] => True end.
Proof. intros [-> | ->]; reflexivity. Qed.

Lemma sci_shape e d x : exists c cs, ndig 5 (Z.to_N d) = [c] ++ cs /\ length cs = 4%nat /\ sci e d x = [c] ++ dot :: cs ++ e :: exp_digits x.
Proof. unfold sci. pose proof (ndig_length 5 (Z.to_N d)) as L. destruct (ndig 5 (Z.to_N d)) as [|c cs] eqn:E; [discriminate|].
  exists c, cs. repeat split. simpl in L. lia. Qed.

Lemma parse_sci e d x : (e = "e"%char \/ e = "E"%char) -> (10000 <= d <= 99999)%Z ->
  parse_float (sci e d x) = Ok (inject_Z d * p10 (x - 4)) /\ parse_float (minus :: sci e d x) = Ok (- (inject_Z d * p10 (x - 4))).
Proof. intros He Hd. destruct (sci_shape e d x) as [c [cs [E1 [L E2]]]]. rewrite E2.
  pose proof (ndig_digits 5 (Z.to_N d)) as D. rewrite E1 in D. apply Forall_app in D. destruct D as [D1 D2].
  destruct (parse_float_shape [c] cs (e :: exp_digits x) x D1 ltac:(discriminate) D2 (exp_digits_nodigit e x He) (parse_exp_digits e x He)) as [G1 G2].
  rewrite <- E1, num_of_5, L in G1, G2 by exact Hd. split; [exact G1|exact G2]. Qed.

Lemma fmt_g_pos_parse q : 0 < q -> let (d, x) := dec5 q in
  parse_float (fmt_g_pos q) = Ok (inject_Z d * p10 (x - 4)) /\ parse_float (minus :: fmt_g_pos q) = Ok (- (inject_Z d * p10 (x - 4))).
Proof. intros Hq. destruct (dec5 q) as [d x] eqn:E. destruct (dec5_spec q d x Hq E) as [Hd _].
  unfold fmt_g_pos. rewrite E. destruct ((-4 <=? x)%Z && (x <? 5)%Z)%bool eqn:Hx; [|apply parse_sci; auto].
  apply andb_true_iff in Hx. destruct Hx as [X1 X2]. apply Z.leb_le in X1. apply Z.ltb_lt in X2.
  pose proof (ndig_digits 5 (Z.to_N d)) as D. pose proof (ndig_length 5 (Z.to_N d)) as L.
  destruct (Z.leb_spec 0 x) as [H0|H0].
  - destruct (parse_float_shape (firstn (S (Z.to_nat x)) (ndig 5 (Z.to_N d))) (skipn (S (Z.to_nat x)) (ndig 5 (Z.to_N d))) [] 0) as [G1 G2].
    + now apply digits_firstn.
    + intros Hf. apply (f_equal (@List.length ascii)) in Hf. rewrite firstn_length, L in Hf. simpl in Hf. lia.
    + now apply digits_skipn.
    + exact I.
    + reflexivity.
    + rewrite firstn_skipn, num_of_5, app_nil_r, skipn_length, L in G1, G2 by exact Hd.
      replace (0 - Z.of_nat (5 - S (Z.to_nat x)))%Z with (x - 4)%Z in G1, G2 by lia. split; assumption.
  - destruct (parse_float_shape ["0"%char] (repeat "0"%char (Z.to_nat (- x - 1)) ++ ndig 5 (Z.to_N d)) [] 0) as [G1 G2].
    + repeat constructor.
    + discriminate.
    + apply digits_app; [apply digits_zeros|exact D].
    + exact I.
    + reflexivity.
    + change (["0"%char] ++ repeat "0"%char (Z.to_nat (- x - 1)) ++ ndig 5 (Z.to_N d))
        with (repeat "0"%char (S (Z.to_nat (- x - 1))) ++ ndig 5 (Z.to_N d)) in G1, G2.
      rewrite num_of_zeros, num_of_5, app_nil_r, app_length, repeat_length, L in G1, G2 by exact Hd.
      replace (0 - Z.of_nat (Z.to_nat (- x - 1) + 5))%Z with (x - 4)%Z in G1, G2 by lia. split; assumption. Qed.

Lemma Qcase q : (Qeq_bool q 0 = true /\ q == 0) \/ (Qeq_bool q 0 = false /\ Qle_bool 0 q = true /\ 0 < q) \/ (Qeq_bool q 0 = false /\ Qle_bool 0 q = false /\ 0 < - q).
Proof. destruct (Qeq_bool q 0) eqn:E.
  - left. split; [reflexivity|]. now apply Qeq_bool_iff.
  - right. assert (~ q == 0) by (rewrite <- Qeq_bool_iff; congruence).
    destruct (Qle_bool 0 q) eqn:E2.
    + left. apply Qle_bool_iff in E2. repeat split. lra.
    + right. assert (~ 0 <= q) by (rewrite <- Qle_bool_iff; congruence). repeat split. lra. Qed.

Lemma parse_fmt_g q : parse_float (fmt_g q) = Ok (round5 q).
Proof. unfold fmt_g, round5. destruct (Qcase q) as [[-> _]|[[-> [-> H]]|[-> [-> H]]]]; [reflexivity| |].
  - pose proof (fmt_g_pos_parse q H). destruct (dec5 q). tauto.
  - pose proof (fmt_g_pos_parse (-q) H). destruct (dec5 (-q)). tauto. Qed.
Lemma parse_fmt_E q : parse_float (fmt_E q) = Ok (round5 q).
Proof. unfold fmt_E, round5. destruct (Qcase q) as [[-> _]|[[-> [-> H]]|[-> [-> H]]]]; [reflexivity| |].
  - destruct (dec5 q) as [d x] eqn:E. destruct (dec5_spec q d x H E) as [Hd _]. apply parse_sci; auto.
  - destruct (dec5 (-q)) as [d x] eqn:E. destruct (dec5_spec (-q) d x H E) as [Hd _]. apply parse_sci; auto. Qed.

(** ** accuracy and stability of the rounding *)
Lemma round5_pos_acc q d x : 0 < q -> dec5 q = (d, x) -> Qabs (inject_Z d * p10 (x - 4) - q) <= (1 # 20000) * q.
Proof. intros Hq E. destruct (dec5_spec q d x Hq E) as [_ [_ H]]. eapply Qle_trans; [exact H|].
  destruct (ilog10_spec q Hq) as [A _]. rewrite (p10_4 (ilog10 q)) in A. change (inject_Z 10000) with 10000 in A. lra. Qed.
Lemma round5_acc q : Qabs (round5 q - q) <= (1 # 20000) * Qabs q.
Proof. unfold round5. destruct (Qcase q) as [[-> H]|[[-> [-> H]]|[-> [-> H]]]].
  - setoid_replace (inject_Z 0 * p10 (-4) - q) with 0 by (rewrite H; reflexivity). rewrite H. discriminate.
  - destruct (dec5 q) as [d x] eqn:E. rewrite (Qabs_pos q) by lra. now apply round5_pos_acc.
  - destruct (dec5 (-q)) as [d x] eqn:E. rewrite (Qabs_neg q) by lra.
    setoid_replace (- (inject_Z d * p10 (x - 4)) - q) with (- (inject_Z d * p10 (x - 4) - (- q))) by ring.
    rewrite Qabs_opp. now apply round5_pos_acc. Qed.

Lemma mant_pos d x : (10000 <= d <= 99999)%Z -> 0 < inject_Z d * p10 (x - 4).
Proof. intros H. apply Qmult_lt_0_compat; [rewrite <- (Zlt_Qlt 0); lia|apply p10_pos]. Qed.

Lemma Qeq_bool_comp a b : a == b -> Qeq_bool a 0 = Qeq_bool b 0.
Proof. intros H. destruct (Qeq_bool a 0) eqn:A, (Qeq_bool b 0) eqn:B; auto.
  - apply Qeq_bool_iff in A. assert (b == 0) by lra. apply Qeq_bool_iff in H0. congruence.
  - apply Qeq_bool_iff in B. assert (a == 0) by lra. apply Qeq_bool_iff in H0. congruence. Qed.
Lemma Qle_bool_comp a b : a == b -> Qle_bool 0 a = Qle_bool 0 b.
Proof. intros H. destruct (Qle_bool 0 a) eqn:A, (Qle_bool 0 b) eqn:B; auto.
  - apply Qle_bool_iff in A. assert (0 <= b) by lra. apply Qle_bool_iff in H0. congruence.
  - apply Qle_bool_iff in B. assert (0 <= a) by lra. apply Qle_bool_iff in H0. congruence. Qed.

Lemma round5_comp a b : a == b -> round5 a = round5 b.
Proof. intros H. unfold round5. rewrite (Qeq_bool_comp a b H), (Qle_bool_comp a b H).
  destruct (Qcase b) as [[-> Hb]|[[-> [-> Hb]]|[-> [-> Hb]]]]; [reflexivity| |].
  - rewrite (dec5_comp a b) by lra. reflexivity.
  - rewrite (dec5_comp (-a) (-b)) by lra. reflexivity. Qed.
Lemma fmt_g_comp a b : a == b -> fmt_g a = fmt_g b.
Proof. intros H. unfold fmt_g, fmt_g_pos. rewrite (Qeq_bool_comp a b H), (Qle_bool_comp a b H).
  destruct (Qcase b) as [[-> Hb]|[[-> [-> Hb]]|[-> [-> Hb]]]]; [reflexivity| |].
  - rewrite (dec5_comp a b) by lra. reflexivity.
  - rewrite (dec5_comp (-a) (-b)) by lra. reflexivity. Qed.
Lemma fmt_E_comp a b : a == b -> fmt_E a = fmt_E b.
Proof. intros H. unfold fmt_E. rewrite (Qeq_bool_comp a b H), (Qle_bool_comp a b H).
  destruct (Qcase b) as [[-> Hb]|[[-> [-> Hb]]|[-> [-> Hb]]]]; [reflexivity| |].
  - rewrite (dec5_comp a b) by lra. reflexivity.
  - rewrite (dec5_comp (-a) (-b)) by lra. reflexivity. Qed.

(** decimal classification of a number and of its rounding coincide *)
Lemma round5_cases q :
  (Qeq_bool q 0 = true /\ Qeq_bool (round5 q) 0 = true) \/
  (exists d x, Qeq_bool q 0 = false /\ Qle_bool 0 q = true /\ dec5 q = (d, x) /\
     Qeq_bool (round5 q) 0 = false /\ Qle_bool 0 (round5 q) = true /\ dec5 (round5 q) = (d, x)) \/
  (exists d x, Qeq_bool q 0 = false /\ Qle_bool 0 q = false /\ dec5 (-q) = (d, x) /\
     Qeq_bool (round5 q) 0 = false /\ Qle_bool 0 (round5 q) = false /\ dec5 (- round5 q) = (d, x)).
Proof. unfold round5. destruct (Qcase q) as [[-> Hb]|[[-> [-> Hb]]|[-> [-> Hb]]]].
  - left. split; reflexivity.
  - right; left. destruct (dec5 q) as [d x] eqn:E. exists d, x. destruct (dec5_spec q d x Hb E) as [Hd _].
    pose proof (mant_pos d x Hd) as HP. repeat split.
    + destruct (Qeq_bool (inject_Z d * p10 (x - 4)) 0) eqn:F; [|reflexivity]. apply Qeq_bool_iff in F. lra.
    + apply Qle_bool_iff. lra.
    + apply dec5_exact; [exact Hd|reflexivity].
  - right; right. destruct (dec5 (-q)) as [d x] eqn:E. exists d, x. destruct (dec5_spec (-q) d x Hb E) as [Hd _].
    pose proof (mant_pos d x Hd) as HP. repeat split.
    + destruct (Qeq_bool (- (inject_Z d * p10 (x - 4))) 0) eqn:F; [|reflexivity]. apply Qeq_bool_iff in F. lra.
    + destruct (Qle_bool 0 (- (inject_Z d * p10 (x - 4)))) eqn:F; [|reflexivity]. apply Qle_bool_iff in F. lra.
    + apply dec5_exact; [exact Hd|ring]. Qed.
Lemma fmt_g_round5 q : fmt_g (round5 q) = fmt_g q.
Proof. unfold fmt_g at 1 2, fmt_g_pos.
  destruct (round5_cases q) as [[E1 E2]|[[d [x [E1 [E2 [E3 [E4 [E5 E6]]]]]]]|[d [x [E1 [E2 [E3 [E4 [E5 E6]]]]]]]]].
  - rewrite E1, E2. reflexivity.
  - rewrite E1, E2, E4, E5. rewrite E3, E6. reflexivity.
  - rewrite E1, E2, E4, E5. rewrite E3, E6. reflexivity. Qed.
Lemma fmt_E_round5 q : fmt_E (round5 q) = fmt_E q.
Proof. unfold fmt_E.
  destruct (round5_cases q) as [[E1 E2]|[[d [x [E1 [E2 [E3 [E4 [E5 E6]]]]]]]|[d [x [E1 [E2 [E3 [E4 [E5 E6]]]]]]]]].
  - rewrite E1, E2. reflexivity.
  - rewrite E1, E2, E4, E5. rewrite E3, E6. reflexivity.
  - rewrite E1, E2, E4, E5. rewrite E3, E6. reflexivity. Qed.
Lemma round5_idem q : round5 (round5 q) = round5 q.
Proof. pose proof (parse_fmt_g (round5 q)) as H. rewrite fmt_g_round5, parse_fmt_g in H. congruence. Qed.

(** integers of at most five digits are printed exactly *)
Lemma round5_int n : (Z.abs n < 100000)%Z -> round5 (inject_Z n) == inject_Z n.
Proof.
  assert (P : forall m, (0 < m < 100000)%Z -> exists d x, (10000 <= d <= 99999)%Z /\ inject_Z m == inject_Z d * p10 (x - 4)).
  { intros m Hm.
    assert (K : forall k, (0 <= k)%Z -> inject_Z m == inject_Z (m * 10 ^ k) * p10 (4 - k - 4)).
    { intros k Hk. rewrite inject_Z_mult, <- p10_nonneg_Z by exact Hk. rewrite <- Qmult_assoc, <- p10_plus.
      replace (k + (4 - k - 4))%Z with 0%Z by lia. rewrite p10_0. ring. }
    destruct (Z.ltb_spec m 10); [exists (m * 10 ^ 4)%Z, (4 - 4)%Z; split; [lia|]; apply K; lia|].
    destruct (Z.ltb_spec m 100); [exists (m * 10 ^ 3)%Z, (4 - 3)%Z; split; [lia|]; apply K; lia|].
    destruct (Z.ltb_spec m 1000); [exists (m * 10 ^ 2)%Z, (4 - 2)%Z; split; [lia|]; apply K; lia|].
    destruct (Z.ltb_spec m 10000); [exists (m * 10 ^ 1)%Z, (4 - 1)%Z; split; [lia|]; apply K; lia|].
    exists (m * 10 ^ 0)%Z, (4 - 0)%Z; split; [lia|]; apply K; lia. }
  intros Hn. unfold round5. destruct (Qcase (inject_Z n)) as [[-> H]|[[-> [-> H]]|[-> [-> H]]]].
  - rewrite H. reflexivity.
  - assert (0 < n)%Z by (rewrite Zlt_Qlt; exact H). destruct (P n ltac:(lia)) as [d [x [Hd E]]].
    rewrite (dec5_exact d x _ Hd E). now rewrite E.
  - assert (0 < - n)%Z by (rewrite Zlt_Qlt, inject_Z_opp; exact H). destruct (P (-n)%Z ltac:(lia)) as [d [x [Hd E]]].
    rewrite inject_Z_opp in E. rewrite (dec5_exact d x _ Hd E). rewrite <- E. ring. Qed.

(** ** tokens: no blanks, bounded length *)
Lemma exp_digits_no_ws x : no_ws (exp_digits x).
Proof. unfold exp_digits. constructor; [destruct (x <? 0)%Z; reflexivity|].
  apply digits_no_ws. destruct (_ <? 100)%N; [apply ndig_digits|apply str_of_N_digits]. Qed.
Lemma sci_no_ws e d x : (e = "e"%char \/ e = "E"%char) -> no_ws (sci e d x) /\ sci e d x <> [].
Proof. intros He. destruct (sci_shape e d x) as [c [cs [E1 [L E2]]]]. rewrite E2.
  pose proof (digits_no_ws _ (ndig_digits 5 (Z.to_N d))) as D. rewrite E1 in D. apply Forall_app in D. destruct D as [D1 D2].
  split; [|destruct cs; discriminate]. apply Forall_app. split; [exact D1|]. constructor; [reflexivity|]. apply Forall_app. split; [exact D2|].
  constructor; [destruct He; subst; reflexivity|]. apply exp_digits_no_ws. Qed.
Lemma fmt_g_pos_no_ws q : no_ws (fmt_g_pos q) /\ fmt_g_pos q <> [].
Proof. unfold fmt_g_pos. destruct (dec5 q) as [d x]. destruct (_ && _)%bool; [|apply sci_no_ws; auto].
  pose proof (ndig_digits 5 (Z.to_N d)) as D. destruct (0 <=? x)%Z.
  - split; [|intros E; apply app_eq_nil in E; destruct E; discriminate]. apply Forall_app. split; [apply digits_no_ws; now apply digits_firstn|].
    constructor; [reflexivity|]. apply digits_no_ws; now apply digits_skipn.
  - split; [|discriminate]. constructor; [reflexivity|]. constructor; [reflexivity|]. apply digits_no_ws. apply digits_app; [apply digits_zeros|exact D]. Qed.
Lemma fmt_g_no_ws q : no_ws (fmt_g q) /\ fmt_g q <> [].
Proof. unfold fmt_g. destruct (Qeq_bool q 0); [split; [repeat constructor|discriminate]|].
  destruct (Qle_bool 0 q); [apply fmt_g_pos_no_ws|]. split; [|discriminate]. constructor; [reflexivity|]. apply fmt_g_pos_no_ws. Qed.
Lemma fmt_E_no_ws q : no_ws (fmt_E q) /\ fmt_E q <> [].
Proof. unfold fmt_E. destruct (Qeq_bool q 0); [split; [repeat constructor|discriminate]|].
  destruct (Qle_bool 0 q); [destruct (dec5 q); apply sci_no_ws; auto|]. destruct (dec5 (-q)). split; [|discriminate].
  constructor; [reflexivity|]. apply sci_no_ws; auto. Qed.

Lemma exp_digits_len x : (Z.abs x < 1000)%Z -> (length (exp_digits x) <= 4)%nat.
Proof. intros H. unfold exp_digits. cbv zeta. cbn [List.length]. set (n := Z.to_N (Z.abs x)).
  destruct (N.ltb_spec n 100); [rewrite ndig_length; lia|]. unfold str_of_N. rewrite ndig_length.
  destruct (dlen_spec n) as [_ [H1 H2]].
  destruct (le_lt_dec (dlen n) 3) as [L|L]; [lia|]. exfalso. specialize (H2 ltac:(lia)).
  assert (10 ^ 3 <= 10 ^ (N.of_nat (dlen n) - 1))%N by (apply N.pow_le_mono_r; lia).
  change (10 ^ 3)%N with 1000%N in H3. unfold n in *. lia. Qed.
Lemma sci_len e d x : (Z.abs x < 1000)%Z -> (length (sci e d x) <= 11)%nat.
Proof. intros H. destruct (sci_shape e d x) as [c [cs [E1 [L E2]]]]. rewrite E2. rewrite app_length. cbn [List.length]. rewrite app_length. cbn [List.length].
  pose proof (exp_digits_len x H). rewrite L. lia. Qed.


Lemma in_range_exp q d x : 0 < q -> p10 (-999) <= q < p10 998 -> dec5 q = (d, x) -> (Z.abs x < 1000)%Z.
Proof. intros H [H1 H2] E. destruct (dec5_spec q d x H E) as [_ [X _]]. destruct (ilog10_spec q H) as [A B].
  assert (ilog10 q < 998)%Z by (apply p10_lt_inv; lra).
  assert (-999 < ilog10 q + 1)%Z by (apply p10_lt_inv; lra). lia. Qed.
Lemma fmt_g_pos_len q : 0 < q -> p10 (-999) <= q < p10 998 -> (length (fmt_g_pos q) <= 11)%nat.
Proof. intros H HR. unfold fmt_g_pos. destruct (dec5 q) as [d x] eqn:E. pose proof (in_range_exp q d x H HR E) as X.
  destruct (_ && _)%bool eqn:B; [|now apply sci_len]. apply andb_true_iff in B. destruct B as [X1 X2]. apply Z.leb_le in X1. apply Z.ltb_lt in X2.
  destruct (0 <=? x)%Z.
  - rewrite app_length. cbn [List.length]. rewrite firstn_length, skipn_length, ndig_length. lia.
  - cbn [List.length]. rewrite app_length, repeat_length, ndig_length. lia. Qed.
Lemma fmt_g_len q : in_range q -> (length (fmt_g q) <= 12)%nat.
Proof. intros HR. unfold fmt_g. destruct (Qcase q) as [[-> H]|[[-> [-> H]]|[-> [-> H]]]]; [simpl; lia| |].
  - destruct HR as [HR|HR]; [lra|]. rewrite Qabs_pos in HR by lra. pose proof (fmt_g_pos_len q H HR). lia.
  - destruct HR as [HR|HR]; [lra|]. rewrite Qabs_neg in HR by lra. pose proof (fmt_g_pos_len (-q) H HR). cbn [List.length]. lia. Qed.
Lemma fmt_E_len q : in_range q -> (length (fmt_E q) <= 12)%nat.
Proof. intros HR. unfold fmt_E. destruct (Qcase q) as [[-> H]|[[-> [-> H]]|[-> [-> H]]]]; [simpl; lia| |].
  - destruct HR as [HR|HR]; [lra|]. rewrite Qabs_pos in HR by lra. destruct (dec5 q) as [d x] eqn:E. pose proof (sci_len "E" d x (in_range_exp q d x H HR E)). lia.
  - destruct HR as [HR|HR]; [lra|]. rewrite Qabs_neg in HR by lra. destruct (dec5 (-q)) as [d x] eqn:E. pose proof (sci_len "E" d x (in_range_exp (-q) d x H HR E)). cbn [List.length]. lia. Qed.
