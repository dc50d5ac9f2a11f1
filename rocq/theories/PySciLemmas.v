(** Lemmas about PySci (proofs only). *)
From Verif Require Import PyBase PyLemmas PyStr PyStrLemmas PyFmtLemmas PySci.
From Coq Require Import Lqa NArith Nnat Qpower Qabs.
Open Scope Q_scope.

Lemma p10_k k x : p10 x == inject_Z (10 ^ Z.of_nat k) * p10 (x - Z.of_nat k).
Proof. rewrite <- (p10_nonneg_Z (Z.of_nat k)) by lia. rewrite <- p10_plus. replace (Z.of_nat k + (x - Z.of_nat k))%Z with x by lia. reflexivity. Qed.
Lemma pow_k k : (0 < 10 ^ Z.of_nat k)%Z. Proof. apply Z.pow_pos_nonneg; lia. Qed.
Lemma pow_k1 k : (10 ^ (Z.of_nat k + 1) = 10 * 10 ^ Z.of_nat k)%Z. Proof. rewrite Z.pow_add_r by lia. change (10 ^ 1)%Z with 10%Z. lia. Qed.

Lemma decn_spec k q d x : 0 < q -> decn k q = (d, x) ->
  (10 ^ Z.of_nat k <= d < 10 ^ (Z.of_nat k + 1))%Z /\ (ilog10 q <= x <= ilog10 q + 1)%Z /\
  Qabs (inject_Z d * p10 (x - Z.of_nat k) - q) <= (1#2) * p10 (ilog10 q - Z.of_nat k).
Proof.
  intros Hq. unfold decn. destruct (ilog10_spec q Hq) as [A B]. set (y := ilog10 q) in *. set (K := Z.of_nat k) in *. set (T := (10 ^ K)%Z) in *.
  assert (HT : (0 < T)%Z) by apply pow_k. assert (HT1 : (10 ^ (K + 1) = 10 * T)%Z) by apply pow_k1. rewrite HT1.
  set (P := p10 (y - K)). assert (HP : 0 < P) by apply p10_pos.
  assert (A' : inject_Z T <= q / P) by (apply Qle_shift_div_l; [exact HP|]; unfold P, T, K; rewrite <- p10_k; exact A).
  assert (B' : q / P < inject_Z (10 * T)).
  { apply Qlt_shift_div_r; [exact HP|]. rewrite p10_succ, (p10_k k y) in B. fold K in B. fold T in B. fold P in B. rewrite inject_Z_mult. change (inject_Z 10) with 10. lra. }
  destruct (qround_even_spec (q / P)) as [R1 R2]. set (v := qround_even (q / P)) in *.
  assert (V1 : (T <= v)%Z). { apply Z.lt_succ_r. rewrite Zlt_Qlt. unfold Z.succ. rewrite inject_Z_plus. change (inject_Z 1) with 1. lra. }
  assert (V2 : (v <= 10 * T)%Z). { apply Z.lt_succ_r. rewrite Zlt_Qlt. unfold Z.succ. rewrite inject_Z_plus. change (inject_Z 1) with 1. lra. }
  assert (Eq : q == (q / P) * P) by (field; lra).
  assert (AB : Qabs (inject_Z v * P - q) <= (1#2) * P) by (apply Qabs_Qle_condition; rewrite Eq; nra).
  destruct (Z.eqb_spec v (10 * T)) as [E|E]; intros H; injection H as <- <-.
  - split; [lia|]. split; [lia|].
    assert (EE : inject_Z T * p10 (y + 1 - K) == inject_Z v * P).
    { rewrite E. unfold P. replace (y + 1 - K)%Z with (y - K + 1)%Z by lia. rewrite p10_succ, inject_Z_mult. change (inject_Z 10) with 10. ring. }
    rewrite EE. exact AB.
  - split; [lia|]. split; [lia|]. exact AB.
Qed.
Lemma decn_exact k d x q : (10 ^ Z.of_nat k <= d < 10 ^ (Z.of_nat k + 1))%Z -> q == inject_Z d * p10 (x - Z.of_nat k) -> decn k q = (d, x).
Proof.
  intros Hd E. pose proof (p10_pos (x - Z.of_nat k)) as HP. rewrite pow_k1 in Hd. pose proof (pow_k k) as HT.
  assert (D1 : inject_Z (10 ^ Z.of_nat k) <= inject_Z d) by (rewrite <- Zle_Qle; lia).
  assert (D2 : inject_Z d < 10 * inject_Z (10 ^ Z.of_nat k)) by (change 10 with (inject_Z 10); rewrite <- inject_Z_mult, <- Zlt_Qlt; lia).
  assert (D0 : 0 < inject_Z (10 ^ Z.of_nat k)) by (change 0 with (inject_Z 0); rewrite <- Zlt_Qlt; lia).
  assert (HL : ilog10 q = x).
  { apply ilog10_uniq; [rewrite E; nra|rewrite E, (p10_k k x); nra|rewrite E, p10_succ, (p10_k k x); nra]. }
  unfold decn. rewrite HL, (qround_even_int _ d), pow_k1; [destruct (Z.eqb_spec d (10 * 10 ^ Z.of_nat k)); [lia|reflexivity]|]. rewrite E. field. lra.
Qed.
Lemma decn_comp k a b : 0 < a -> a == b -> decn k a = decn k b.
Proof.
  intros Ha E. unfold decn. assert (HL : ilog10 a = ilog10 b) by (destruct (ilog10_spec b) as [B1 B2]; [lra|]; apply ilog10_uniq; lra).
  rewrite HL, (qround_even_comp _ (b / p10 (ilog10 b - Z.of_nat k))); [reflexivity|]. now rewrite E.
Qed.
Lemma num_of_n k d : (0 <= d < 10 ^ (Z.of_nat k + 1))%Z -> Z.of_N (num_of (ndig (S k) (Z.to_N d))) = d.
Proof.
  intros H. rewrite num_of_ndig, N.mod_small; [lia|]. apply N2Z.inj_lt. rewrite N2Z.inj_pow, nat_N_Z. change (Z.of_N 10) with 10%Z. rewrite Nat2Z.inj_succ.
  unfold Z.succ. rewrite Z2N.id by lia. lia.
Qed.
Lemma exp_text_ok st e x : (e = "e"%char \/ e = "E"%char) -> parse_exp (e :: exp_text st x) = Ok x.
Proof.
  intros He. destruct st; [exact (parse_exp_digits e x He)|]. unfold parse_exp. replace (Ascii.eqb e "e" || Ascii.eqb e "E")%bool with true by (destruct He; subst; reflexivity).
  cbn [exp_text]. pose proof (str_of_N_digits (Z.to_N (Z.abs x))) as D. pose proof (str_of_N_ne (Z.to_N (Z.abs x))) as NE. destruct (Z.ltb_spec x 0).
  - rewrite parse_int_neg by assumption. rewrite num_of_str. f_equal. lia.
  - rewrite parse_int_plus by assumption. rewrite num_of_str. f_equal. lia.
Qed.
Lemma parse_scin st e k d x : (e = "e"%char \/ e = "E"%char) -> (0 <= d < 10 ^ (Z.of_nat k + 1))%Z ->
  parse_float (scin st e k d x) = Ok (inject_Z d * p10 (x - Z.of_nat k)) /\ parse_float (minus :: scin st e k d x) = Ok (- (inject_Z d * p10 (x - Z.of_nat k))).
Proof.
  intros He Hd. unfold scin. pose proof (ndig_length (S k) (Z.to_N d)) as L. pose proof (ndig_digits (S k) (Z.to_N d)) as D. pose proof (num_of_n k d Hd) as V.
  destruct (ndig (S k) (Z.to_N d)) as [|c cs]; [discriminate L|]. injection L as L. pose proof (Forall_inv D) as D1. pose proof (Forall_inv_tail D) as D2.
  assert (X : match e :: exp_text st x with c :: _ => is_digit c = false | [] => True end) by (destruct He as [-> | ->]; reflexivity).
  destruct (parse_float_shape [c] cs (e :: exp_text st x) x (Forall_cons c D1 (Forall_nil _)) ltac:(discriminate) D2 X (exp_text_ok st e x He)) as [G1 G2].
  cbn [app] in G1, G2. rewrite V in G1, G2. rewrite L in G1, G2. split; [exact G1|exact G2].
Qed.
Lemma parse_fmt_sci st e k q : (e = "e"%char \/ e = "E"%char) -> parse_float (fmt_sci st e k q) = Ok (roundn st k q).
Proof.
  intros He. unfold fmt_sci, roundn. pose proof (pow_k k) as HT. destruct (Qcase q) as [[-> _]|[[-> [-> H]]|[-> [-> H]]]].
  - apply (parse_scin st e k 0); [exact He|]. rewrite pow_k1. lia.
  - destruct (decn k q) as [d x] eqn:E. destruct (decn_spec k q d x H E) as [Hd _]. apply parse_scin; [exact He|lia].
  - destruct (decn k (-q)) as [d x] eqn:E. destruct (decn_spec k (-q) d x H E) as [Hd _]. apply parse_scin; [exact He|lia].
Qed.
(** relative error at most half a unit of the last digit *)
Lemma roundn_acc st k q : Qabs (roundn st k q - q) * inject_Z (2 * 10 ^ Z.of_nat k) <= Qabs q.
Proof.
  pose proof (pow_k k) as HT.
  assert (G : forall q d x, 0 < q -> decn k q = (d, x) -> Qabs (inject_Z d * p10 (x - Z.of_nat k) - q) * inject_Z (2 * 10 ^ Z.of_nat k) <= q).
  { clear q. intros q d x Hq E. destruct (decn_spec k q d x Hq E) as [_ [_ H]]. destruct (ilog10_spec q Hq) as [A _]. rewrite (p10_k k) in A. rewrite inject_Z_mult. change (inject_Z 2) with 2.
    set (T := inject_Z (10 ^ Z.of_nat k)) in *. assert (0 < T) by (unfold T; change 0 with (inject_Z 0); rewrite <- Zlt_Qlt; exact HT). nra. }
  unfold roundn. destruct (Qcase q) as [[-> Hb]|[[-> [-> Hb]]|[-> [-> Hb]]]].
  - assert (Z0 : forall p, inject_Z 0 * p - q == 0) by (intros p; change (inject_Z 0) with 0; lra). rewrite Z0. change (Qabs 0) with 0. pose proof (Qabs_nonneg q). lra.
  - destruct (decn k q) as [d x] eqn:E. rewrite (Qabs_pos q) by lra. now apply G.
  - destruct (decn k (-q)) as [d x] eqn:E. rewrite (Qabs_neg q) by lra. specialize (G (-q) d x Hb E).
    assert (EQ : - (inject_Z d * p10 (x - Z.of_nat k)) - q == - (inject_Z d * p10 (x - Z.of_nat k) - (- q))) by ring. rewrite EQ, Qabs_opp. exact G.
Qed.
Lemma roundn_zero st k q : roundn st k q == 0 <-> q == 0.
Proof.
  unfold roundn. destruct (Qcase q) as [[-> Hb]|[[-> [-> Hb]]|[-> [-> Hb]]]].
  - change (inject_Z 0) with 0. split; intros; [exact Hb|lra].
  - destruct (decn k q) as [d x] eqn:E. destruct (decn_spec k q d x Hb E) as [Hd _]. pose proof (p10_pos (x - Z.of_nat k)). pose proof (pow_k k).
    assert (0 < inject_Z d) by (change 0 with (inject_Z 0); rewrite <- Zlt_Qlt; lia). split; intros; nra.
  - destruct (decn k (-q)) as [d x] eqn:E. destruct (decn_spec k (-q) d x Hb E) as [Hd _]. pose proof (p10_pos (x - Z.of_nat k)). pose proof (pow_k k).
    assert (0 < inject_Z d) by (change 0 with (inject_Z 0); rewrite <- Zlt_Qlt; lia). split; intros; nra.
Qed.
Lemma roundn_sign st k q : (0 < q -> 0 < roundn st k q) /\ (q < 0 -> roundn st k q < 0).
Proof.
  unfold roundn. destruct (Qcase q) as [[-> Hb]|[[-> [-> Hb]]|[-> [-> Hb]]]].
  - split; intros; lra.
  - destruct (decn k q) as [d x] eqn:E. destruct (decn_spec k q d x Hb E) as [Hd _]. pose proof (p10_pos (x - Z.of_nat k)). pose proof (pow_k k).
    assert (0 < inject_Z d) by (change 0 with (inject_Z 0); rewrite <- Zlt_Qlt; lia). split; intros; nra.
  - destruct (decn k (-q)) as [d x] eqn:E. destruct (decn_spec k (-q) d x Hb E) as [Hd _]. pose proof (p10_pos (x - Z.of_nat k)). pose proof (pow_k k).
    assert (0 < inject_Z d) by (change 0 with (inject_Z 0); rewrite <- Zlt_Qlt; lia). split; intros; nra.
Qed.
(** rounding twice changes nothing more, also in the printed text *)
Lemma roundn_text st e k q : fmt_sci st e k (roundn st k q) = fmt_sci st e k q.
Proof.
  pose proof (pow_k k) as HT. pose proof (roundn_zero st k q) as RZ. pose proof (roundn_sign st k q) as [RP RN]. unfold fmt_sci.
  destruct (Qcase q) as [[-> Hb]|[[-> [-> Hb]]|[-> [-> Hb]]]].
  - destruct (Qcase (roundn st k q)) as [[-> _]|[[_ [_ X]]|[_ [_ X]]]]; [reflexivity| |]; apply RZ in Hb; lra.
  - specialize (RP Hb). destruct (Qcase (roundn st k q)) as [[_ X]|[[-> [-> X]]|[_ [_ X]]]]; [lra| |lra].
    destruct (decn k q) as [d x] eqn:E. destruct (decn_spec k q d x Hb E) as [Hd _]. rewrite (decn_exact k d x); [reflexivity|exact Hd|].
    unfold roundn. destruct (Qcase q) as [[_ Y]|[[-> [-> Y]]|[_ [_ Y]]]]; [lra| |lra]. rewrite E. reflexivity.
  - specialize (RN ltac:(lra)). destruct (Qcase (roundn st k q)) as [[_ X]|[[_ [_ X]]|[-> [-> X]]]]; [lra|lra|].
    destruct (decn k (-q)) as [d x] eqn:E. destruct (decn_spec k (-q) d x Hb E) as [Hd _]. rewrite (decn_exact k d x); [reflexivity|exact Hd|].
    unfold roundn. destruct (Qcase q) as [[_ Y]|[[_ [_ Y]]|[-> [-> Y]]]]; [lra|lra|]. rewrite E. ring.
Qed.
Lemma scin_no_ws st e k d x : is_ws e = false -> no_ws (scin st e k d x) /\ scin st e k d x <> [].
Proof.
  intros He. unfold scin. pose proof (ndig_length (S k) (Z.to_N d)) as L. pose proof (digits_no_ws _ (ndig_digits (S k) (Z.to_N d))) as D. destruct (ndig (S k) (Z.to_N d)) as [|c cs]; [discriminate L|].
  inversion D as [|? ? D1 D2]; subst. split; [|discriminate].
  assert (X : no_ws (exp_text st x)).
  { assert (S : forall b : bool, is_ws (if b then minus else plus) = false) by (intros [|]; reflexivity). destruct st; cbn [exp_text].
    - unfold exp_digits. cbv zeta. constructor; [apply S|]. destruct (Z.to_N (Z.abs x) <? 100)%N; apply digits_no_ws; [apply ndig_digits|apply str_of_N_digits].
    - constructor; [apply S|]. apply digits_no_ws, str_of_N_digits. }
  constructor; [exact D1|]. constructor; [reflexivity|]. apply Forall_app. split; [exact D2|]. constructor; [exact He|exact X].
Qed.
Lemma fmt_sci_no_ws st e k q : is_ws e = false -> no_ws (fmt_sci st e k q) /\ fmt_sci st e k q <> [].
Proof.
  intros He. unfold fmt_sci. destruct (Qeq_bool q 0); [now apply scin_no_ws|]. destruct (Qle_bool 0 q).
  - destruct (decn k q). now apply scin_no_ws.
  - destruct (decn k (-q)) as [d x]. split; [|discriminate]. constructor; [reflexivity|]. now apply scin_no_ws.
Qed.
