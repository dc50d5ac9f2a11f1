(** Lemmas about PyStr (proofs only). *)
From Verif Require Import PyBase PyLemmas PyStr.
From Coq Require Import Lqa NArith Nnat Qpower.
Open Scope nat_scope.

(** ** split *)
Definition no_ws (s : str) : Prop := Forall (fun c => is_ws c = false) s.
Definition all_ws (s : str) : Prop := Forall (fun c => is_ws c = true) s.

Lemma split_ws pre s : all_ws pre -> split (pre ++ s) = split s.
Proof. unfold split. induction 1 as [|c pre Hc Hp IH]; simpl; [reflexivity|]. rewrite Hc. exact IH. Qed.

Lemma split_aux_tok cur tok s : no_ws tok -> split_aux cur (tok ++ s) = split_aux (rev tok ++ cur) s.
Proof. intros H. revert cur; induction H as [|c tok Hc Ht IH]; intros cur; simpl; [reflexivity|].
  rewrite Hc, IH. simpl. rewrite <- app_assoc. reflexivity. Qed.

Lemma split_tok_end tok : no_ws tok -> tok <> [] -> split tok = [tok].
Proof. intros H Hn. unfold split. rewrite <- (app_nil_r tok) at 1. rewrite split_aux_tok by exact H.
  rewrite app_nil_r. simpl. destruct (rev tok) eqn:E.
  - apply (f_equal (@rev ascii)) in E. rewrite rev_involutive in E. contradiction.
  - rewrite <- E, rev_involutive. reflexivity. Qed.

Lemma split_tok_ws tok c s : no_ws tok -> tok <> [] -> is_ws c = true -> split (tok ++ c :: s) = tok :: split s.
Proof. intros H Hn Hc. unfold split. rewrite split_aux_tok by exact H. rewrite app_nil_r. simpl. rewrite Hc.
  destruct (rev tok) eqn:E.
  - apply (f_equal (@rev ascii)) in E. rewrite rev_involutive in E. contradiction.
  - rewrite <- E, rev_involutive. reflexivity. Qed.

Lemma all_ws_repeat n : all_ws (repeat sp n).
Proof. apply Forall_forall. intros c Hc. apply repeat_spec in Hc. subst; reflexivity. Qed.

(** a line made of right-justified fields, each wider than its token, except maybe the
    first *)
Lemma split_fields w0 t0 fs : no_ws t0 -> t0 <> [] ->
  Forall (fun wt => no_ws (snd wt) /\ snd wt <> [] /\ length (snd wt) < fst wt) fs ->
  split (rjust w0 t0 ++ concat (map (fun wt => rjust (fst wt) (snd wt)) fs)) = t0 :: map snd fs.
Proof. intros H0 Hn0 Hf. unfold rjust at 1. rewrite <- app_assoc, split_ws by apply all_ws_repeat.
  revert t0 H0 Hn0; induction Hf as [|[w t] fs [H1 [H2 H3]] Hf IH]; intros t0 H0 Hn0; simpl.
  - rewrite app_nil_r. now apply split_tok_end.
  - simpl in *. unfold rjust at 1. destruct (w - length t) as [|k] eqn:E; [lia|]. simpl.
    rewrite split_tok_ws by (auto; reflexivity). f_equal.
    rewrite <- app_assoc, split_ws by apply all_ws_repeat. now apply IH. Qed.

(** ** digits *)
Lemma dig_chr_props d : (d < 10)%N -> is_digit (dig_chr d) = true /\ dig_val (dig_chr d) = d /\ is_ws (dig_chr d) = false
  /\ Ascii.eqb (dig_chr d) minus = false /\ Ascii.eqb (dig_chr d) plus = false /\ Ascii.eqb (dig_chr d) dot = false
  /\ Ascii.eqb (dig_chr d) "e" = false /\ Ascii.eqb (dig_chr d) "E" = false.
Proof. intros H.
  assert (G : forallb (fun d => is_digit (dig_chr d) && N.eqb (dig_val (dig_chr d)) d && negb (is_ws (dig_chr d))
    && negb (Ascii.eqb (dig_chr d) minus) && negb (Ascii.eqb (dig_chr d) plus) && negb (Ascii.eqb (dig_chr d) dot)
    && negb (Ascii.eqb (dig_chr d) "e") && negb (Ascii.eqb (dig_chr d) "E")) (map N.of_nat (seq 0 10)) = true) by reflexivity.
  rewrite forallb_forall in G. specialize (G d). rewrite !andb_true_iff, !negb_true_iff, N.eqb_eq in G.
  assert (Hin : In d (map N.of_nat (seq 0 10))) by (apply in_map_iff; exists (N.to_nat d); split; [lia|]; apply in_seq; lia).
  specialize (G Hin). tauto. Qed.

Definition digits (s : str) : Prop := Forall (fun c => is_digit c = true) s.

Lemma ndig_digits k n : digits (ndig k n).
Proof. revert n; induction k as [|k IH]; intros n; simpl; [constructor|].
  apply Forall_app. split; [apply IH|]. constructor; [|constructor]. apply dig_chr_props. apply N.mod_lt. lia. Qed.
Lemma ndig_length k n : length (ndig k n) = k.
Proof. revert n; induction k as [|k IH]; intros n; simpl; [reflexivity|]. rewrite app_length, IH. simpl; lia. Qed.
Lemma num_of_app a b : num_of (a ++ b) = (num_of a * 10 ^ N.of_nat (length b) + num_of b)%N.
Proof. unfold num_of. rewrite fold_left_app. generalize (fold_left (fun acc c => (acc * 10 + dig_val c)%N) a 0%N). intros x.
  assert (G : forall l acc, fold_left (fun acc c => (acc * 10 + dig_val c)%N) l acc =
     (acc * 10 ^ N.of_nat (length l) + fold_left (fun acc c => (acc * 10 + dig_val c)%N) l 0)%N).
  { induction l as [|c l IH]; intros acc; [simpl; lia|].
    cbn [fold_left length]. rewrite (IH (acc * 10 + dig_val c)%N), (IH (0 * 10 + dig_val c)%N).
    rewrite Nat2N.inj_succ, N.pow_succ_r'. lia. }
  apply G. Qed.
Lemma num_of_ndig k n : num_of (ndig k n) = (n mod 10 ^ N.of_nat k)%N.
Proof. revert n; induction k as [|k IH]; intros n.
  - simpl. now rewrite N.mod_1_r.
  - cbn [ndig]. rewrite num_of_app, IH. cbn [length].
    change (N.of_nat 1) with 1%N. rewrite N.pow_1_r.
    unfold num_of at 1. cbn [fold_left]. rewrite (proj1 (proj2 (dig_chr_props _ (N.mod_lt n 10 ltac:(lia))))).
    rewrite Nat2N.inj_succ, N.pow_succ_r'.
    assert (Hp : (10 ^ N.of_nat k <> 0)%N) by (apply N.pow_nonzero; lia).
    rewrite (N.mod_mul_r n 10 (10 ^ N.of_nat k)) by lia.
    lia. Qed.

Lemma dlen_spec n : (n < 10 ^ N.of_nat (dlen n))%N /\ (0 < dlen n)%nat /\ (0 < n -> 10 ^ (N.of_nat (dlen n) - 1) <= n)%N.
Proof. unfold dlen.
  assert (G : forall f n, (n < 2 ^ N.of_nat f)%N -> (n < 10 ^ N.of_nat (dlen_aux f n))%N /\ (0 < dlen_aux f n)%nat
     /\ (0 < n -> 10 ^ (N.of_nat (dlen_aux f n) - 1) <= n)%N).
  { induction f as [|f IH]; intros m Hm.
    - simpl in Hm |- *. repeat split; try lia.
    - cbn [dlen_aux]. destruct (N.ltb_spec m 10) as [H|H].
      + simpl. repeat split; try lia.
      + destruct (IH (m / 10)%N) as [I1 [I2 I3]].
        { rewrite Nat2N.inj_succ, N.pow_succ_r' in Hm. apply N.div_lt_upper_bound; lia. }
        assert (Hd := N.div_mod m 10 ltac:(lia)). assert (Hm10 := N.mod_lt m 10 ltac:(lia)).
        rewrite Nat2N.inj_succ. split; [rewrite N.pow_succ_r'; lia|]. split; [lia|].
        intros _. replace (N.succ (N.of_nat (dlen_aux f (m / 10))) - 1)%N with (N.succ (N.of_nat (dlen_aux f (m / 10)) - 1))%N by (revert I2; generalize (dlen_aux f (m / 10)); intros; lia).
        rewrite N.pow_succ_r'. assert (0 < m / 10)%N by (apply N.div_str_pos; lia). specialize (I3 H0). revert I3. generalize (10 ^ (N.of_nat (dlen_aux f (m / 10)) - 1))%N. intros. clear - Hd I3. rewrite Hd. apply N.le_trans with (10 * (m / 10))%N; [apply N.mul_le_mono_l; exact I3|apply N.le_add_r]. }
  apply G. destruct n as [|p]; [simpl; lia|].
  change (N.size_nat (N.pos p)) with (Pos.size_nat p).
  assert (Hs := Pos.size_gt p).
  clear G. revert Hs. 
  assert (E : N.of_nat (Pos.size_nat p) = Npos (Pos.size p)).
  { induction p; cbn [Pos.size_nat Pos.size]; try reflexivity; rewrite Nat2N.inj_succ, IHp; reflexivity. }
  rewrite E. intros Hs. change (2 ^ N.pos (Pos.size p))%N with (N.pos (2 ^ Pos.size p)). exact Hs. Qed.

Lemma str_of_N_digits n : digits (str_of_N n). Proof. apply ndig_digits. Qed.
Lemma str_of_N_ne n : str_of_N n <> [].
Proof. intros H. apply (f_equal (@List.length ascii)) in H. unfold str_of_N in H. rewrite ndig_length in H.
  destruct (dlen_spec n) as [_ [H1 _]]. simpl in H. lia. Qed.
Lemma num_of_str n : num_of (str_of_N n) = n.
Proof. unfold str_of_N. rewrite num_of_ndig. apply N.mod_small. apply dlen_spec. Qed.

Lemma digit_not c : is_digit c = true -> is_ws c = false /\ Ascii.eqb c minus = false /\ Ascii.eqb c plus = false /\ Ascii.eqb c dot = false
   /\ Ascii.eqb c "e" = false /\ Ascii.eqb c "E" = false.
Proof. intros H. unfold is_digit in H. apply andb_true_iff in H. destruct H as [H1 H2].
  apply N.leb_le in H1. apply N.leb_le in H2.
  assert (E : c = dig_chr (dig_val c)).
  { unfold dig_chr, dig_val. replace (48 + (N_of_ascii c - 48))%N with (N_of_ascii c) by lia. symmetry. apply ascii_N_embedding. }
  rewrite E. assert (Hd : (dig_val c < 10)%N) by (unfold dig_val; lia).
  pose proof (dig_chr_props (dig_val c) Hd). tauto. Qed.
Lemma digits_no_ws s : digits s -> no_ws s.
Proof. apply Forall_impl. intros c H. now apply digit_not. Qed.

Lemma span_digits_app s r : digits s -> (match r with c :: _ => is_digit c = false | [] => True end) -> span_digits (s ++ r) = (s, r).
Proof. intros H Hr. induction H as [|c s Hc Hs IH]; simpl.
  - destruct r as [|c r]; [reflexivity|]. simpl. now rewrite Hr.
  - rewrite Hc, IH. reflexivity. Qed.
Lemma span_digits_all s : digits s -> span_digits s = (s, []).
Proof. intros H. rewrite <- (app_nil_r s) at 1. apply span_digits_app; [exact H|exact I]. Qed.
Lemma take_sign_digit s : digits s -> s <> [] -> forall r, take_sign (s ++ r) = (false, s ++ r).
Proof. intros H Hn r. destruct s as [|c s]; [contradiction|]. inversion H; subst. simpl.
  destruct (digit_not c H2) as [_ [-> [-> _]]]. reflexivity. Qed.

Lemma parse_int_digits s : digits s -> s <> [] -> parse_int s = Ok (Z.of_N (num_of s)).
Proof. intros H Hn. unfold parse_int. rewrite <- (app_nil_r s) at 1. rewrite take_sign_digit by assumption. rewrite app_nil_r.
  rewrite span_digits_all by exact H. destruct s; [contradiction|reflexivity]. Qed.
Lemma parse_int_neg s : digits s -> s <> [] -> parse_int (minus :: s) = Ok (- Z.of_N (num_of s))%Z.
Proof. intros H Hn. unfold parse_int. simpl. rewrite span_digits_all by exact H. destruct s; [contradiction|reflexivity]. Qed.
Lemma parse_int_plus s : digits s -> s <> [] -> parse_int (plus :: s) = Ok (Z.of_N (num_of s))%Z.
Proof. intros H Hn. unfold parse_int. simpl. rewrite span_digits_all by exact H. destruct s; [contradiction|reflexivity]. Qed.
Lemma parse_str_of_Z z : parse_int (str_of_Z z) = Ok z.
Proof. destruct z as [|p|p]; unfold str_of_Z.
  - reflexivity.
  - rewrite parse_int_digits, num_of_str; [reflexivity|apply str_of_N_digits|apply str_of_N_ne].
  - rewrite parse_int_neg, num_of_str; [reflexivity|apply str_of_N_digits|apply str_of_N_ne]. Qed.
Lemma str_of_Z_no_ws z : no_ws (str_of_Z z) /\ str_of_Z z <> [].
Proof. destruct z; unfold str_of_Z; (split; [|first [discriminate | apply str_of_N_ne]]).
  - apply digits_no_ws, str_of_N_digits.
  - apply digits_no_ws, str_of_N_digits.
  - constructor; [reflexivity|]. apply digits_no_ws, str_of_N_digits. Qed.

(** ** powers of ten *)
Open Scope Q_scope.
Lemma p10_pos z : 0 < p10 z.
Proof. unfold p10. apply Qpower_0_lt. reflexivity. Qed.
Lemma p10_ne z : ~ p10 z == 0.
Proof. pose proof (p10_pos z). lra. Qed.
Lemma p10_plus a b : p10 (a + b) == p10 a * p10 b.
Proof. apply Qpower_plus. discriminate. Qed.
Lemma p10_minus a b : p10 (a - b) == p10 a / p10 b.
Proof. unfold Z.sub. rewrite p10_plus. unfold p10 at 2. rewrite Qpower_opp. reflexivity. Qed.
Lemma p10_0 : p10 0 == 1. Proof. reflexivity. Qed.
Lemma p10_1 : p10 1 == 10. Proof. reflexivity. Qed.
Lemma p10_succ a : p10 (a + 1) == 10 * p10 a.
Proof. rewrite p10_plus, p10_1. ring. Qed.
Lemma p10_le a b : (a <= b)%Z -> p10 a <= p10 b.
Proof. intros H. apply Qpower_le_compat_l; [exact H|discriminate]. Qed.
Lemma p10_lt_inv a b : p10 a < p10 b -> (a < b)%Z.
Proof. intros H. destruct (Z.lt_ge_cases a b) as [L|L]; [exact L|]. apply p10_le in L. lra. Qed.
Lemma p10_nonneg_Z z : (0 <= z)%Z -> p10 z == inject_Z (10 ^ z).
Proof. intros H. unfold p10.  
  revert z H. apply natlike_ind; [reflexivity|]. intros z Hz IH. unfold Z.succ. rewrite Qpower_plus by discriminate.
  rewrite IH. rewrite Z.pow_add_r by lia. rewrite inject_Z_mult. reflexivity. Qed.
