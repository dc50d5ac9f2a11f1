(** C38-C40, continued: the text of the first record, the special numbers, the columns of a track. *)
From Coq Require Import Lia ZArith Znumtheory QArith Qpower.
From Verif Require Import PyBase PyStr RssaModel RssaSpec RssaProofs3.
Open Scope nat_scope.

(** the first record is taken for text exactly when it is the UTF-8 encoding of some characters *)
Theorem C38_title_is_utf8 : forall s, utf8 s = true <-> exists cps, Forall scalar cps /\ s = concat (map encode cps).
Proof. intros s. split; [intros H; exact (utf8_only (length s) s (le_n _) H)|]. intros (cps & F & ->). now apply utf8_all. Qed.
Print Assumptions C38_title_is_utf8.
(** the small numbers of IEEE 754: no implicit bit *)
Theorem C38_number_of_a_small_word : forall (s : bool) m, (0 <= m < 2 ^ 52)%Z ->
  exists q, f64 ((if s then 1 else 0) * 2 ^ 63 + m)%Z = Fin q /\ (q == (if s then -1 else 1) * (inject_Z m / inject_Z (2 ^ 52)) * Qpower 2 (-1022))%Q.
Proof.
  intros s m Hm. destruct (word_fields s 0 m ltac:(lia) Hm) as (M & E & S0). rewrite Z.mul_0_l, Z.add_0_r in M, E, S0. unfold f64. rewrite M, E, S0. cbv zeta.
  change (0 =? 2047)%Z with false. change (0 =? 0)%Z with true. change (0 <=? -1074)%Z with false. cbv iota. eexists. split; [reflexivity|].
  assert (V : (m # Z.to_pos (2 ^ (- -1074)) == inject_Z m / inject_Z (2 ^ 52) * Qpower 2 (-1022))%Q).
  { rewrite Qmake_Qdiv. change (- -1074)%Z with (52 + 1022)%Z. rewrite Z.pow_add_r by lia. rewrite Z2Pos.id by (apply Z.mul_pos_pos; apply Z.pow_pos_nonneg; lia). rewrite inject_Z_mult.
    change (-1022)%Z with (- (1022))%Z. rewrite Qpower_opp. change 2%Q with (inject_Z 2). rewrite <- (Zpower_Qpower 2 1022) by lia. field. split; discriminate. }
  destruct s; rewrite V; ring.
Qed.
Print Assumptions C38_number_of_a_small_word.
(** infinities and not-a-number *)
Theorem C38_special_words : forall (s : bool) m, (0 <= m < 2 ^ 52)%Z ->
  f64 ((if s then 1 else 0) * 2 ^ 63 + 2047 * 2 ^ 52 + m)%Z = (if (m =? 0)%Z then Inf s else NaN).
Proof. intros s m Hm. destruct (word_fields s 2047 m ltac:(lia) Hm) as (M & E & S0). unfold f64. rewrite M, E, S0. reflexivity. Qed.
Print Assumptions C38_special_words.
(** every 64-bit word is one of the three kinds *)
Theorem C38_words_are_covered : forall w, (0 <= w < 2 ^ 64)%Z -> exists (s : bool) e m, (0 <= e <= 2047)%Z /\ (0 <= m < 2 ^ 52)%Z /\ w = ((if s then 1 else 0) * 2 ^ 63 + e * 2 ^ 52 + m)%Z.
Proof.
  intros w H. exists (2 ^ 63 <=? w)%Z, (w mod 2 ^ 63 / 2 ^ 52)%Z, (w mod 2 ^ 52)%Z. pose proof (Z.mod_pos_bound w (2 ^ 63) ltac:(lia)). pose proof (Z.mod_pos_bound w (2 ^ 52) ltac:(lia)).
  split; [|split; [assumption|]].
  - split; [apply Z.div_pos; lia|]. apply Z.lt_succ_r. apply Z.div_lt_upper_bound; lia.
  - assert (M : (w mod 2 ^ 52 = (w mod 2 ^ 63) mod 2 ^ 52)%Z). { apply Znumtheory.Zmod_div_mod; [lia|lia|]. exists (2 ^ 11)%Z. reflexivity. }
    rewrite M. pose proof (Z.div_mod (w mod 2 ^ 63) (2 ^ 52) ltac:(lia)) as D. destruct (Z.leb_spec (2 ^ 63) w) as [L|L].
    + assert (X : (w mod 2 ^ 63 = w - 2 ^ 63)%Z). { symmetry. apply (Z.mod_unique w (2 ^ 63) 1); lia. } lia.
    + rewrite (Z.mod_small w (2 ^ 63)) in * by lia. lia.
Qed.
Print Assumptions C38_words_are_covered.
(** the meaning of the eleven columns: the second decides the particle, the third is the weight, the
    sixth to eighth the position *)
Theorem C39_particle_column : forall a b wgt erg tme x y z u v c, word_b (track_of a b wgt erg tme x y z u v c) = b.
Proof. reflexivity. Qed.
Print Assumptions C39_particle_column.
Theorem C40_columns : forall a b wgt erg tme x y z u v c,
  t_wgt (track_of a b (Fin wgt) erg tme (Fin x) (Fin y) (Fin z) u v c) = wgt /\ t_x (track_of a b (Fin wgt) erg tme (Fin x) (Fin y) (Fin z) u v c) = x /\
  t_y (track_of a b (Fin wgt) erg tme (Fin x) (Fin y) (Fin z) u v c) = y /\ t_z (track_of a b (Fin wgt) erg tme (Fin x) (Fin y) (Fin z) u v c) = z.
Proof. intros. repeat split. Qed.
Print Assumptions C40_columns.
(** a title with an accent, the smallest number, minus infinity *)
Example C38_utf8_case : utf8 [99; 195; 169]%Z = true /\ Forall scalar [99; 233]%Z /\ [99; 195; 169]%Z = concat (map encode [99; 233])%Z /\ utf8 [192; 128]%Z = false.
Proof. split; [reflexivity|]. split; [repeat constructor; lia|]. split; reflexivity. Qed.
Example C38_special_case : f64 1%Z = Fin (1 # Z.to_pos (2 ^ 1074)) /\ f64 (2 ^ 63 + 2047 * 2 ^ 52)%Z = Inf true /\ f64 (2047 * 2 ^ 52 + 5)%Z = NaN.
Proof. repeat split. Qed.
