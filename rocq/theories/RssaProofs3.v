(** Lemmas on UTF-8. *)
From Coq Require Import Lia ZArith.
From Verif Require Import PyBase PyStr RssaModel RssaSpec.
Open Scope nat_scope.

Lemma btw_iff a b x : btw a b x = true <-> (a <= x <= b)%Z.
Proof. unfold btw. rewrite andb_true_iff, !Z.leb_le. reflexivity. Qed.
Lemma btw_no a b x : ~ (a <= x <= b)%Z -> btw a b x = false.
Proof. intros H. destruct (btw a b x) eqn:E; [|reflexivity]. apply btw_iff in E. contradiction. Qed.
Ltac yes := match goal with |- context [btw ?a ?b ?x] => rewrite (proj2 (btw_iff a b x)) by lia end.
Ltac no := match goal with |- context [btw ?a ?b ?x] => rewrite (btw_no a b x) by lia end.

Lemma utf8_one c s : scalar c -> utf8 (encode c ++ s) = utf8 s.
Proof.
  unfold scalar, encode. intros H. destruct (Z.ltb_spec c 128); [cbn [app utf8]; yes; reflexivity|].
  pose proof (Z.mod_pos_bound c 64 ltac:(lia)) as M1. pose proof (Z.mod_pos_bound (c / 64) 64 ltac:(lia)) as M2. pose proof (Z.mod_pos_bound (c / 4096) 64 ltac:(lia)) as M3.
  pose proof (Z.div_mod c 64 ltac:(lia)) as D1. pose proof (Z.div_mod (c / 64) 64 ltac:(lia)) as D2. pose proof (Z.div_mod (c / 4096) 64 ltac:(lia)) as D3.
  rewrite (Z.div_div c 64 64) in D2 by lia. change (64 * 64)%Z with 4096%Z in D2. rewrite (Z.div_div c 4096 64) in D3 by lia. change (4096 * 64)%Z with 262144%Z in D3.
  destruct (Z.ltb_spec c 2048); [cbn [app utf8]; no; yes; yes; reflexivity|].
  destruct (Z.ltb_spec c 65536).
  - cbn [app utf8]. no. rewrite (btw_no 194 223) by lia. cbn [andb]. rewrite (proj2 (btw_iff 128 191 (128 + c mod 64))) by lia.
    destruct (Z.eqb_spec (224 + c / 4096) 224) as [E|E].
    + rewrite (proj2 (btw_iff 160 191 _)) by lia. reflexivity.
    + cbn [andb orb]. destruct (Z.eqb_spec (224 + c / 4096) 237) as [E'|E'].
      * rewrite (btw_no 225 236), (btw_no 238 239) by lia. cbn [orb andb]. rewrite (proj2 (btw_iff 128 159 _)) by lia. reflexivity.
      * rewrite (proj2 (btw_iff 128 191 (128 + (c / 64) mod 64))) by lia. destruct (Z.le_gt_cases (224 + c / 4096) 236).
        -- rewrite (proj2 (btw_iff 225 236 _)) by lia. reflexivity.
        -- rewrite (proj2 (btw_iff 238 239 _)) by lia. rewrite orb_true_r. reflexivity.
  - cbn [app utf8]. no. rewrite (btw_no 194 223) by lia. cbn [andb]. rewrite (btw_no 225 236), (btw_no 238 239) by lia.
    destruct (Z.eqb_spec (240 + c / 262144) 224) as [E|_]; [lia|]. destruct (Z.eqb_spec (240 + c / 262144) 237) as [E|_]; [lia|]. cbn [andb orb].
    rewrite (proj2 (btw_iff 128 191 (128 + c mod 64))), (proj2 (btw_iff 128 191 (128 + c / 64 mod 64))) by lia. rewrite !andb_true_r.
    destruct (Z.eqb_spec (240 + c / 262144) 240) as [E|E]; [rewrite (proj2 (btw_iff 144 191 _)) by lia; reflexivity|]. cbn [andb orb].
    destruct (Z.eqb_spec (240 + c / 262144) 244) as [E'|E']; [rewrite (btw_no 241 243) by lia; rewrite (proj2 (btw_iff 128 143 _)) by lia; reflexivity|].
    rewrite (proj2 (btw_iff 241 243 _)), (proj2 (btw_iff 128 191 _)) by lia. reflexivity.
Qed.
Lemma utf8_all cps : Forall scalar cps -> utf8 (concat (map encode cps)) = true.
Proof. induction 1 as [|c r H _ IH]; [reflexivity|]. cbn [map concat]. rewrite utf8_one by exact H. exact IH. Qed.

Lemma enc2 a b : (194 <= a <= 223)%Z -> (128 <= b <= 191)%Z -> exists c, scalar c /\ encode c = [a; b].
Proof.
  intros A B. exists ((a - 192) * 64 + (b - 128))%Z. split; [unfold scalar; lia|]. unfold encode. destruct (Z.ltb_spec ((a - 192) * 64 + (b - 128)) 128); [lia|]. destruct (Z.ltb_spec ((a - 192) * 64 + (b - 128)) 2048); [|lia].
  rewrite Z.div_add_l, Z.div_small, (Z.add_comm ((a - 192) * 64)), Z.mod_add, Z.mod_small by lia. f_equal; [lia|]. f_equal. lia.
Qed.
Ltac big c := let D := fresh in assert (D : exists x, x = c) by (eexists; reflexivity); destruct D as [x D].
Lemma parts3 x p q r : x = (p * 4096 + q * 64 + r)%Z -> (0 <= q < 64)%Z -> (0 <= r < 64)%Z -> (x / 4096 = p /\ x / 64 mod 64 = q /\ x mod 64 = r)%Z.
Proof.
  intros -> Q R. assert (E : ((p * 4096 + q * 64 + r) / 64 = p * 64 + q)%Z). { replace (p * 4096 + q * 64 + r)%Z with ((p * 64 + q) * 64 + r)%Z by lia. rewrite Z.div_add_l, Z.div_small by lia. lia. }
  split; [|split].
  - change 4096%Z with (64 * 64)%Z at 2. rewrite <- Z.div_div by lia. rewrite E, Z.div_add_l, Z.div_small by lia. lia.
  - rewrite E, Z.add_comm, Z.mod_add, Z.mod_small by lia. reflexivity.
  - replace (p * 4096 + q * 64 + r)%Z with (r + (p * 64 + q) * 64)%Z by lia. rewrite Z.mod_add, Z.mod_small by lia. reflexivity.
Qed.
Lemma parts4 x o p q r : x = (o * 262144 + p * 4096 + q * 64 + r)%Z -> (0 <= p < 64)%Z -> (0 <= q < 64)%Z -> (0 <= r < 64)%Z -> (x / 262144 = o /\ x / 4096 mod 64 = p /\ x / 64 mod 64 = q /\ x mod 64 = r)%Z.
Proof.
  intros E P Q R. destruct (parts3 x (o * 64 + p) q r ltac:(lia) Q R) as (A & B & C). split; [|split; [|split; [exact B|exact C]]].
  - change 262144%Z with (4096 * 64)%Z. rewrite <- Z.div_div by lia. rewrite A, Z.div_add_l, Z.div_small by lia. lia.
  - rewrite A, Z.add_comm, Z.mod_add, Z.mod_small by lia. reflexivity.
Qed.
Lemma enc3 a b c : (224 <= a <= 239)%Z -> (128 <= b <= 191)%Z -> (128 <= c <= 191)%Z -> (a = 224 -> 160 <= b)%Z -> (a = 237 -> b <= 159)%Z -> exists x, scalar x /\ encode x = [a; b; c].
Proof.
  intros A B C H1 H2. set (x := ((a - 224) * 4096 + (b - 128) * 64 + (c - 128))%Z). destruct (parts3 x (a - 224) (b - 128) (c - 128) eq_refl ltac:(lia) ltac:(lia)) as (P & Q & R).
  exists x. split; [unfold scalar, x; lia|]. unfold encode. destruct (Z.ltb_spec x 128); [unfold x in *; lia|]. destruct (Z.ltb_spec x 2048); [unfold x in *; lia|]. destruct (Z.ltb_spec x 65536); [|unfold x in *; lia].
  rewrite P, Q, R. repeat (f_equal; [lia|]). f_equal. lia.
Qed.
Lemma enc4 a b c d : (240 <= a <= 244)%Z -> (128 <= b <= 191)%Z -> (128 <= c <= 191)%Z -> (128 <= d <= 191)%Z -> (a = 240 -> 144 <= b)%Z -> (a = 244 -> b <= 143)%Z -> exists x, scalar x /\ encode x = [a; b; c; d].
Proof.
  intros A B C D H1 H2. set (x := ((a - 240) * 262144 + (b - 128) * 4096 + (c - 128) * 64 + (d - 128))%Z). destruct (parts4 x (a - 240) (b - 128) (c - 128) (d - 128) eq_refl ltac:(lia) ltac:(lia) ltac:(lia)) as (P & Q & R & T).
  exists x. split; [unfold scalar, x; lia|]. unfold encode. destruct (Z.ltb_spec x 128); [unfold x in *; lia|]. destruct (Z.ltb_spec x 2048); [unfold x in *; lia|]. destruct (Z.ltb_spec x 65536); [unfold x in *; lia|].
  rewrite P, Q, R, T. repeat (f_equal; [lia|]). f_equal. lia.
Qed.
Lemma utf8_only : forall n s, length s <= n -> utf8 s = true -> exists cps, Forall scalar cps /\ s = concat (map encode cps).
Proof.
  assert (add : forall x h s, scalar x -> encode x = h -> (exists cps, Forall scalar cps /\ s = concat (map encode cps)) -> exists cps, Forall scalar cps /\ h ++ s = concat (map encode cps)).
  { intros x h s Sx E (cps & F & ->). exists (x :: cps). split; [constructor; assumption|]. cbn [map concat]. rewrite E. reflexivity. }
  induction n as [|n IH]; intros s L U; [destruct s; [exists []; split; [constructor|reflexivity]|cbn in L; lia]|].
  destruct s as [|a s1]; [exists []; split; [constructor|reflexivity]|]. cbn [length] in L. cbn [utf8] in U. destruct (btw 0 127 a) eqn:B1.
  { apply btw_iff in B1. apply (add a [a]); [unfold scalar; lia| |apply IH; [lia|exact U]]. unfold encode. destruct (Z.ltb_spec a 128); [reflexivity|lia]. }
  destruct s1 as [|b s2]; [discriminate U|]. cbn [length] in L. destruct (btw 194 223 a && btw 128 191 b) eqn:B2.
  { apply andb_true_iff in B2 as [X Y]. apply btw_iff in X, Y. destruct (enc2 a b X Y) as (x & Sx & E). apply (add x [a; b]); [exact Sx|exact E|apply IH; [lia|exact U]]. }
  destruct s2 as [|c s3]; [discriminate U|]. cbn [length] in L. match type of U with (if ?t then _ else _) = true => destruct t eqn:B3 end.
  { destruct (enc3 a b c) as (x & Sx & E); [| | | | |apply (add x [a; b; c]); [exact Sx|exact E|apply IH; [lia|exact U]]];
      rewrite !orb_true_iff, !andb_true_iff, !orb_true_iff, !btw_iff, !Z.eqb_eq in B3; lia. }
  destruct s3 as [|d s4]; [discriminate U|]. cbn [length] in L. match type of U with (if ?t then _ else _) = true => destruct t eqn:B4; [|discriminate U] end.
  destruct (enc4 a b c d) as (x & Sx & E); [| | | | | |apply (add x [a; b; c; d]); [exact Sx|exact E|apply IH; [lia|exact U]]];
    rewrite !andb_true_iff, !orb_true_iff, !andb_true_iff, !btw_iff, !Z.eqb_eq in B4; lia.
Qed.
(** the three fields of a 64-bit word *)
Lemma word_fields (s : bool) e m : (0 <= e < 2048)%Z -> (0 <= m < 2 ^ 52)%Z ->
  let w := ((if s then 1 else 0) * 2 ^ 63 + e * 2 ^ 52 + m)%Z in
  (w mod 2 ^ 52 = m /\ w / 2 ^ 52 mod 2 ^ 11 = e /\ (w / 2 ^ 63 mod 2 =? 1)%Z = s)%Z.
Proof.
  intros He Hm w. assert (B0 : (0 <= (if s then 1 else 0) <= 1)%Z) by (destruct s; lia).
  assert (W : w = (m + ((if s then 1 else 0) * 2 ^ 11 + e) * 2 ^ 52)%Z) by (unfold w; lia).
  split; [|split].
  - rewrite W, Z.mod_add by lia. apply Z.mod_small. lia.
  - rewrite W, Z.div_add, Z.div_small by lia. rewrite Z.add_0_l, Z.add_comm, Z.mod_add by lia. apply Z.mod_small. lia.
  - assert (X : (w / 2 ^ 63 = if s then 1 else 0)%Z). { unfold w. rewrite <- Z.add_assoc, Z.div_add_l by lia. rewrite (Z.div_small (e * 2 ^ 52 + m)) by lia. lia. }
    rewrite X. destruct s; reflexivity.
Qed.
