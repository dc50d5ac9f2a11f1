(** Proofs about the report of the bytes that are not UTF-8. *)
From Coq Require Import Lia ZArith Sorted.
From Verif Require Import PyBase PyStr PyStrLemmas RssaModel RssaSpec RssaProofs3 UniModel UniSpec.
Open Scope nat_scope.

Lemma char_at_encode c s : scalar c -> char_at (encode c ++ s) = Some (c, s).
Proof.
  unfold scalar, encode. intros H. destruct (Z.ltb_spec c 128); [cbn [app char_at]; yes; reflexivity|].
  pose proof (Z.mod_pos_bound c 64 ltac:(lia)) as M1. pose proof (Z.mod_pos_bound (c / 64) 64 ltac:(lia)) as M2. pose proof (Z.mod_pos_bound (c / 4096) 64 ltac:(lia)) as M3.
  pose proof (Z.div_mod c 64 ltac:(lia)) as D1. pose proof (Z.div_mod (c / 64) 64 ltac:(lia)) as D2. pose proof (Z.div_mod (c / 4096) 64 ltac:(lia)) as D3.
  rewrite (Z.div_div c 64 64) in D2 by lia. change (64 * 64)%Z with 4096%Z in D2. rewrite (Z.div_div c 4096 64) in D3 by lia. change (4096 * 64)%Z with 262144%Z in D3.
  destruct (Z.ltb_spec c 2048); [cbn [app char_at]; no; yes; yes; cbn [andb]; do 2 f_equal; lia|].
  destruct (Z.ltb_spec c 65536).
  - cbn [app char_at]. no. rewrite (btw_no 194 223) by lia. cbn [andb]. rewrite (proj2 (btw_iff 128 191 (128 + c mod 64))) by lia.
    match goal with |- (if ?t then _ else _) = _ => assert (T : t = true) end.
    { destruct (Z.eqb_spec (224 + c / 4096) 224) as [E|E].
      + rewrite (proj2 (btw_iff 160 191 _)) by lia. reflexivity.
      + cbn [andb orb]. destruct (Z.eqb_spec (224 + c / 4096) 237) as [E'|E'].
        * rewrite (btw_no 225 236), (btw_no 238 239) by lia. cbn [orb andb]. rewrite (proj2 (btw_iff 128 159 _)) by lia. reflexivity.
        * rewrite (proj2 (btw_iff 128 191 (128 + (c / 64) mod 64))) by lia. destruct (Z.le_gt_cases (224 + c / 4096) 236).
          -- rewrite (proj2 (btw_iff 225 236 _)) by lia. reflexivity.
          -- rewrite (proj2 (btw_iff 238 239 _)) by lia. rewrite orb_true_r. reflexivity. }
    rewrite T. do 2 f_equal. lia.
  - cbn [app char_at]. no. rewrite (btw_no 194 223) by lia. cbn [andb]. rewrite (btw_no 225 236), (btw_no 238 239) by lia.
    destruct (Z.eqb_spec (240 + c / 262144) 224) as [E|_]; [lia|]. destruct (Z.eqb_spec (240 + c / 262144) 237) as [E|_]; [lia|]. cbn [andb orb].
    rewrite (proj2 (btw_iff 128 191 (128 + c mod 64))), (proj2 (btw_iff 128 191 (128 + c / 64 mod 64))) by lia. rewrite !andb_true_r.
    match goal with |- (if ?t then _ else _) = _ => assert (T : t = true) end.
    { destruct (Z.eqb_spec (240 + c / 262144) 240) as [E|E]; [rewrite (proj2 (btw_iff 144 191 _)) by lia; reflexivity|]. cbn [andb orb].
      destruct (Z.eqb_spec (240 + c / 262144) 244) as [E'|E']; [rewrite (btw_no 241 243) by lia; rewrite (proj2 (btw_iff 128 143 _)) by lia; reflexivity|].
      rewrite (proj2 (btw_iff 241 243 _)), (proj2 (btw_iff 128 191 _)) by lia. reflexivity. }
    rewrite T. do 2 f_equal. lia.
Qed.
Lemma char_at_some s c r : char_at s = Some (c, r) -> scalar c /\ s = encode c ++ r.
Proof.
  intros H. assert (K : forall x h t, scalar x -> encode x = h -> s = h ++ t -> scalar c /\ s = encode c ++ r).
  { intros x h t Sx E Es. rewrite Es, <- E, (char_at_encode x t Sx) in H. injection H as <- <-. split; [exact Sx|]. rewrite Es, <- E. reflexivity. }
  destruct s as [|a s1]; [discriminate H|]. cbn [char_at] in H. destruct (btw 0 127 a) eqn:B1.
  { apply btw_iff in B1. apply (K a [a] s1); [unfold scalar; lia| |reflexivity]. unfold encode. destruct (Z.ltb_spec a 128); [reflexivity|lia]. }
  destruct s1 as [|b s2]; [discriminate H|]. destruct (btw 194 223 a && btw 128 191 b) eqn:B2.
  { apply andb_true_iff in B2 as [X Y]. apply btw_iff in X, Y. destruct (enc2 a b X Y) as (x & Sx & E). apply (K x [a; b] s2); [exact Sx|exact E|reflexivity]. }
  destruct s2 as [|d s3]; [discriminate H|]. match type of H with (if ?t then _ else _) = _ => destruct t eqn:B3 end.
  { destruct (enc3 a b d) as (x & Sx & E); [| | | | |apply (K x [a; b; d] s3); [exact Sx|exact E|reflexivity]];
      rewrite !orb_true_iff, !andb_true_iff, !orb_true_iff, !btw_iff, !Z.eqb_eq in B3; lia. }
  destruct s3 as [|e s4]; [discriminate H|]. match type of H with (if ?t then _ else _) = _ => destruct t eqn:B4; [|discriminate H] end.
  destruct (enc4 a b d e) as (x & Sx & E); [| | | | | |apply (K x [a; b; d; e] s4); [exact Sx|exact E|reflexivity]];
    rewrite !andb_true_iff, !orb_true_iff, !andb_true_iff, !btw_iff, !Z.eqb_eq in B4; lia.
Qed.
Lemma encode_ne c : encode c <> [].
Proof. unfold encode. destruct (c <? 128)%Z; [discriminate|]. destruct (c <? 2048)%Z; [discriminate|]. destruct (c <? 65536)%Z; discriminate. Qed.

Definition code (i : item) : Z := match i with Good c => c | Bad b => (56320 + b)%Z end.
Lemma decoding_tl i l file : Decoding file (i :: l) -> Decoding (concat (map item_bytes l)) l.
Proof. intros (_ & F & N). inversion F; subst. split; [reflexivity|]. split; [assumption|]. intros l1 b l2 E. apply (N (i :: l1) b l2). rewrite E. reflexivity. Qed.
Lemma decode_items items : forall file n, Decoding file items -> length file <= n -> decode n file = map code items.
Proof.
  induction items as [|i items IH]; intros file n D L; pose proof D as (E & F & N); cbn [map concat] in E.
  - subst file. destruct n; reflexivity.
  - pose proof (decoding_tl _ _ _ D) as D'. inversion F as [|? ? Oi _]; subst x l. assert (Hne : item_bytes i <> []) by (destruct i; cbn; [apply encode_ne|discriminate]).
    destruct n as [|n]; [destruct file; [symmetry in E; apply app_eq_nil in E as [E _]; congruence|cbn in L; lia]|].
    assert (L' : length (concat (map item_bytes items)) <= n). { rewrite E, app_length in L. destruct (item_bytes i); [congruence|cbn in L; lia]. }
    destruct file as [|a s1] eqn:Ef; [symmetry in E; apply app_eq_nil in E as [E _]; congruence|]. cbn [decode]. destruct i as [c|b]; cbn [item_bytes item_ok map code] in *.
    + rewrite E, (char_at_encode c _ Oi). f_equal. apply IH; assumption.
    + cbn [app] in E. injection E as -> ->. destruct (char_at (b :: concat (map item_bytes items))) as [[c r]|] eqn:Ch.
      * apply char_at_some in Ch as [Sc Ec]. destruct (N [] b items eq_refl c r Sc Ec).
      * f_equal. apply IH; assumption.
Qed.
Lemma decoding_exists : forall n file, length file <= n -> is_bytes file -> exists items, Decoding file items.
Proof.
  induction n as [|n IH]; intros file L B; (destruct file as [|a s1]; [exists []; split; [reflexivity|]; split; [constructor|]; intros l1 b l2 E; destruct l1; discriminate E|]); [cbn in L; lia|].
  cbn [length] in L. destruct (char_at (a :: s1)) as [[c r]|] eqn:Ch.
  - apply char_at_some in Ch as [Sc Ec]. assert (Lr : length r <= n). { apply (f_equal (@length Z)) in Ec. rewrite app_length in Ec. cbn [length] in Ec. pose proof (encode_ne c). destruct (encode c); [congruence|cbn [length] in Ec; lia]. }
    assert (Br : is_bytes r) by (rewrite Ec in B; apply Forall_app in B; tauto). destruct (IH r Lr Br) as (items & E & F & N). exists (Good c :: items). split; [cbn [map concat item_bytes]; rewrite <- E; exact Ec|]. split; [constructor; assumption|].
    intros l1 b l2 X. destruct l1 as [|i l1]; [discriminate X|]. injection X as _ X. exact (N l1 b l2 X).
  - inversion B as [|? ? Ba Bs]; subst. destruct (IH s1 ltac:(lia) Bs) as (items & E & F & N). exists (Bad a :: items). split; [cbn [map concat item_bytes app]; rewrite <- E; reflexivity|]. split.
    + constructor; [|exact F]. cbn [item_ok]. cbn [char_at] in Ch. destruct (btw 0 127 a) eqn:B1; [discriminate Ch|]. assert (~ (0 <= a <= 127)%Z) by (intros X; apply btw_iff in X; congruence). lia.
    + intros l1 b l2 X. destruct l1 as [|i l1]; [|injection X as _ X; exact (N l1 b l2 X)]. injection X as <- <-. intros c r Sc X. cbn [map concat item_bytes app] in X. rewrite <- E in X. rewrite X, (char_at_encode c r Sc) in Ch. discriminate Ch.
Qed.
Lemma decoding_unique items : forall items' file, Decoding file items -> Decoding file items' -> items = items'.
Proof.
  induction items as [|i items IH]; intros items' file D D'.
  - destruct D as (E & _). destruct items' as [|i' items']; [reflexivity|]. destruct D' as (E' & _). cbn [map concat] in E, E'. subst file. symmetry in E'. apply app_eq_nil in E' as [E' _]. destruct i'; cbn in E'; [destruct (encode_ne _ E')|discriminate E'].
  - destruct items' as [|i' items']. { destruct D as (E & _), D' as (E' & _). cbn [map concat] in E, E'. subst file. symmetry in E'. symmetry in E'. symmetry in E'. destruct (item_bytes i) eqn:X; [destruct i; cbn in X; [destruct (encode_ne _ X)|discriminate X]|discriminate E']. }
    pose proof (decoding_tl _ _ _ D) as T. pose proof (decoding_tl _ _ _ D') as T'. destruct D as (E & F & N), D' as (E' & F' & N'). inversion F as [|? ? O _]; subst x l. inversion F' as [|? ? O' _]; subst x l. cbn [map concat] in E, E'.
    assert (Ei : i = i'). { destruct i as [c|b], i' as [c'|b']; cbn [item_bytes item_ok] in *.
      - pose proof (char_at_encode c (concat (map item_bytes items)) O) as A. rewrite <- E, E', (char_at_encode c' _ O') in A. injection A as -> _. reflexivity.
      - destruct (N' [] b' items' eq_refl c (concat (map item_bytes items)) O). cbn [map concat item_bytes]. rewrite <- E', E. reflexivity.
      - destruct (N [] b items eq_refl c' (concat (map item_bytes items')) O'). cbn [map concat item_bytes]. rewrite <- E, E'. reflexivity.
      - rewrite E in E'. cbn [app] in E'. injection E' as -> _. reflexivity. }
    subst i'. f_equal. apply (IH items' (concat (map item_bytes items))); [exact T|]. rewrite E in E'. apply app_inv_head in E'. rewrite E'. exact T'.
Qed.
