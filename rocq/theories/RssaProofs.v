(** Proofs about reading RSSA files. *)
From Coq Require Import Lia ZArith.
From Verif Require Import PyBase PyLemmas PyStr RssaModel RssaSpec.
Open Scope nat_scope.

Lemma le_bytes_len n z : length (le_bytes n z) = n.
Proof. revert z. induction n as [|n IH]; intros z; cbn [le_bytes length]; [reflexivity|now rewrite IH]. Qed.
Lemma le_le_bytes n z : le (le_bytes n z) = (z mod 256 ^ Z.of_nat n)%Z.
Proof. revert z. induction n as [|n IH]; intros z; [cbn; now rewrite Z.mod_1_r|]. cbn [le_bytes le]. rewrite IH.
  rewrite Nat2Z.inj_succ, Z.pow_succ_r by lia. rewrite Z.rem_mul_r by lia. reflexivity. Qed.
Lemma signed_ok bits z : (0 < bits)%Z -> fits bits z -> signed bits (z mod 2 ^ bits) = z.
Proof. intros B [L U]. unfold signed. assert (P : (2 ^ bits = 2 * 2 ^ (bits - 1))%Z) by (rewrite <- Z.pow_succ_r by lia; f_equal; lia).
  assert (Q : (0 < 2 ^ (bits - 1))%Z) by (apply Z.pow_pos_nonneg; lia).
  destruct (Z_lt_le_dec z 0) as [N|N].
  - assert (E : (z mod 2 ^ bits = z + 2 ^ bits)%Z). { symmetry. apply (Z.mod_unique _ _ (-1)); [left; lia|lia]. }
    rewrite E. destruct (Z.ltb_spec (z + 2 ^ bits) (2 ^ (bits - 1))); lia.
  - rewrite Z.mod_small by lia. destruct (Z.ltb_spec z (2 ^ (bits - 1))); lia. Qed.
Lemma int32_ok z : fits 32 z -> int32 (le_bytes 4 z) = z.
Proof. intros F. unfold int32. rewrite le_le_bytes. change (256 ^ Z.of_nat 4)%Z with (2 ^ 32)%Z. now apply signed_ok. Qed.
Lemma int64_ok z : fits 64 z -> int64 (le_bytes 8 z) = z.
Proof. intros F. unfold int64. rewrite le_le_bytes. change (256 ^ Z.of_nat 8)%Z with (2 ^ 64)%Z. now apply signed_ok. Qed.
Lemma le_word w : (0 <= w < 2 ^ 64)%Z -> le (le_bytes 8 w) = w.
Proof. intros F. rewrite le_le_bytes. change (256 ^ Z.of_nat 8)%Z with (2 ^ 64)%Z. now apply Z.mod_small. Qed.

Lemma read_int_ok z r : fits 32 z -> read_int (le_bytes 4 z ++ r) = Ok (z, r).
Proof. intros F. rewrite <- (int32_ok z F) at 2. reflexivity. Qed.
Lemma fits_len d : record_ok d -> fits 32 (Z.of_nat (length d)).
Proof. unfold record_ok, fits. cbn [Z.sub]. intros H. change (2 ^ (32 - 1))%Z with (2 ^ 31)%Z. lia. Qed.
Lemma read_record_ok d r : record_ok d -> read_record (record d ++ r) = Ok (d, r).
Proof. intros K. pose proof (fits_len d K) as F. unfold record, read_record. rewrite <- !app_assoc, read_int_ok by exact F. cbn [bind].
  destruct (Z.ltb_spec (Z.of_nat (length d)) 0) as [|_]; [lia|]. rewrite Nat2Z.id. rewrite skipn_app, skipn_all, Nat.sub_diag, skipn_O, app_nil_l, read_int_ok by exact F. cbn [bind]. rewrite Z.eqb_refl, firstn_app, firstn_all, Nat.sub_diag, firstn_O, app_nil_r. reflexivity. Qed.

(** reading a field of a buffer *)
Lemma field_at n a b c : length b = n -> field n (length a) (a ++ b ++ c) = Ok b.
Proof. intros L. unfold field. rewrite !app_length. destruct (Nat.leb_spec (length a + n) (length a + (length b + length c))) as [_|]; [|lia].
  rewrite skipn_app, skipn_all, Nat.sub_diag, skipn_O, app_nil_l, firstn_app, L, Nat.sub_diag, firstn_O, app_nil_r. rewrite <- L. now rewrite firstn_all. Qed.
Lemma field32_at a z c : fits 32 z -> field32 (length a) (a ++ le_bytes 4 z ++ c) = Ok z.
Proof. intros F. unfold field32. rewrite field_at by apply le_bytes_len. cbn [bind]. now rewrite int32_ok. Qed.
Lemma field64_at a z c : fits 64 z -> field64 (length a) (a ++ le_bytes 8 z ++ c) = Ok z.
Proof. intros F. unfold field64. rewrite field_at by apply le_bytes_len. cbn [bind]. now rewrite int64_ok. Qed.

Lemma packs_blocks {A} n (ls : list (list A)) : 0 < n -> Forall (fun l => length l = n) ls -> packs n (concat ls) = ls.
Proof. intros N F. induction F as [|l ls L _ IH]; [reflexivity|]. cbn [concat]. rewrite packs_cons; [|exact N|destruct l; [cbn in L; lia|discriminate]].
  rewrite firstn_app, skipn_app, <- L, firstn_all, skipn_all, Nat.sub_diag, firstn_O, skipn_O, app_nil_r, app_nil_l. rewrite L. now rewrite IH. Qed.
Lemma concat_len {A} n (ls : list (list A)) : Forall (fun l => length l = n) ls -> length (concat ls) = n * length ls.
Proof. induction 1 as [|l ls L _ IH]; [cbn; lia|]. cbn [concat length]. rewrite app_length, IH, L. lia. Qed.
Lemma words_len (l : list Z) n : Forall (fun b => length b = n) (map (le_bytes n) l).
Proof. apply Forall_forall. intros b Q. apply in_map_iff in Q as [z [<- _]]. apply le_bytes_len. Qed.

Lemma read_surface_ok kj s : surface_ok kj s -> read_surface kj (surface_data s) = Ok s.
Proof. intros [F1 [F2 [F3 [F4 [FP [_ K]]]]]]. destruct s as [id info ty n ps]. cbn [su_id su_info su_type su_nparams su_params] in *. unfold read_surface, surface_data. cbn [su_id su_info su_type su_nparams su_params].
  set (P := concat (map (le_bytes 4) ps)). set (D := le_bytes 4 id ++ le_bytes 4 info ++ le_bytes 4 ty ++ le_bytes 4 n ++ P).
  assert (E0 : field32 0 D = Ok id). { change 0 with (length (@nil Z)). apply (field32_at [] id _ F1). }
  assert (E1 : field32 4 D = Ok info). { replace 4 with (length (le_bytes 4 id)) by apply le_bytes_len. unfold D. now apply field32_at. }
  assert (E2 : field32 8 D = Ok ty). { unfold D. rewrite app_assoc. replace 8 with (length (le_bytes 4 id ++ le_bytes 4 info)) by (rewrite app_length, !le_bytes_len; reflexivity). now apply field32_at. }
  assert (E3 : field32 12 D = Ok n). { unfold D. rewrite app_assoc, app_assoc. replace 12 with (length ((le_bytes 4 id ++ le_bytes 4 info) ++ le_bytes 4 ty)) by (rewrite !app_length, !le_bytes_len; reflexivity). now apply field32_at. }
  rewrite E0. cbn [bind]. assert (EI : (if (kj =? 1)%Z then field32 4 D else Ok (-1)%Z) = Ok info). { destruct (Z.eqb_spec kj 1) as [_|NE]; [exact E1|]. now rewrite (K NE). }
  rewrite EI. cbn [bind]. rewrite E2. cbn [bind]. rewrite E3. cbn [bind].
  assert (LP : length P = 4 * length ps). { unfold P. rewrite (concat_len 4) by apply words_len. now rewrite map_length. }
  assert (LD : length D = 16 + 4 * length ps) by (unfold D; rewrite !app_length, !le_bytes_len, LP; lia).
  rewrite LD. destruct (Nat.ltb_spec (16 + 4 * length ps) 16) as [|_]; [lia|]. replace (16 + 4 * length ps - 16) with (length ps * 4) by lia. rewrite Nat.mod_mul by lia. cbn [Nat.eqb negb orb].
  assert (SK : skipn 16 D = P). { unfold D. rewrite !app_assoc, skipn_app. rewrite skipn_all2 by (rewrite !app_length, !le_bytes_len; lia). rewrite !app_length, !le_bytes_len. reflexivity. }
  rewrite SK. unfold P. rewrite packs_blocks by (try apply words_len; lia). rewrite map_map. f_equal. f_equal. transitivity (map (fun z => z) ps); [|apply map_id]. apply map_ext_in. intros z Q. rewrite Forall_forall in FP. apply int32_ok, FP, Q. Qed.
Lemma read_surfaces_ok kj ss r : Forall (surface_ok kj) ss -> read_surfaces (length ss) kj (concat (map (fun s => record (surface_data s)) ss) ++ r) = Ok (ss, r).
Proof. intros F. induction F as [|s ss S _ IH]; [reflexivity|]. cbn [length read_surfaces map concat]. rewrite <- app_assoc, read_record_ok by apply S. cbn [bind]. rewrite read_surface_ok by exact S. cbn [bind]. rewrite IH. reflexivity. Qed.

Lemma zprefix_app p s : zprefix p (p ++ s) = true.
Proof. induction p as [|x p IH]; [reflexivity|]. cbn [app zprefix]. now rewrite Z.eqb_refl, IH. Qed.
Lemma zprefix_spec p s : zprefix p s = true -> exists r, s = p ++ r.
Proof. revert s. induction p as [|x p IH]; intros s H; [now exists s|]. destruct s as [|y s]; [discriminate|]. cbn [zprefix] in H. apply andb_true_iff in H as [E H]. apply Z.eqb_eq in E. subst. destruct (IH _ H) as [r ->]. now exists r. Qed.
Lemma zcontains_spec p s : zcontains p s = true <-> exists a b, s = a ++ p ++ b.
Proof. split.
  - induction s as [|y s IH]; cbn [zcontains]; rewrite orb_true_iff; intros [H|H].
    + apply zprefix_spec in H as [r ->]. exists [], r. reflexivity.
    + discriminate.
    + apply zprefix_spec in H as [r ->]. exists [], r. reflexivity.
    + destruct (IH H) as [a [b ->]]. exists (y :: a), b. reflexivity.
  - intros [a [b ->]]. induction a as [|y a IH].
    + cbn [app]. destruct (p ++ b) eqn:E; cbn [zcontains]; rewrite <- E, zprefix_app; reflexivity.
    + cbn [app zcontains]. rewrite IH. apply orb_true_r. Qed.

Lemma read_header_ok title p pad2 pad3 summary r : params_ok p -> title_ok title -> record_ok title -> record_ok (header2 p pad2) -> record_ok (header3 p pad3) -> record_ok summary ->
  read_header (header_file title p pad2 pad3 summary ++ r) = Ok (p, r).
Proof. intros [F1 [F2 [F3 [F4 [F5 [F6 [F7 [C [NP [NW [NJ FS]]]]]]]]]]] [T1 T2] K1 K2 K3 K4. destruct p as [a b c d e f g k ss]. cbn [np1 nrss nrcd njsw niss niwr mipts kjaq surfaces] in *. subst c.
  unfold read_header, header_file. rewrite <- !app_assoc. rewrite read_record_ok by exact K1. cbn [bind]. rewrite T1. cbn [negb]. apply zcontains_spec in T2. rewrite T2. cbn [negb]. rewrite read_record_ok by exact K2. cbn [bind].
  unfold header2. cbn [np1 nrss nrcd njsw niss]. set (D := le_bytes 8 a ++ le_bytes 8 b ++ le_bytes 4 11 ++ le_bytes 4 d ++ le_bytes 8 e ++ pad2).
  assert (E0 : field64 0 D = Ok a). { change 0 with (length (@nil Z)). apply (field64_at [] a _ F1). }
  assert (E1 : field64 8 D = Ok b). { replace 8 with (length (le_bytes 8 a)) by apply le_bytes_len. unfold D. now apply field64_at. }
  assert (E2 : field32 16 D = Ok 11%Z). { unfold D. rewrite app_assoc. replace 16 with (length (le_bytes 8 a ++ le_bytes 8 b)) by (rewrite app_length, !le_bytes_len; reflexivity). apply field32_at. unfold fits; cbn; lia. }
  assert (E3 : field32 20 D = Ok d). { unfold D. rewrite app_assoc, app_assoc. replace 20 with (length ((le_bytes 8 a ++ le_bytes 8 b) ++ le_bytes 4 11)) by (rewrite !app_length, !le_bytes_len; reflexivity). now apply field32_at. }
  assert (E4 : field64 24 D = Ok e). { unfold D. rewrite !app_assoc. rewrite <- (app_assoc _ _ pad2). replace 24 with (length (((le_bytes 8 a ++ le_bytes 8 b) ++ le_bytes 4 11) ++ le_bytes 4 d)) by (rewrite !app_length, !le_bytes_len; reflexivity). now apply field64_at. }
  rewrite E0; cbn [bind]; rewrite E1; cbn [bind]; rewrite E2; cbn [bind]; rewrite E3; cbn [bind]; rewrite E4; cbn [bind]. rewrite Z.eqb_refl. cbn [negb]. destruct (Z.ltb_spec a 0) as [_|]; [|lia]. cbn [negb].
  rewrite read_record_ok by exact K3. cbn [bind]. unfold header3. cbn [niwr mipts kjaq].
  assert (E5 : field 12 0 (le_bytes 4 f ++ le_bytes 4 g ++ le_bytes 4 k ++ pad3) = Ok (le_bytes 4 f ++ le_bytes 4 g ++ le_bytes 4 k)).
  { change 0 with (length (@nil Z)). rewrite !app_assoc. apply (field_at 12 []). now rewrite !app_length, !le_bytes_len. }
  rewrite E5. cbn [bind]. change (firstn 4 (le_bytes 4 f ++ le_bytes 4 g ++ le_bytes 4 k)) with (le_bytes 4 f). change (firstn 4 (skipn 4 (le_bytes 4 f ++ le_bytes 4 g ++ le_bytes 4 k))) with (le_bytes 4 g). change (skipn 8 (le_bytes 4 f ++ le_bytes 4 g ++ le_bytes 4 k)) with (le_bytes 4 k).
  rewrite !int32_ok by assumption. rewrite NJ, Nat2Z.id. rewrite read_surfaces_ok by exact FS. cbn [bind]. destruct (Z.ltb_spec 0 f) as [|_]; [lia|]. rewrite read_record_ok by exact K4. cbn [bind]. reflexivity. Qed.

(** tracks *)
Lemma track_record_len t : length t = 11 -> length (track_record t) = 96.
Proof. intros L. unfold track_record, record. rewrite !app_length, !le_bytes_len, (concat_len 8) by apply words_len. rewrite map_length, L. reflexivity. Qed.
Lemma middle {A} (a b c : list A) n m : length a = n -> length b = m -> firstn m (skipn n (a ++ b ++ c)) = b.
Proof. intros <- <-. rewrite skipn_app, skipn_all, Nat.sub_diag, skipn_O, app_nil_l, firstn_app, firstn_all, Nat.sub_diag, firstn_O, app_nil_r. reflexivity. Qed.
Lemma read_tracks_ok ts : Forall track_ok ts -> read_tracks (concat (map track_record ts)) = Ok ts.
Proof. intros F. assert (L : Forall (fun r => length r = 96) (map track_record ts)). { apply Forall_forall. intros r Q. apply in_map_iff in Q as [t [<- Q]]. rewrite Forall_forall in F. apply track_record_len, F, Q. }
  unfold read_tracks. rewrite (concat_len 96) by exact L. rewrite Nat.mul_comm, Nat.mod_mul by lia. cbn [Nat.eqb]. rewrite (packs_blocks 96) by (try exact L; lia). rewrite map_map. f_equal.
  assert (E : map (fun t => firstn 88 (skipn 4 (track_record t))) ts = map (fun t => concat (map (le_bytes 8) t)) ts).
  { apply map_ext_in. intros t Q. unfold track_record, record. apply middle; [apply le_bytes_len|]. rewrite (concat_len 8) by apply words_len. rewrite map_length. rewrite Forall_forall in F. now rewrite (proj1 (F t Q)). }
  rewrite E. assert (CC : concat (map (fun t => concat (map (le_bytes 8) t)) ts) = concat (map (le_bytes 8) (concat ts))). { clear. induction ts as [|t ts IH]; [reflexivity|]. cbn [map concat]. now rewrite IH, map_app, concat_app. }
  rewrite CC, packs_blocks by (try apply words_len; lia). rewrite map_map.
  assert (I : map (fun w => le (le_bytes 8 w)) (concat ts) = concat ts). { transitivity (map (fun z => z) (concat ts)); [|apply map_id]. apply map_ext_in. intros w Q. apply in_concat in Q as [t [Q1 Q2]]. rewrite Forall_forall in F. destruct (F t Q1) as [_ G]. rewrite Forall_forall in G. apply le_word, G, Q2. }
  rewrite I. apply packs_blocks; [lia|]. apply Forall_forall. intros t Q. rewrite Forall_forall in F. apply F, Q. Qed.

(** reading is local: bytes after what was read do not matter *)
Lemma read_int_ext f z r x : read_int f = Ok (z, r) -> read_int (f ++ x) = Ok (z, r ++ x).
Proof. destruct f as [|a [|b [|c [|d f]]]]; cbn [read_int app]; try discriminate. intros E. injection E as <- <-. reflexivity. Qed.
Lemma read_int_len f z r : read_int f = Ok (z, r) -> length f = 4 + length r.
Proof. destruct f as [|a [|b [|c [|d f]]]]; cbn [read_int]; try discriminate. intros E. injection E as _ <-. reflexivity. Qed.
Lemma read_record_ext f d r x : read_record f = Ok (d, r) -> read_record (f ++ x) = Ok (d, r ++ x).
Proof. unfold read_record. destruct (read_int f) as [[c1 r1]|] eqn:E1; cbn [bind]; [|discriminate]. rewrite (read_int_ext _ _ _ x E1). cbn [bind].
  destruct (Z.ltb_spec c1 0) as [N|N].
  - rewrite skipn_all. cbn [read_int bind]. discriminate.
  - destruct (read_int (skipn (Z.to_nat c1) r1)) as [[c2 r2]|] eqn:E2; cbn [bind]; [|discriminate]. pose proof (read_int_len _ _ _ E2) as L. rewrite skipn_length in L.
    rewrite skipn_app. replace (Z.to_nat c1 - length r1) with 0 by lia. rewrite skipn_O, (read_int_ext _ _ _ x E2). cbn [bind]. destruct (c1 =? c2)%Z; [|discriminate]. intros E. injection E as <- <-. rewrite firstn_app. replace (Z.to_nat c1 - length r1) with 0 by lia. now rewrite firstn_O, app_nil_r. Qed.
Lemma read_surfaces_ext n kj f ss r x : read_surfaces n kj f = Ok (ss, r) -> read_surfaces n kj (f ++ x) = Ok (ss, r ++ x).
Proof. revert f ss r. induction n as [|n IH]; intros f ss r; cbn [read_surfaces]; [intros E; injection E as <- <-; reflexivity|].
  destruct (read_record f) as [[d f1]|] eqn:E1; cbn [bind]; [|discriminate]. rewrite (read_record_ext _ _ _ x E1). cbn [bind]. destruct (read_surface kj d); cbn [bind]; [|discriminate]. destruct (read_surfaces n kj f1) as [[l f2]|] eqn:E2; cbn [bind]; [|discriminate]. rewrite (IH _ _ _ E2). cbn [bind]. intros E. injection E as <- <-. reflexivity. Qed.
Lemma read_header_ext f p r x : read_header f = Ok (p, r) -> read_header (f ++ x) = Ok (p, r ++ x).
Proof. unfold read_header. destruct (read_record f) as [[d1 f1]|] eqn:E1; cbn [bind]; [|discriminate]. rewrite (read_record_ext _ _ _ x E1). cbn [bind]. destruct (negb (utf8 d1)); [discriminate|]. destruct (negb (zcontains _ d1)); [discriminate|].
  destruct (read_record f1) as [[d2 f2]|] eqn:E2; cbn [bind]; [|discriminate]. rewrite (read_record_ext _ _ _ x E2). cbn [bind].
  destruct (field64 0 d2) as [a|]; cbn [bind]; [|discriminate]. destruct (field64 8 d2) as [b|]; cbn [bind]; [|discriminate]. destruct (field32 16 d2) as [c|]; cbn [bind]; [|discriminate]. destruct (field32 20 d2) as [dd|]; cbn [bind]; [|discriminate]. destruct (field64 24 d2) as [e|]; cbn [bind]; [|discriminate].
  destruct (negb (c =? 11)%Z); [discriminate|]. destruct (negb (a <? 0)%Z); [discriminate|]. destruct (read_record f2) as [[d3 f3]|] eqn:E3; cbn [bind]; [|discriminate]. rewrite (read_record_ext _ _ _ x E3). cbn [bind]. destruct (field 12 0 d3) as [b12|]; cbn [bind]; [|discriminate].
  destruct (read_surfaces _ _ f3) as [[ss f4]|] eqn:E4; cbn [bind]; [|discriminate]. rewrite (read_surfaces_ext _ _ _ _ _ x E4). cbn [bind]. destruct (0 <? _)%Z; [destruct (read_record f4) as [[? ?]|]; cbn [bind]; discriminate|]. destruct (read_record f4) as [[d5 f5]|] eqn:E5; cbn [bind]; [|discriminate]. rewrite (read_record_ext _ _ _ x E5). cbn [bind]. intros E. injection E as <- <-. reflexivity. Qed.

(** the words of any tracks that were read *)
Lemma skipn_skipn {A} a b (l : list A) : skipn a (skipn b l) = skipn (a + b) l.
Proof. revert l. induction b as [|b IH]; intros l; [now rewrite Nat.add_0_r, skipn_O|]. destruct l as [|x l]; [now rewrite !skipn_nil|]. rewrite Nat.add_succ_r. cbn [skipn]. apply IH. Qed.
Lemma packs_nth {A} n (l : list A) i : 0 < n -> n * S i <= length l -> nth_error (packs n l) i = Some (firstn n (skipn (n * i) l)).
Proof. intros N. revert l. induction i as [|i IH]; intros l L.
  - rewrite packs_cons; [|exact N|intros ->; cbn in L; lia]. rewrite Nat.mul_0_r, skipn_O. reflexivity.
  - rewrite packs_cons; [|exact N|intros ->; cbn in L; lia]. cbn [nth_error]. rewrite IH by (rewrite skipn_length; nia). rewrite skipn_skipn. replace (n * i + n) with (n * S i) by nia. reflexivity. Qed.
Lemma packs_len {A} n k (l : list A) : 0 < n -> length l = n * k -> length (packs n l) = k.
Proof. intros N. revert l. induction k as [|k IH]; intros l L.
  - destruct l; [reflexivity|cbn in L; lia].
  - rewrite packs_cons; [|exact N|intros ->; cbn in L; lia]. cbn [length]. rewrite IH; [reflexivity|]. rewrite skipn_length. nia. Qed.
Lemma packs_all_len {A} n k (l : list A) : 0 < n -> length l = n * k -> Forall (fun p => length p = n) (packs n l).
Proof. intros N. revert l. induction k as [|k IH]; intros l L.
  - destruct l; [constructor|cbn in L; lia].
  - rewrite packs_cons; [|exact N|intros ->; cbn in L; lia]. constructor; [apply firstn_length_le; nia|]. apply IH. rewrite skipn_length. nia. Qed.
Lemma concat_skip {A} n i (ls : list (list A)) : Forall (fun l => length l = n) ls -> skipn (n * i) (concat ls) = concat (skipn i ls).
Proof. intros F. revert i. induction F as [|l ls L _ IH]; intros i; [now rewrite !skipn_nil|]. destruct i as [|i]; [now rewrite Nat.mul_0_r|]. cbn [concat skipn]. rewrite skipn_app, skipn_all2 by nia. cbn [app]. rewrite <- IH. f_equal. nia. Qed.
Lemma concat_nth {A} n i j (ls : list (list A)) : Forall (fun l => length l = n) ls -> j < n -> nth_error (concat ls) (n * i + j) = match nth_error ls i with Some l => nth_error l j | None => None end.
Proof. intros F J. revert i. induction F as [|l ls L _ IH]; intros i; [cbn [concat]; destruct (n * i + j), i; reflexivity|]. cbn [concat]. destruct i as [|i].
  - rewrite Nat.mul_0_r. cbn [plus nth_error]. rewrite nth_error_app1 by lia. reflexivity.
  - rewrite nth_error_app2 by nia. cbn [nth_error]. rewrite <- IH. f_equal. nia. Qed.
Lemma window {A} n m k (l : list A) : m + n <= k -> firstn n (skipn m (firstn k l)) = firstn n (skipn m l).
Proof. intros H. rewrite skipn_firstn_comm, firstn_firstn. f_equal. lia. Qed.
Lemma nth_firstn {A} n (l : list A) j : j < n -> nth_error (firstn n l) j = nth_error l j.
Proof. revert l j. induction n as [|n IH]; intros l j H; [lia|]. destruct l as [|x l]; [reflexivity|]. destruct j as [|j]; [reflexivity|]. cbn [firstn nth_error]. apply IH. lia. Qed.
Lemma nth_skipn {A} n (l : list A) j : nth_error (skipn n l) j = nth_error l (n + j).
Proof. revert l. induction n as [|n IH]; intros l; [reflexivity|]. destruct l as [|x l]; [cbn; now destruct j|]. cbn [skipn plus nth_error]. apply IH. Qed.
Lemma skipn_nth {A} i (l : list A) x : nth_error l i = Some x -> skipn i l = x :: skipn (S i) l.
Proof. revert l. induction i as [|i IH]; intros l H; destruct l as [|y l]; try discriminate; [cbn in *; congruence|]. cbn [skipn nth_error] in *. now apply IH. Qed.
Lemma read_tracks_words f t : read_tracks f = Ok t -> length f = 96 * length t /\ Forall (fun w => length w = 11) t /\
  forall i j, i < length t -> j < 11 -> exists w, nth_error t i = Some w /\ nth_error w j = Some (le (firstn 8 (skipn (96 * i + 4 + 8 * j) f))).
Proof. unfold read_tracks. destruct (Nat.eqb_spec (length f mod 96) 0) as [M|]; [|discriminate]. intros E. apply (f_equal (fun r => match r with Ok x => x | Err _ => t end)) in E. cbv beta iota in E. subst t.
  pose proof (Nat.div_mod_eq (length f) 96) as DM. rewrite M, Nat.add_0_r in DM. set (k := length f / 96) in *.
  set (bodies := map (fun r => firstn 88 (skipn 4 r)) (packs 96 f)).
  assert (LR : Forall (fun p => length p = 96) (packs 96 f)) by (apply (packs_all_len 96 k); [lia|exact DM]).
  assert (LB : Forall (fun p => length p = 88) bodies). { apply Forall_forall. intros b Q. apply in_map_iff in Q as [r [<- Q]]. rewrite Forall_forall in LR. apply firstn_length_le. rewrite skipn_length, (LR r Q). lia. }
  assert (NB : length bodies = k) by (unfold bodies; rewrite map_length; apply packs_len; [lia|exact DM]).
  assert (LC : length (concat bodies) = 8 * (11 * k)) by (rewrite (concat_len 88) by exact LB; rewrite NB; lia).
  assert (LW : length (packs 8 (concat bodies)) = 11 * k) by (apply packs_len; [lia|exact LC]).
  assert (LM : length (map le (packs 8 (concat bodies))) = 11 * k) by (now rewrite map_length).
  rewrite (packs_len 11 k) by (try exact LM; lia). split; [exact DM|]. split; [apply (packs_all_len 11 k); [lia|exact LM]|].
  intros i j I J. eexists. split; [apply packs_nth; [lia|rewrite LM; nia]|]. rewrite nth_firstn by exact J. rewrite nth_skipn, nth_error_map. 
  transitivity (option_map le (Some (firstn 8 (skipn (8 * (11 * i + j)) (concat bodies))))); [f_equal; apply packs_nth; [lia|rewrite LC; nia]|]. cbn [option_map]. f_equal. f_equal.
  replace (8 * (11 * i + j)) with (8 * j + 88 * i) by lia. rewrite <- skipn_skipn, (concat_skip 88) by exact LB.
  assert (NI : nth_error bodies i = Some (firstn 88 (skipn 4 (firstn 96 (skipn (96 * i) f))))). { unfold bodies. rewrite nth_error_map, packs_nth; [reflexivity|lia|nia]. }
  rewrite (skipn_nth _ _ _ NI). cbn [concat]. set (body := firstn 88 (skipn 4 (firstn 96 (skipn (96 * i) f)))) in *.
  assert (LBi : length body = 88). { rewrite Forall_forall in LB. apply LB. eapply nth_error_In, NI. }
  rewrite skipn_app. replace (8 * j - length body) with 0 by lia. rewrite skipn_O, firstn_app. replace (8 - length (skipn (8 * j) body)) with 0 by (rewrite skipn_length; lia). rewrite firstn_O, app_nil_r.
  unfold body. rewrite window by lia. rewrite skipn_skipn, window by lia. rewrite skipn_skipn. do 2 f_equal. lia. Qed.
Lemma read_tracks_partial f : length f mod 96 <> 0 -> read_tracks f = Err ValueError.
Proof. intros H. unfold read_tracks. now apply Nat.eqb_neq in H as ->. Qed.

(** UTF-8 *)
Lemma utf8_ascii a b : Forall (fun x => 0 <= x < 128)%Z a -> utf8 (a ++ b) = utf8 b.
Proof. induction 1 as [|x a [L U] _ IH]; [reflexivity|]. cbn [app utf8]. unfold btw at 1. destruct (Z.leb_spec 0 x); [|lia]. destruct (Z.leb_spec x 127); [|lia]. exact IH. Qed.
Lemma utf8_dump d : (128 <= d < 256)%Z -> utf8 (le_bytes 4 d) = false.
Proof. intros [L U]. cbn [le_bytes]. rewrite (Z.mod_small d) by lia. rewrite (Z.div_small d) by lia. change (0 mod 256)%Z with 0%Z. change (0 / 256)%Z with 0%Z. change (0 mod 256)%Z with 0%Z.
  unfold utf8. unfold btw. destruct (Z.leb_spec 0 d); [|lia]. destruct (Z.leb_spec d 127); [lia|]. cbn [andb]. change (128 <=? 0)%Z with false. change (160 <=? 0)%Z with false. change (144 <=? 0)%Z with false. cbn [andb orb]. rewrite !andb_false_r. cbn [orb andb]. reflexivity. Qed.

(** masks *)
Lemma where_in {A} (p : A -> bool) l i : In i (where_ p l) <-> exists x, nth_error l i = Some x /\ p x = true.
Proof. unfold where_. rewrite in_map_iff.
  assert (G : forall k (l : list A) i x, In (i, x) (combine (seq k (length l)) l) <-> k <= i /\ nth_error l (i - k) = Some x).
  { clear. intros k l. revert k. induction l as [|y l IH]; intros k i x; cbn [length seq combine].
    - split; [intros []|intros [_ Q]; destruct (i - k); discriminate].
    - cbn [In]. rewrite IH. split.
      + intros [E|[L E]]; [injection E as <- <-; now rewrite Nat.sub_diag|]. split; [lia|]. replace (i - k) with (S (i - S k)) by lia. exact E.
      + intros [L E]. destruct (Nat.eq_dec i k) as [->|NE]; [rewrite Nat.sub_diag in E; injection E as ->; now left|]. right. split; [lia|]. replace (i - k) with (S (i - S k)) in E by lia. exact E. }
  split.
  - intros [[i' x] [<- Q]]. apply filter_In in Q as [Q P]. apply G in Q as [_ Q]. rewrite Nat.sub_0_r in Q. exists x. auto.
  - intros [x [Q P]]. exists (i, x). split; [reflexivity|]. apply filter_In. split; [apply G; split; [lia|now rewrite Nat.sub_0_r]|exact P]. Qed.
Lemma where_from_nodup {A} (p : A -> bool) k l : NoDup (map fst (filter (fun ix => p (snd ix)) (combine (seq k (length l)) l))).
Proof. revert k. induction l as [|y l IH]; intros k; [constructor|]. cbn [length seq combine filter snd]. specialize (IH (S k)). destruct (p y); [|exact IH]. cbn [map fst]. constructor; [|exact IH].
  intros Q. apply in_map_iff in Q as [[i x] [E Q]]. cbn [fst] in E. subst. apply filter_In in Q as [Q _]. apply in_combine_l, in_seq in Q. lia. Qed.
Lemma where_nodup {A} (p : A -> bool) l : NoDup (where_ p l).
Proof. apply where_from_nodup. Qed.
Lemma where_len {A} (p q : A -> bool) l : (forall x, In x l -> q x = negb (p x)) -> length (where_ p l) + length (where_ q l) = length l.
Proof. intros H. unfold where_. rewrite !map_length. generalize 0. induction l as [|y l IH]; intros k; [reflexivity|]. cbn [length seq combine filter snd]. rewrite (H y (or_introl eq_refl)). specialize (IH (fun x Q => H x (or_intror Q)) (S k)). destruct (p y); cbn [negb length]; lia. Qed.
