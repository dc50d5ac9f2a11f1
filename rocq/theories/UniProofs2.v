(** The report of the bytes that are not UTF-8: proofs. *)
From Coq Require Import Lia ZArith Sorted.
From Verif Require Import PyBase PyStr PyStrLemmas RssaModel RssaSpec RssaProofs3 UniModel UniSpec UniProofs.
Open Scope nat_scope.

Fixpoint errs (i : nat) (ls : list (list Z)) : list (nat * (nat * Z)) :=
  match ls with [] => [] | l :: r => map (fun e => (i, e)) (decoding_errors 0 l) ++ errs (S i) r end.
Lemma de_app l : forall k c, decoding_errors k (l ++ [c]) = decoding_errors k l ++ (if btw 56448 56575 c then [(k + length l, (c - 56320)%Z)] else []).
Proof.
  induction l as [|x l IH]; intros k c; cbn [app decoding_errors length].
  - rewrite Nat.add_0_r. destruct (btw 56448 56575 c); reflexivity.
  - rewrite IH. replace (k + S (length l)) with (S k + length l) by lia. destruct (btw 56448 56575 x); reflexivity.
Qed.
Lemma after_other l col cr c : c <> 13%Z -> c <> 10%Z -> after_item (l, col, cr) (Good c) = (l, S col, false).
Proof. intros A B. unfold after_item. destruct c as [|p|p]; try reflexivity. do 4 (destruct p as [p|p|]; try reflexivity; try congruence). Qed.
Lemma bad_true i r : (forall r', r <> Good 10 :: r') -> bad_bytes (i, 0, true) r = bad_bytes (i, 0, false) r.
Proof.
  intros H. destruct r as [|[c|b] r]; [reflexivity| |reflexivity]. cbn [bad_bytes]. f_equal.
  destruct (Z.eq_dec c 10) as [->|N]; [destruct (H r eq_refl)|]. destruct (Z.eq_dec c 13) as [->|N']; [reflexivity|]. rewrite !after_other by assumption. reflexivity.
Qed.
Lemma good_no c : scalar c -> btw 56448 56575 c = false.
Proof. unfold scalar. intros H. destruct (btw 56448 56575 c) eqn:B; [|reflexivity]. apply btw_iff in B. lia. Qed.
Lemma code_10 d : item_ok d -> code d = 10%Z -> d = Good 10.
Proof. destruct d as [c|b]; cbn [item_ok code]; intros H E; [congruence|lia]. Qed.
Lemma errs_items : forall n items, length items <= n -> Forall item_ok items -> forall cur i,
  errs i (text_lines cur (universal (map code items))) = map (fun e => (i, e)) (decoding_errors 0 (rev cur)) ++ bad_bytes (i, length cur, false) items.
Proof.
  induction n as [|n IH]; intros items L F cur i.
  - destruct items; [|cbn in L; lia]. cbn [map universal text_lines bad_bytes]. rewrite app_nil_r. destruct cur; [reflexivity|]. cbn [errs]. apply app_nil_r.
  - destruct items as [|d items]. { cbn [map universal text_lines bad_bytes]. rewrite app_nil_r. destruct cur; [reflexivity|]. cbn [errs]. apply app_nil_r. }
    cbn [length] in L. inversion F as [|? ? Od Fi]; subst x l. cbn [map universal bad_bytes].
    assert (Hd : (code d =? 13)%Z = false -> (code d =? 10)%Z = false ->
      errs i (text_lines cur (code d :: universal (map code items))) = map (fun e => (i, e)) (decoding_errors 0 (rev cur)) ++ (match d with Bad b => [(i, (length cur, b))] | Good _ => [] end ++ bad_bytes (i, S (length cur), false) items)).
    { intros N13 N10. cbn [text_lines]. rewrite N10, IH by (assumption || lia). cbn [rev length]. rewrite de_app, map_app, <- app_assoc. f_equal. f_equal. rewrite rev_length, Nat.add_0_l.
      destruct d as [c|b]; cbn [code item_ok] in *. { rewrite (good_no c Od). reflexivity. }
      assert (B : btw 56448 56575 (56320 + b) = true) by (apply btw_iff; lia). rewrite B. cbn [map]. replace (56320 + b - 56320)%Z with b by lia. reflexivity. }
    destruct d as [c|b].
    + cbn [code item_ok fst snd] in *. destruct (Z.eqb_spec c 13) as [->|N13].
      * cbn [text_lines]. change ((10 =? 10)%Z) with true. cbn iota. cbn [errs]. cbn [rev]. rewrite de_app. change (btw 56448 56575 10) with false. cbn iota. rewrite app_nil_r. f_equal. cbn [app]. change (after_item (i, length cur, false) (Good 13)) with (S i, 0, true).
        destruct items as [|d' items']; [reflexivity|]. cbn [map]. inversion Fi as [|? ? Od' Fi']; subst x l. destruct (Z.eqb_spec (code d') 10) as [E|N].
        -- apply code_10 in E; [|assumption]. subst d'. cbn [length] in L. cbn [bad_bytes app]. change (after_item (S i, 0, true) (Good 10)) with (S i, 0, false). rewrite IH by (assumption || lia). reflexivity.
        -- rewrite bad_true by (intros r' X; injection X as -> _; apply N; reflexivity). change (code d' :: map code items') with (map code (d' :: items')). rewrite IH by (assumption || lia). reflexivity.
      * destruct (Z.eqb_spec c 10) as [->|N10].
        -- cbn [text_lines]. change ((10 =? 10)%Z) with true. cbn iota. cbn [errs]. cbn [rev]. rewrite de_app. change (btw 56448 56575 10) with false. cbn iota. rewrite app_nil_r. f_equal. cbn [app]. change (after_item (i, length cur, false) (Good 10)) with (S i, 0, false). rewrite IH by (assumption || lia). reflexivity.
        -- rewrite after_other by assumption. apply Hd; reflexivity.
    + cbn [code item_ok] in *. assert (N13 : (56320 + b =? 13)%Z = false) by (apply Z.eqb_neq; lia). assert (N10 : (56320 + b =? 10)%Z = false) by (apply Z.eqb_neq; lia). rewrite N13. apply Hd; assumption.
Qed.

(* the text of the report *)
Definition small (e : nat * Z) : Prop := (0 <= snd e < 256)%Z.
Lemma de_small l : forall k, Forall small (decoding_errors k l).
Proof. induction l as [|c l IH]; intros k; cbn [decoding_errors]; [constructor|]. destruct (btw 56448 56575 c) eqn:B; [|apply IH]. apply btw_iff in B. constructor; [unfold small; cbn [snd]; lia|apply IH]. Qed.
Lemma hex_ok z : (0 <= z < 16)%Z -> nth_error (s2l "0123456789abcdef") (Z.to_nat z) = Some (hex_digit z).
Proof. intros H. unfold hex_digit. apply nth_error_nth'. change (length (s2l "0123456789abcdef")) with 16. lia. Qed.
Lemma show_byte e : small e -> ShowByte e (error_text e).
Proof.
  unfold small. intros H. exists (hex_digit (snd e / 16)), (hex_digit (snd e mod 16)).
  split; [apply hex_ok; split; [apply Z.div_pos; lia|apply Z.div_lt_upper_bound; lia]|]. split; [apply hex_ok; apply Z.mod_pos_bound; lia|reflexivity].
Qed.
Lemma show_bytes l : Forall small l -> Forall2 ShowByte l (map error_text l).
Proof. intros H. induction H; cbn [map]; constructor; [apply show_byte; assumption|assumption]. Qed.
Lemma report_groups ls : forall i, exists groups ts, errs i ls = concat (map (fun g => map (fun e => (fst g, e)) (snd g)) groups)
    /\ Forall (fun g => snd g <> []) groups /\ StronglySorted lt (map fst groups) /\ Forall (fun g : nat * list (nat * Z) => i <= fst g) groups /\ Forall2 ShowLine groups ts /\ report i ls = concat ts.
Proof.
  induction ls as [|l ls IH]; intros i.
  - exists [], []. cbn. repeat split; constructor.
  - destruct (IH (S i)) as (gs & ts & E & Ne & Ss & Ge & F2 & R). cbn [errs report]. pose proof (de_small l 0) as Sm. destruct (decoding_errors 0 l) as [|e es] eqn:D.
    + exists gs, ts. cbn [map app]. repeat split; try assumption. eapply Forall_impl; [|exact Ge]. cbn. intros; lia.
    + exists ((i, e :: es) :: gs), ((s2l "Found errors on line " ++ str_of_N (N.of_nat i) ++ s2l ":" ++ concat (map error_text (e :: es)) ++ [nl]) :: ts).
      split; [cbn [map concat fst snd]; rewrite E; reflexivity|]. split; [constructor; [discriminate|assumption]|].
      split. { cbn [map fst]. constructor; [assumption|]. apply Forall_map. eapply Forall_impl; [|exact Ge]. cbn. intros; lia. }
      split. { constructor; [cbn; lia|]. eapply Forall_impl; [|exact Ge]. cbn. intros; lia. }
      split; [constructor; [|assumption]|cbn [concat]; rewrite R; reflexivity].
      exists (map error_text (e :: es)). split; [apply show_bytes; exact Sm|reflexivity].
Qed.
Lemma report_thm file items : Decoding file items -> Report (bad_bytes (1, 0, false) items) (debug_file_unicode file).
Proof.
  intros D. unfold debug_file_unicode. rewrite (decode_items items file _ D (le_n _)).
  destruct (report_groups (text_lines [] (universal (map code items))) 1) as (gs & ts & E & Ne & Ss & _ & F2 & R). destruct D as (_ & F & _).
  rewrite (errs_items _ items (le_n _) F) in E. cbn [rev decoding_errors map app length] in E. exists gs, ts. repeat split; assumption.
Qed.
Lemma bad_nil items : forall p, bad_bytes p items = [] <-> forall b, ~ In (Bad b) items.
Proof.
  induction items as [|[c|b] items IH]; intros p; cbn [bad_bytes app].
  - split; [intros _ b []|reflexivity].
  - rewrite IH. split; intros H b; [intros [X|X]; [discriminate X|exact (H b X)]|intros X; exact (H b (or_intror X))].
  - split; [discriminate|]. intros H. destruct (H b (or_introl eq_refl)).
Qed.
Lemma report_nil bad t : Report bad t -> (t = [] <-> bad = []).
Proof.
  intros (gs & ts & E & Ne & _ & F2 & R). subst. inversion F2 as [|g t gs' ts' (xs & _ & Et) _]; subst.
  - split; reflexivity.
  - inversion Ne as [|? ? N _]; subst. split; intros X.
    + apply (f_equal (@length ascii)) in X. cbn in X. rewrite ?app_length in X. cbn in X. lia.
    + cbn [map concat] in X. destruct (snd g); [congruence|discriminate X].
Qed.
Lemma all_good items : (forall b, ~ In (Bad b) items) -> Forall item_ok items -> exists cps, Forall scalar cps /\ items = map Good cps.
Proof.
  intros H F. induction F as [|i items O F IH]; [exists []; split; [constructor|reflexivity]|].
  destruct IH as (cps & S1 & E); [intros b X; exact (H b (or_intror X))|]. destruct i as [c|b]; [|destruct (H b (or_introl eq_refl))].
  exists (c :: cps). split; [constructor; assumption|cbn [map]; rewrite <- E; reflexivity].
Qed.
Lemma goods_decode cps : Forall scalar cps -> Decoding (concat (map encode cps)) (map Good cps).
Proof.
  intros F. split; [rewrite map_map; reflexivity|]. split; [apply Forall_map; exact F|].
  intros l1 b l2 E. assert (X : In (Bad b) (map Good cps)) by (rewrite E; apply in_or_app; right; left; reflexivity). apply in_map_iff in X as (c & Y & _). discriminate Y.
Qed.
Lemma empty_thm file : is_bytes file -> (debug_file_unicode file = [] <-> exists cps, Forall scalar cps /\ file = concat (map encode cps)).
Proof.
  intros B. split.
  - intros H. destruct (decoding_exists _ file (le_n _) B) as (items & D). pose proof (report_thm _ _ D) as R. apply (report_nil _ _ R) in H. pose proof (proj1 (bad_nil items _) H) as H2. clear H. rename H2 into H. destruct D as (E & F & _). destruct (all_good _ H F) as (cps & S1 & E2). exists cps. split; [exact S1|]. rewrite E, E2, map_map. reflexivity.
  - intros (cps & F & E). pose proof (goods_decode cps F) as D. rewrite <- E in D. apply (report_nil _ _ (report_thm _ _ D)). apply bad_nil. intros b X. apply in_map_iff in X as (c & Y & _). discriminate Y.
Qed.
