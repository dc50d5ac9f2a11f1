(** Proofs: remove_u on the text of a card; check_range; misc. *)
From Coq Require Import Lia ZArith.
From Verif Require Import PyBase PyLemmas PyStr PyStrLemmas PyText D1SProofs2 WWTextProofs LibModel MatModel MatProofs MatProofs2 MatProofs4 InpModel InpSpec InpProofs InpProofs2.
Open Scope nat_scope.

Lemma fill_app a : forall b vs hs, fill (a ++ b) vs hs = do '(s1, (v1, h1)) <- fill a vs hs; do '(s2, r) <- fill b v1 h1; Ok (s1 ++ s2, r).
Proof. induction a as [|[c|w] a IH]; intros b vs hs; cbn [app fill].
  - cbn [bind]. destruct (fill b vs hs) as [[s r]|]; reflexivity.
  - destruct (Ascii.eqb c tilde).
    + destruct hs as [|x hs]; rewrite IH; [destruct (fill a vs []) as [[s1 [v1 h1]]|]|destruct (fill a vs hs) as [[s1 [v1 h1]]|]]; cbn [bind]; try reflexivity;
        destruct (fill b v1 h1) as [[s2 r]|]; cbn [bind app]; rewrite ?app_assoc; reflexivity.
    + rewrite IH. destruct (fill a vs hs) as [[s1 [v1 h1]]|]; cbn [bind]; try reflexivity. destruct (fill b v1 h1) as [[s2 r]|]; cbn [bind app]; reflexivity.
  - destruct vs as [|v vs]; [reflexivity|]. rewrite IH. destruct (fill a vs hs) as [[s1 [v1 h1]]|]; cbn [bind]; try reflexivity.
    destruct (fill b v1 h1) as [[s2 r]|]; cbn [bind]; rewrite ?app_assoc; reflexivity. Qed.
Lemma fill_lines_app a : forall b vs hs ls, fill_lines (a ++ b) vs hs = Ok ls ->
  exists la lb, ls = la ++ lb /\ length la = length a.
Proof. intros b vs hs ls H. assert (L : length ls = length (a ++ b)).
  { revert vs hs ls H. induction (a ++ b) as [|t ts IH]; intros vs hs ls H; cbn [fill_lines] in H; [now injection H as <-|].
    destruct (fill t vs hs) as [[s [v1 h1]]|]; cbn [bind] in H; [|discriminate]. destruct (fill_lines ts v1 h1) as [r|] eqn:R; cbn [bind] in H; [|discriminate]. injection H as <-. cbn [length]. f_equal. eauto. }
  exists (firstn (length a) ls), (skipn (length a) ls). split; [symmetry; apply firstn_skipn|]. rewrite firstn_length, L, app_length. lia. Qed.

Definition holes (t : tline) : nat := length (filter (fun i => match i with Hole _ => true | Ch _ => false end) t).
Definition holes_lines (ts : list tline) : nat := fold_right (fun t n => holes t + n) 0 ts.
Lemma fill_values t : forall va vb hs s v1 h1, length va = holes t -> fill t (va ++ vb) hs = Ok (s, (v1, h1)) ->
  v1 = vb /\ forall vb', fill t (va ++ vb') hs = Ok (s, (vb', h1)).
Proof. induction t as [|[c|w] t IH]; intros va vb hs s v1 h1 L H.
  - destruct va; [|discriminate L]. cbn [fill app] in *. injection H as <- <- <-. auto.
  - assert (L' : length va = holes t) by exact L. cbn [fill] in *. destruct (Ascii.eqb c tilde); [destruct hs as [|x hs]|].
    + destruct (fill t (va ++ vb) []) as [[s0 [v0 h0]]|] eqn:F; cbn [bind] in H; [|discriminate]. injection H as <- <- <-.
      destruct (IH _ _ _ _ _ _ L' F) as [-> G]. split; [reflexivity|]. intros vb'. rewrite G. reflexivity.
    + destruct (fill t (va ++ vb) hs) as [[s0 [v0 h0]]|] eqn:F; cbn [bind] in H; [|discriminate]. injection H as <- <- <-.
      destruct (IH _ _ _ _ _ _ L' F) as [-> G]. split; [reflexivity|]. intros vb'. rewrite G. reflexivity.
    + destruct (fill t (va ++ vb) hs) as [[s0 [v0 h0]]|] eqn:F; cbn [bind] in H; [|discriminate]. injection H as <- <- <-.
      destruct (IH _ _ _ _ _ _ L' F) as [-> G]. split; [reflexivity|]. intros vb'. rewrite G. reflexivity.
  - destruct va as [|v va]; [discriminate L|]. assert (L' : length va = holes t) by (unfold holes in *; cbn [filter length] in L; lia). cbn [fill app] in *.
    destruct (fill t (va ++ vb) hs) as [[s0 [v0 h0]]|] eqn:F; cbn [bind] in H; [|discriminate]. injection H as <- <- <-.
    destruct (IH _ _ _ _ _ _ L' F) as [-> G]. split; [reflexivity|]. intros vb'. rewrite G. reflexivity. Qed.

Definition no_u (t : tline) : Prop := drop_u_line t = t.
Definition is_u (a : ascii) : Prop := a = "u"%char \/ a = "U"%char.
Lemma drop_len t : length (drop_u_line t) <= length t.
Proof. assert (G : forall n t, length t <= n -> length (drop_u_line t) <= length t).
  { induction n as [|n IH]; intros t0 L; [destruct t0; [cbn; lia|cbn in L; lia]|].
    destruct t0 as [|[a|w] t0]; [cbn; lia| |].
    - destruct t0 as [|[b|w] t0]; [cbn; lia| |].
      + destruct t0 as [|[d|w] t0].
        * cbn. lia.
        * change (length (Ch a :: drop_u_line (Ch b :: Ch d :: t0)) <= length (Ch a :: Ch b :: Ch d :: t0)). specialize (IH (Ch b :: Ch d :: t0)). cbn [length] in *. lia.
        * cbn [drop_u_line]. destruct ((Ascii.eqb a "u" || Ascii.eqb a "U") && Ascii.eqb b "=").
          -- specialize (IH t0). cbn [length] in *. lia.
          -- specialize (IH (Ch b :: Hole w :: t0)). cbn [length] in *. change (S (length (drop_u_line (Ch b :: Hole w :: t0))) <= S (S (S (length t0)))). lia.
      + change (length (Ch a :: drop_u_line (Hole w :: t0)) <= length (Ch a :: Hole w :: t0)). specialize (IH (Hole w :: t0)). cbn [length] in *. lia.
    - change (length (Hole w :: drop_u_line t0) <= length (Hole w :: t0)). specialize (IH t0). cbn [length] in *. lia. }
  apply (G (length t)). lia. Qed.
Lemma no_u_tl x t : no_u (x :: t) -> no_u t.
Proof. unfold no_u. destruct x as [a|w]; [|cbn [drop_u_line]; congruence].
  destruct t as [|[b|w] t]; [reflexivity| |].
  - destruct t as [|[d|w] t].
    + cbn. congruence.
    + change (Ch a :: drop_u_line (Ch b :: Ch d :: t) = Ch a :: Ch b :: Ch d :: t -> drop_u_line (Ch b :: Ch d :: t) = Ch b :: Ch d :: t). congruence.
    + cbn [drop_u_line]. destruct ((Ascii.eqb a "u" || Ascii.eqb a "U") && Ascii.eqb b "=").
      * intros H. pose proof (drop_len t) as D. rewrite H in D. cbn [length] in D. lia.
      * congruence.
  - change (Ch a :: drop_u_line (Hole w :: t) = Ch a :: Hole w :: t -> drop_u_line (Hole w :: t) = Hole w :: t). congruence. Qed.
Lemma drop_u_mid t1 : forall a w t2, no_u t1 -> is_u a -> drop_u_line (t1 ++ Ch a :: Ch "="%char :: Hole w :: t2) = t1 ++ drop_u_line t2.
Proof. induction t1 as [|x t1 IH]; intros a w t2 N A.
  - cbn [app drop_u_line]. destruct A as [-> | ->]; reflexivity.
  - specialize (IH a w t2 (no_u_tl _ _ N) A). destruct x as [b|w']; [|cbn [app drop_u_line]; now rewrite IH].
    destruct t1 as [|[d|w'] t1].
    + cbn [app] in *. change (Ch b :: drop_u_line (Ch a :: Ch "="%char :: Hole w :: t2) = Ch b :: drop_u_line t2). now rewrite IH.
    + destruct t1 as [|[e|w''] t1].
      * cbn [app] in *. change (Ch b :: drop_u_line (Ch d :: Ch a :: Ch "="%char :: Hole w :: t2) = Ch b :: Ch d :: drop_u_line t2). now rewrite IH.
      * cbn [app] in *. change (Ch b :: drop_u_line (Ch d :: Ch e :: t1 ++ Ch a :: Ch "="%char :: Hole w :: t2) = Ch b :: Ch d :: Ch e :: t1 ++ drop_u_line t2). now rewrite IH.
      * cbn [app] in *. unfold no_u in N. cbn [drop_u_line] in N |- *. destruct ((Ascii.eqb b "u" || Ascii.eqb b "U") && Ascii.eqb d "=").
        -- pose proof (drop_len t1) as D. rewrite N in D. cbn [length] in D. lia.
        -- f_equal. exact IH.
    + cbn [app] in *. change (Ch b :: drop_u_line (Hole w' :: t1 ++ Ch a :: Ch "="%char :: Hole w :: t2) = Ch b :: Hole w' :: t1 ++ drop_u_line t2). now rewrite IH. Qed.

Lemma drop_u_value_mid va u vb : (forall v, In v va -> snd v <> Ku) -> drop_u_value (va ++ (u, Ku) :: vb) = va ++ vb.
Proof. induction va as [|[z k] va IH]; intros H; cbn [app drop_u_value snd]; [reflexivity|].
  destruct (kind_eqb k Ku) eqn:E; [apply kind_eqb_eq in E; subst; exfalso; apply (H (z, Ku)); [left; reflexivity|reflexivity]|]. rewrite IH; [reflexivity|]. intros v Q. apply H. right. exact Q. Qed.

Lemma map_id_u ts : Forall no_u ts -> map drop_u_line ts = ts.
Proof. induction 1 as [|t ts H _ IH]; [reflexivity|]. cbn [map]. now rewrite H, IH. Qed.

Lemma fill_lines_values ts : forall rest va vb hs ls, length va = holes_lines ts -> fill_lines (ts ++ rest) (va ++ vb) hs = Ok ls ->
  exists la lb h1, ls = la ++ lb /\ length la = length ts /\ fill_lines rest vb h1 = Ok lb /\
    forall rest' vb', fill_lines (ts ++ rest') (va ++ vb') hs = do lb' <- fill_lines rest' vb' h1; Ok (la ++ lb').
Proof. induction ts as [|t ts IH]; intros rest va vb hs ls L H; cbn [app fill_lines holes_lines fold_right] in *.
  - destruct va; [|discriminate L]. exists [], ls, hs. repeat split; auto. intros rest' vb'. cbn [app]. destruct (fill_lines rest' vb' hs); reflexivity.
  - set (n := holes t) in *. rewrite <- (firstn_skipn n va) in H, L |- *. set (v1 := firstn n va) in *. set (v2 := skipn n va) in *.
    fold (holes_lines ts) in L. rewrite app_length in L.
    assert (L1 : length v1 = holes t). { unfold v1. rewrite firstn_length. fold n. unfold v1, v2 in L. rewrite <- app_length, firstn_skipn in L. lia. }
    rewrite <- app_assoc in H. destruct (fill t (v1 ++ v2 ++ vb) hs) as [[s [w1 h1]]|] eqn:F; cbn [bind] in H; [|discriminate].
    destruct (fill_values _ _ _ _ _ _ _ L1 F) as [-> G]. destruct (fill_lines (ts ++ rest) (v2 ++ vb) h1) as [r|] eqn:R; cbn [bind] in H; [|discriminate]. injection H as <-.
    destruct (IH rest v2 vb h1 r) as [la [lb [h2 [-> [LL [F2 G2]]]]]]; [fold n in L; lia|exact R|].
    exists (s :: la), lb, h2. repeat split; auto. { cbn [length]. congruence. } intros rest' vb'. rewrite <- app_assoc, G. cbn [bind]. rewrite G2. destruct (fill_lines rest' vb' h2); reflexivity. Qed.

Lemma remove_u_text c pre t1 a w t2 post va u vb ls :
  c_input c = pre ++ (t1 ++ Ch a :: Ch "="%char :: Hole w :: t2) :: post -> is_u a ->
  Forall no_u pre -> no_u t1 -> no_u t2 -> Forall no_u post ->
  c_values c = va ++ (u, Ku) :: vb -> (forall v, In v va -> snd v <> Ku) -> length va = holes_lines pre + holes t1 ->
  card_text c = Ok ls ->
  exists l1 s1 s2 l2, ls = l1 ++ (s1 ++ a :: "="%char :: ljust w (str_of_Z u) ++ s2) :: l2 /\ card_text (remove_u c) = Ok (l1 ++ (s1 ++ s2) :: l2).
Proof. intros EI A N1 N2 N3 N4 EV NU LV H. unfold card_text in *. cbn [remove_u c_values c_input c_hidden].
  rewrite EV, drop_u_value_mid by exact NU. rewrite EI in H |- *. rewrite (map_app drop_u_line). cbn [map]. rewrite (map_id_u pre N1), (map_id_u post N4), drop_u_mid by assumption. rewrite N3.
  rewrite EV in H. rewrite !map_app in *. cbn [map fst] in *.
  set (vs := map fst va) in *. assert (LV' : length vs = holes_lines pre + holes t1) by (unfold vs; now rewrite map_length).
  rewrite <- (firstn_skipn (holes_lines pre) vs) in H |- *. set (v1 := firstn (holes_lines pre) vs) in *. set (v2 := skipn (holes_lines pre) vs) in *.
  assert (L1 : length v1 = holes_lines pre) by (unfold v1; rewrite firstn_length; lia).
  assert (L2 : length v2 = holes t1) by (unfold v2; rewrite skipn_length; lia).
  rewrite <- app_assoc in H |- *.
  destruct (fill_lines_values pre _ v1 _ _ _ L1 H) as [l1 [lb [h1 [-> [LL [F2 G]]]]]]. clear H. rewrite G. clear G.
  cbn [fill_lines] in F2 |- *. rewrite fill_app in F2 |- *.
  destruct (fill t1 (v2 ++ u :: map fst vb) h1) as [[s1 [w1 h2]]|] eqn:F1; cbn [bind] in F2; [|discriminate].
  destruct (fill_values _ _ _ _ _ _ _ L2 F1) as [-> G1]. rewrite G1. cbn [bind].
  cbn [fill] in F2. destruct (Ascii.eqb a tilde) eqn:T. { apply Ascii.eqb_eq in T. subst a. destruct A as [A|A]; discriminate A. }
  change (Ascii.eqb "=" tilde) with false in F2. cbv iota in F2.
  destruct (fill t2 (map fst vb) h2) as [[s2 [w2 h3]]|]; cbn [bind] in F2 |- *; [|discriminate].
  destruct (fill_lines post w2 h3) as [r|]; cbn [bind] in F2 |- *; [|discriminate]. injection F2 as <-.
  exists l1, s1, s2, r. split; reflexivity. Qed.

(** *** C36 *)
Lemma strip_no_marks s : memb Ascii.eqb "*"%char s = false -> memb Ascii.eqb "+"%char s = false -> strip_marks s = s.
Proof. unfold strip_marks. induction s as [|c s IH]; cbn [memb]; intros A B; [reflexivity|]. apply orb_false_elim in A as [A1 A2]. apply orb_false_elim in B as [B1 B2].
  cbn [filter]. rewrite Ascii.eqb_sym, A1. cbn [negb filter]. rewrite Ascii.eqb_sym, B1. cbn [negb]. now rewrite IH. Qed.

(** *** references after a renumbering *)
Lemma rekey_nodup h (d d' : cdict) : rekey h d = Ok d' -> NoDup (dkeys d').
Proof. unfold rekey. assert (G : forall (d acc d' : cdict), NoDup (dkeys acc) -> foldM (fun nd kl => do c <- hget h (snd kl); do key <- card_key c; Ok (dset str_eqb key (snd kl) nd)) acc d = Ok d' -> NoDup (dkeys d')).
  { clear. induction d as [|[k l] d IH]; intros acc d' N H; cbn [foldM] in H; [injection H as <-; exact N|].
    cbn [snd] in H. destruct (hget h l) as [c|]; cbn [bind] in H; [|discriminate]. destruct (card_key c) as [key|]; cbn [bind] in H; [|discriminate].
    apply (IH (dset str_eqb key l acc)); [|exact H]. now apply (dset_nodup str_eqb str_eqb_eq). }
  apply G. constructor. Qed.
Lemma renumber_nodup o h a h' a' : renumber o true h a = Ok (h', a') -> NoDup (dkeys (i_cells a')) /\ NoDup (dkeys (i_surfs a')).
Proof. rewrite renumber_true. destruct (renumber o false h a) as [[h4 a0]|]; cbn [bind]; [|discriminate]. unfold update_card_keys.
  destruct (rekey h4 (i_cells a)) as [cs|] eqn:R1; cbn [bind]; [|discriminate]. destruct (rekey h4 (i_surfs a)) as [ss|] eqn:R2; cbn [bind]; [|discriminate].
  destruct (rekey h4 (i_other a)) as [os|]; cbn [bind]; [|discriminate]. destruct (rekey h4 (i_trans a)) as [ts|]; cbn [bind]; [|discriminate].
  destruct (cells_setter h4 cs) as [h1|]; cbn [bind]; [|discriminate]. destruct (surfs_setter h1 ss) as [h2|]; cbn [bind]; [|discriminate].
  intros H. injection H as <- <-. cbn [i_cells i_surfs]. split; eapply rekey_nodup; eassumption. Qed.
Lemma shifted_inj o v1 v2 w1 w2 : shifted o v1 w1 -> shifted o v2 w2 -> (snd v1 = snd v2) -> fst v1 <> 0%Z -> fst v2 <> 0%Z -> (fst w1 = fst w2 <-> fst v1 = fst v2).
Proof. intros [A1 B1] [A2 B2] E N1 N2. rewrite <- E in B2. destruct (match snd v1 with Kcel => o_cel o | Ksur => o_sur o | Ku => o_u o | Kfill => o_u o | Ktr => o_tr o | Kmat => None | Kother => None end) as [d|].
  - rewrite (proj2 B1 N1), (proj2 B2 N2). lia.
  - rewrite B1, B2. tauto. Qed.
Lemma shifted_fun o v w1 w2 : shifted o v w1 -> shifted o v w2 -> w1 = w2.
Proof. intros [A1 B1] [A2 B2]. destruct w1 as [x1 k1], w2 as [x2 k2]. cbn [fst snd] in *. f_equal; [|congruence].
  destruct (match snd v with Kcel => o_cel o | Ksur => o_sur o | Ku => o_u o | Kfill => o_u o | Ktr => o_tr o | Kmat => None | Kother => None end) as [d|]; [|congruence].
  destruct (Z.eq_dec (fst v) 0) as [e|n]; [rewrite (proj1 B1 e), (proj1 B2 e)|rewrite (proj2 B1 n), (proj2 B2 n)]; reflexivity. Qed.
Lemma follows_resolve k marks o h h' d d' pre n n' c : follows k marks o h h' d d' -> NoDup (dkeys d') ->
  In pre marks -> card_at h d (pre ++ str_of_Z n) c -> prints_number pre k n c -> shifted o (n, k) (n', k) ->
  exists c', card_at h' d' (pre ++ str_of_Z n') c' /\ Forall2 (shifted o) (c_values c) (c_values c').
Proof. intros [L F] ND P [l [G Hc]] PN SH.
  assert (Il : In l (locs d')). { rewrite L. apply (dget_some_in str_eqb str_eqb_eq) in G. apply (in_map snd) in G. exact G. }
  unfold locs in Il. apply in_map_iff in Il as [[key l'] [E Il]]. cbn [snd] in E. subst l'.
  destruct (F key l Il) as [pre' [c0 [c' [m [Pm [H0 [H1 [SV [EI [EH [PN' [NM ->]]]]]]]]]]]]. rewrite Hc in H0. injection H0 as <-.
  assert (m = n'). { destruct PN as [[vs V] _], PN' as [[vs' V'] _]. rewrite V, V' in SV. inversion SV; subst. assert (X : (m, k) = (n', k)) by (eapply shifted_fun; eassumption). congruence. }
  subst m. assert (pre' = pre).
  { destruct PN as [V [[w [rest [lines [EL R]]]] [T Q]]]. destruct PN' as [V' [[w' [rest' [lines' [EL' R']]]] [T' Q']]]. rewrite EI, EL in EL'. injection EL' as EL' _.
    clear - EL'. revert pre EL'. induction pre' as [|x p IH]; intros [|y q] H; cbn in H; try discriminate; [reflexivity|]. injection H as -> H. f_equal. now apply IH. }
  subst pre'. exists c'. split; [|exact SV]. exists l. split; [|exact H1]. apply (in_dget str_eqb str_eqb_eq); assumption. Qed.
