(** Proofs for C126: the input that is extracted from an input in order. *)
From Coq Require Import Lia ZArith QArith Permutation Sorted.
From Verif Require Import PyBase PyLemmas MatProofs2 PyStr PyStrLemmas PyText LibModel MatModel InpModel InpSpec D1SProofs2 MatProofs InpProofs InpProofs2 InpProofs3 InpProofs4 InpProofs5 InpProofs6 LookModel LifeSpec LifeProofs.
Open Scope nat_scope.

Lemma ws_not_u x : is_ws x = true -> Ascii.eqb x "u" || Ascii.eqb x "U" = false.
Proof. destruct x as [[] [] [] [] [] [] [] []]; intros H; vm_compute in H |- *; congruence. Qed.
Lemma drop_first rest : match rest with [] => True | Ch x :: _ => is_ws x = true | Hole _ :: _ => False end ->
  match drop_u_line rest with [] => True | Ch x :: _ => is_ws x = true | Hole _ :: _ => False end.
Proof. destruct rest as [|[x|w] rest]; [auto| |intros []]. intros W. pose proof (ws_not_u x W) as U. destruct rest as [|[y|w] rest]; cbn [drop_u_line]; [exact W| |exact W].
  destruct rest as [|[z|w] rest]; [exact W|exact W|]. rewrite U. cbn [andb]. exact W. Qed.
Lemma prints_remove n c : prints_number [] Kcel n c -> (exists ls, card_text (remove_u c) = Ok ls) -> prints_number [] Kcel n (remove_u c).
Proof. intros [[vs V] [[w [rest [lines [I W]]]] [_ P]]] T. split; [exists (drop_u_value vs); unfold remove_u; cbn [c_values]; rewrite V; reflexivity|]. split.
  - exists w, (drop_u_line rest), (map drop_u_line lines). split; [unfold remove_u; cbn [c_input]; rewrite I; reflexivity|now apply drop_first].
  - split; [exact T|exact P]. Qed.
Lemma good_stay h h' a : good h a -> length h <= length h' -> (forall l, l < length h -> nth_error h' l = nth_error h l) -> good h' a.
Proof. intros [GC [GS [KO [KT [ND AL]]]]] L F. assert (F' : forall l, In l (input_locs a) -> nth_error h' l = nth_error h l) by (intros l Q; apply F; now apply AL).
  split; [apply (block_frame _ _ h); [exact GC|intros l Q; apply F'; unfold input_locs; rewrite !in_app_iff; tauto]|].
  split; [apply (block_frame _ _ h); [exact GS|intros l Q; apply F'; unfold input_locs; rewrite !in_app_iff; tauto]|].
  repeat (split; [assumption|]). intros l Q. apply AL in Q. lia. Qed.
Lemma sub_locs (d e : cdict) : NoDup (locs d) -> NoDup (dkeys e) -> (forall kl, In kl e -> In kl d) -> NoDup (locs e).
Proof. intros N. induction e as [|[k l] e IH]; intros K S; [constructor|]. unfold locs in *. cbn [map snd dkeys fst] in *. unfold dkeys in *. cbn [map fst] in K. inversion K as [|? ? K1 K2]; subst.
  constructor; [|apply IH; [exact K2|intros kl Q; apply S; right; exact Q]]. intros Q. apply in_map_iff in Q as [[k' l'] [E Q]]. cbn [snd] in E. subst l'.
  assert (k' = k); [|subst; apply K1; apply in_map_iff; exists (k, l); auto].
  assert (A : In (k', l) d) by (apply S; right; exact Q). assert (B : In (k, l) d) by (apply S; left; reflexivity). clear - N A B.
  induction d as [|[k0 l0] d IH]; [destruct A|]. cbn [map snd] in N. inversion N as [|? ? N1 N2]; subst.
  destruct A as [A|A]; destruct B as [B|B]; [congruence| | |auto].
  - injection A as -> ->. exfalso. apply N1. apply (in_map snd) in B. exact B.
  - injection B as -> ->. exfalso. apply N1. apply (in_map snd) in A. exact A. Qed.
Lemma nodup_found d ss surfs : Forall2 (fun s e => found d (str_of_Z s) e) ss surfs -> NoDup ss -> NoDup (dkeys surfs).
Proof. intros F. induction F as [|s [k l] ss surfs [A B] F IH]; intros N; [constructor|]. inversion N as [|? ? N1 N2]; subst. unfold dkeys in *. cbn [map fst] in *. constructor; [|auto].
  intros Q. apply in_map_iff in Q as [[k' l'] [E Q]]. cbn [fst] in E. subst k'. destruct (Forall2_in_r _ _ _ _ F Q) as [s' [Hs' [_ D]]]. cbn [fst] in D.
  destruct B as [B|[B _]]; destruct D as [D|[D _]].
  - apply N1. assert (s' = s) by (apply str_of_Z_inj; congruence). now subst.
  - apply (str_of_Z_not_star s (str_of_Z s')). congruence.
  - apply (str_of_Z_not_star s' (str_of_Z s)). congruence.
  - apply N1. assert (s' = s) by (apply str_of_Z_inj; unfold star in *; congruence). now subst. Qed.
Lemma nodup_numbers ns (cells : cdict) (P : Z -> str * loc -> Prop) : Forall2 (fun n (e : str * loc) => fst e = str_of_Z n /\ P n e) ns cells -> NoDup ns -> NoDup (dkeys cells).
Proof. intros F. induction F as [|n [k l] ns cells [A _] F IH]; intros N; [constructor|]. inversion N as [|? ? N1 N2]; subst. unfold dkeys in *. cbn [map fst] in *. constructor; [|auto].
  intros Q. apply in_map_iff in Q as [[k' l'] [E Q]]. cbn [fst] in E. destruct (Forall2_in_r _ _ _ _ F Q) as [n' [Hn' [D _]]]. cbn [fst] in D. apply N1.
  assert (n' = n) by (apply str_of_Z_inj; congruence). now subst. Qed.

(** what the extraction and the two copies give, before any renumbering *)
Lemma extracted_base fuel h a req keep_u fillers copy h1 cells surfs ms h2 ts h3 os :
  good h a -> (keep_u = false -> copy = true) ->
  (keep_u = false -> forall n c, In n req -> cell_of h (i_cells a) n c -> exists ls, card_text (remove_u c) = Ok ls) ->
  extraction fuel h a req keep_u fillers copy = Ok (Some (h1, (cells, (surfs, ms)))) ->
  copy_dict h1 (i_trans a) = Ok (h2, ts) -> copy_dict h2 (i_other a) = Ok (h3, os) ->
  cells_setter h3 cells = Ok h3 /\ surfs_setter h3 surfs = Ok h3 /\
  good h3 (mkInp cells surfs ms ts os (i_tallies a) (i_fmesh a) (i_header a)) /\ good h3 a /\
  (forall n, has_number h3 cells n -> has_number h (i_cells a) n) /\ (forall n, has_number h3 surfs n -> has_number h (i_surfs a) n).
Proof. intros GD KC RU EX C1 C2. pose proof (good_parts _ _ GD) as [P1' [P2' _]]. pose proof GD as [[KCL [GC UC]] [[KS [GS US]] [KO [KT [ND AL]]]]].
  pose proof (fun l Q => AL l (proj2 (in_app_iff _ _ l) (or_introl Q))) as ALC. 
  assert (ALS : forall l, In l (locs (i_surfs a)) -> l < length h) by (intros l Q; apply AL; unfold input_locs; rewrite !in_app_iff; tauto).
  assert (ALT : forall l, In l (locs (i_trans a)) -> l < length h) by (intros l Q; apply AL; unfold input_locs; rewrite !in_app_iff; tauto).
  assert (ALO : forall l, In l (locs (i_other a)) -> l < length h) by (intros l Q; apply AL; unfold input_locs; rewrite !in_app_iff; tauto).
  destruct (extraction_spec _ _ _ _ _ _ _ _ _ _ _ EX) as [ns [ss [zs [P1 [P2 [P3 [P4 [P5 [P6 [P7 [P8 [P9 [P10 [P11 [P12 [P13 P14]]]]]]]]]]]]]]]]; [exact KC|exact ALC|].
  assert (A1 : forall l, In l (locs (i_trans a)) -> l < length h1) by (intros l Q; specialize (ALT l Q); lia).
  assert (L2 : length h1 <= length h2) by (eapply copy_len; eauto).
  assert (A2 : forall l, In l (locs (i_other a)) -> l < length h2) by (intros l Q; specialize (ALO l Q); lia).
  assert (L3 : length h2 <= length h3) by (eapply copy_len; eauto).
  assert (V3 : forall l, l < length h1 -> nth_error h3 l = nth_error h1 l).
  { intros l Q. rewrite (copy_prefix _ _ _ _ C2 A2) by lia. now apply (copy_prefix _ _ _ _ C1 A1). }
  assert (FR : forall l, l < length h -> nth_error h3 l = nth_error h l) by (intros l Q; rewrite V3 by lia; now apply P10).
  destruct (copy_same _ _ _ _ C1 A1) as [S1 [_ [G1 N1]]]. destruct (copy_same _ _ _ _ C2 A2) as [S2 [_ [G2 N2]]].
  (* the cells *)
  assert (CE : forall key l, In (key, l) cells -> exists c c0 n, nth_error h3 l = Some c /\ key = str_of_Z n /\ prints_number [] Kcel n c /\ c_name c = Some n /\ n <> 0%Z /\
     cell_of h (i_cells a) n c0 /\ c_name c0 = Some n /\ (copy = false -> In (key, l) (i_cells a))).
  { intros key l Q. destruct (Forall2_in_r _ _ _ _ P3 Q) as [n [Hn [E [c0 [Hc Hl]]]]]. cbn [fst snd] in *. pose proof Hc as [l0 [D1 D2]].
    apply (dget_some_in str_eqb str_eqb_eq) in D1. destruct (GC _ _ D1) as [c1 [m [pre [X1 [[<-|[]] [X2 [X3 [X4 X5]]]]]]]]. rewrite D2 in X1. injection X1 as <-. cbn [app] in X5. apply str_of_Z_inj in X5. subst m.
    exists (stripped keep_u req c0), c0, n. rewrite V3 by (apply P13; apply (in_map snd) in Q; exact Q). split; [exact Hl|]. split; [exact E|]. split; [|split; [rewrite stripped_name; exact X3|split; [exact X4|split; [exact Hc|split; [exact X3|]]]]].
    - unfold stripped. destruct keep_u; [exact X2|]. pose proof X2 as [[vs V] _]. rewrite V. destruct (zmem n req) eqn:ZM; [|exact X2]. apply prints_remove; [exact X2|]. apply (RU eq_refl n c0); [|exact Hc].
      unfold zmem in ZM. rewrite memb_in in ZM; [exact ZM|intros x y; apply Z.eqb_eq].
    - intros ->. destruct Hc as [l1 [F1 F2]]. assert (IL : In l (locs (i_cells a))) by (apply P12; apply (in_map snd) in Q; exact Q).
      apply locs_in in IL as [k IL]. destruct (GC _ _ IL) as [c2 [m [pre [Y1 [[<-|[]] [Y2 [Y3 [Y4 Y5]]]]]]]]. cbn [app] in Y5.
      assert (nth_error h l = Some (stripped keep_u req c0)) by (rewrite <- P10; [exact Hl|now apply ALC; apply locs_in; exists k]).
      assert (m = n). { rewrite Y1 in H. injection H as ->. rewrite stripped_name in Y3. congruence. }
      subst m. rewrite E, <- Y5. exact IL. }
  assert (KCB : NoDup (dkeys cells)) by (eapply nodup_numbers; [exact P3|now apply sorted_nodup]).
  assert (GCB : good_block [[]] Kcel h3 cells).
  { split; [exact KCB|]. split.
    - intros key l Q. destruct (CE _ _ Q) as [c [c0 [n [A [B [C [D [E _]]]]]]]]. exists c, n, []. cbn [In app]. tauto.
    - intros k1 l1 k2 l2 c1 c2 Q1 Q2 B1 B2 E. destruct (CE _ _ Q1) as [x1 [_ [n1 [X1 [X2 [_ [X3 _]]]]]]]. destruct (CE _ _ Q2) as [x2 [_ [n2 [Y1 [Y2 [_ [Y3 _]]]]]]].
      assert (EK : k1 = k2) by congruence. clear X2 Y2. subst k2. apply (in_dget str_eqb str_eqb_eq) in Q1; [|exact KCB]. apply (in_dget str_eqb str_eqb_eq) in Q2; [|exact KCB]. exact (f_equal (fun o => match o with Some x => x | None => l1 end) (eq_trans (eq_sym Q1) Q2)). }
  (* the surfaces *)
  assert (SI : forall kl, In kl surfs -> In kl (i_surfs a)).
  { intros [key l] Q. destruct (Forall2_in_r _ _ _ _ P6 Q) as [s [_ [D _]]]. cbn [fst snd] in D. now apply (dget_some_in str_eqb str_eqb_eq). }
  assert (KSB : NoDup (dkeys surfs)) by (eapply nodup_found; [exact P6|now apply sorted_nodup]).
  assert (GSB : good_block surf_marks Ksur h3 surfs).
  { split; [exact KSB|]. split.
    - intros key l Q. apply SI in Q. destruct (GS _ _ Q) as [c [n [pre [A R]]]]. exists c, n, pre. rewrite FR by (eapply nth_lt; eassumption). tauto.
    - intros k1 l1 k2 l2 c1 c2 Q1 Q2 B1 B2 E. apply SI in Q1, Q2. rewrite FR in B1 by (apply ALS; apply locs_in; eauto). rewrite FR in B2 by (apply ALS; apply locs_in; eauto). eapply US; eassumption. }
  (* the addresses *)
  assert (NC : NoDup (locs cells)).
  { destruct copy; [auto|]. apply (sub_locs (i_cells a)); [exact P1'|exact KCB|]. intros [key l] Q. destruct (CE _ _ Q) as [c [c0 [n R]]]. apply R. reflexivity. }
  assert (NS : NoDup (locs surfs)) by (apply (sub_locs (i_surfs a)); assumption).
  assert (IS : forall l, In l (locs surfs) -> In l (locs (i_surfs a))) by (intros l Q; apply locs_in in Q as [k Q]; apply locs_in; exists k; now apply SI).
  assert (GN : good h3 (mkInp cells surfs ms ts os (i_tallies a) (i_fmesh a) (i_header a))).
  { unfold good. cbn [i_cells i_surfs i_other i_trans]. split; [exact GCB|]. split; [exact GSB|].
    split; [unfold dkeys; rewrite (same_cards_keys _ _ _ _ S2); exact KO|]. split; [unfold dkeys; rewrite (same_cards_keys _ _ _ _ S1); exact KT|].
    unfold input_allocated, input_locs. cbn [i_cells i_surfs i_other i_trans]. split.
    - apply nodup_app_i; [exact NC| |].
      + apply nodup_app_i; [exact NS| |].
        * apply nodup_app_i; [exact N2|exact N1|]. intros x X Y. apply G2 in X. apply G1 in Y. lia.
        * intros x X Y. apply IS, ALS in X. apply in_app_or in Y as [Y|Y]; [apply G2 in Y; lia|apply G1 in Y; lia].
      + intros x X Y. apply in_app_or in Y as [Y|Y].
        * apply IS in Y. destruct copy; [apply P12 in X; apply ALS in Y; lia|]. apply P12 in X. unfold input_locs in ND. apply nodup_app_l in ND as [_ [_ D]]. apply (D x X). apply in_app_iff. left. exact Y.
        * apply P13 in X. apply in_app_or in Y as [Y|Y]; [apply G2 in Y; lia|apply G1 in Y; lia].
    - intros l X. apply in_app_or in X as [X|X]; [apply P13 in X; lia|]. apply in_app_or in X as [X|X]; [apply IS, ALS in X; lia|]. apply in_app_or in X as [X|X]; [apply G2 in X; lia|apply G1 in X; lia]. }
  split. { unfold cells_setter. apply (setter_noop Kcel (fun s => s)). intros key l Q. destruct (CE _ _ Q) as [c [c0 [n R]]]. exists c, n. tauto. }
  split. { unfold surfs_setter. apply (setter_noop Ksur key_num). intros key l Q. apply SI in Q. assert (ST : settled h (i_surfs a)) by (eapply good_settled; [exact (proj1 (proj2 GD))|auto]).
    destruct (ST _ _ Q) as [c [n [X1 X2]]]. exists c, n. rewrite FR by (eapply nth_lt; eassumption). tauto. }
  split; [exact GN|]. split; [apply (good_stay h); [exact GD|lia|exact FR]|]. split.
  - intros n [key [l [c [Q [A N]]]]]. destruct (CE _ _ Q) as [c1 [c0 [m [B [_ [_ [D [_ [[l0 [F1 F2]] [E _]]]]]]]]]]. rewrite A in B. injection B as <-. rewrite N in D. injection D as <-.
    exists (str_of_Z n), l0, c0. split; [now apply (dget_some_in str_eqb str_eqb_eq)|]. tauto.
  - intros n [key [l [c [Q [A N]]]]]. exists key, l, c. split; [now apply SI|]. split; [|exact N]. rewrite FR in A; [exact A|]. apply ALS, locs_in. exists key. now apply SI. Qed.

Lemma extract_good fuel h a req keep_u fillers h' b : good h a ->
  (keep_u = false -> forall n c, In n req -> cell_of h (i_cells a) n c -> exists ls, card_text (remove_u c) = Ok ls) ->
  extract_cells fuel h a req None keep_u fillers = Ok (Some (h', b)) -> good h' b /\ good h' a.
Proof. intros GD RU H. unfold extract_cells in H.
  destruct (extraction fuel h a req keep_u fillers (negb keep_u)) as [o|] eqn:EX; cbn [bind] in H; [|discriminate]. destruct o as [[h1 [cells [surfs ms]]]|]; [|discriminate].
  destruct (copy_dict h1 (i_trans a)) as [[h2 ts]|] eqn:C1; cbn [bind] in H; [|discriminate]. destruct (copy_dict h2 (i_other a)) as [[h3 os]|] eqn:C2; cbn [bind] in H; [|discriminate].
  destruct (extracted_base _ _ _ _ _ _ _ _ _ _ _ _ _ _ _ GD (fun E => f_equal negb E) RU EX C1 C2) as [SC [SS [GB [GA _]]]].
  rewrite SC in H. cbn [bind] in H. rewrite SS in H. cbn [bind] in H. injection H as <- <-. split; assumption. Qed.
Lemma extract_renumber_good fuel h a req o keep_u fillers h' b : good h a ->
  (keep_u = false -> forall n c, In n req -> cell_of h (i_cells a) n c -> exists ls, card_text (remove_u c) = Ok ls) ->
  (forall n, has_number h (i_cells a) n -> ~ moves_to_zero (o_cel o) n) -> (forall n, has_number h (i_surfs a) n -> ~ moves_to_zero (o_sur o) n) ->
  extract_cells fuel h a req (Some (o, true)) keep_u fillers = Ok (Some (h', b)) -> good h' b.
Proof. intros GD RU ZC ZS H. unfold extract_cells in H.
  destruct (extraction fuel h a req keep_u fillers true) as [x|] eqn:EX; cbn [bind] in H; [|discriminate]. destruct x as [[h1 [cells [surfs ms]]]|]; [|discriminate].
  destruct (copy_dict h1 (i_trans a)) as [[h2 ts]|] eqn:C1; cbn [bind] in H; [|discriminate]. destruct (copy_dict h2 (i_other a)) as [[h3 os]|] eqn:C2; cbn [bind] in H; [|discriminate].
  destruct (extracted_base _ _ _ _ _ _ _ _ _ _ _ _ _ _ _ GD (fun _ => eq_refl) RU EX C1 C2) as [SC [SS [GB [_ [HC HS]]]]].
  rewrite SC in H. cbn [bind] in H. rewrite SS in H. cbn [bind] in H.
  destruct (renumber o true h3 (mkInp cells surfs ms ts os (i_tallies a) (i_fmesh a) (i_header a))) as [[h4 b']|] eqn:R; cbn [bind] in H; [|discriminate]. injection H as <- <-.
  eapply renumber_good; [exact GB|exact R| |]; intros m HM; apply moves_none.
  - eapply good_number; [exact (proj1 GB)|exact HM]. - exact (ZC m (HC m HM)).
  - eapply good_number; [exact (proj1 (proj2 GB))|exact HM]. - exact (ZS m (HS m HM)). Qed.
