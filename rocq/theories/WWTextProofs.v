(** Proofs about the weight window file reader and writer. *)
From Coq Require Import Lqa NArith Nnat Qabs.
From Verif Require Import PyBase PyLemmas PyStr PyStrLemmas WWTextModel WWTextSpec PyFmtLemmas.
Open Scope nat_scope.

(** ** single lines *)
Lemma mapM_ok {A B} (f : A -> res B) (g : A -> B) l : (forall x, In x l -> f x = Ok (g x)) -> mapM f l = Ok (map g l).
Proof. induction l as [|x l IH]; intros H; simpl; [reflexivity|]. rewrite (H x) by (left; reflexivity). simpl.
  rewrite IH by (intros; apply H; right; assumption). reflexivity. Qed.
Lemma mapM_map {A B C} (f : B -> res C) (g : A -> B) l : mapM f (map g l) = mapM (fun x => f (g x)) l.
Proof. induction l; simpl; [reflexivity|]. rewrite IHl. reflexivity. Qed.

Lemma g13_fields qs : Forall in_range qs -> Forall (fun wt => no_ws (snd wt) /\ snd wt <> [] /\ length (snd wt) < fst wt) (map (fun q => (13, fmt_g q)) qs).
Proof. intros H. apply Forall_map. eapply Forall_impl; [|exact H]. intros q Hq. simpl. destruct (fmt_g_no_ws q).
  pose proof (fmt_g_len q Hq). repeat split; auto. lia. Qed.
Lemma e13_fields qs : Forall in_range qs -> Forall (fun wt => no_ws (snd wt) /\ snd wt <> [] /\ length (snd wt) < fst wt) (map (fun q => (13, fmt_E q)) qs).
Proof. intros H. apply Forall_map. eapply Forall_impl; [|exact H]. intros q Hq. simpl. destruct (fmt_E_no_ws q).
  pose proof (fmt_E_len q Hq). repeat split; auto. lia. Qed.

Lemma split_g w q qs : Forall in_range qs -> split (rjust w (fmt_g q) ++ concat (map g13 qs)) = map fmt_g (q :: qs).
Proof. intros H. destruct (fmt_g_no_ws q) as [A B]. pose proof (split_fields w (fmt_g q) _ A B (g13_fields qs H)) as S.
  rewrite map_map in S. simpl in S. unfold g13. rewrite map_map in S. exact S. Qed.
Lemma split_e q qs : Forall in_range qs -> split (concat (map e13 (q :: qs))) = map fmt_E (q :: qs).
Proof. intros H. destruct (fmt_E_no_ws q) as [A B]. pose proof (split_fields 13 (fmt_E q) _ A B (e13_fields qs H)) as S.
  rewrite map_map in S. simpl in S. rewrite map_map in S. exact S. Qed.

Definition enc (line : str) (qs : list Q) : Prop := mapM parse_float (split line) = Ok qs /\ qs <> [].

Lemma parse_all_g l : mapM parse_float (map fmt_g l) = Ok (map round5 l).
Proof. rewrite mapM_map. apply mapM_ok. intros; apply parse_fmt_g. Qed.
Lemma parse_all_E l : mapM parse_float (map fmt_E l) = Ok (map round5 l).
Proof. rewrite mapM_map. apply mapM_ok. intros; apply parse_fmt_E. Qed.

Lemma line_g_enc pack : pack <> [] -> Forall in_range pack -> enc (line_g pack) (map round5 pack).
Proof. intros Hn H. destruct pack as [|q qs]; [contradiction|]. inversion H; subst. split; [|discriminate].
  unfold line_g, g9. rewrite split_g by assumption. apply parse_all_g. Qed.
Lemma line_e_enc pack : pack <> [] -> Forall in_range pack -> enc (concat (map e13 pack)) (map round5 pack).
Proof. intros Hn H. destruct pack as [|q qs]; [contradiction|]. inversion H; subst. split; [|discriminate].
  rewrite split_e by assumption. apply parse_all_E. Qed.

(** ** packs *)
Lemma packs_ind {A} (P : list A -> list (list A) -> Prop) n : 0 < n -> P [] [] ->
  (forall l, l <> [] -> P (skipn n l) (packs n (skipn n l)) -> P l (firstn n l :: packs n (skipn n l))) ->
  forall l, P l (packs n l).
Proof. intros Hn H0 HS l. remember (length l) as k eqn:E. revert l E. induction k as [k IH] using lt_wf_ind; intros l E.
  destruct l as [|a l]; [exact H0|]. rewrite packs_cons by (auto; discriminate). apply HS; [discriminate|].
  apply (IH (length (skipn n (a :: l)))); [|reflexivity]. rewrite E. apply skipn_length_lt; [exact Hn|discriminate]. Qed.

Lemma Forall_firstn' {A} (P : A -> Prop) n l : Forall P l -> Forall P (firstn n l).
Proof. intros H. revert n; induction H; intros [|n]; simpl; constructor; auto. Qed.
Lemma Forall_skipn' {A} (P : A -> Prop) n l : Forall P l -> Forall P (skipn n l).
Proof. intros H. revert n; induction H; intros [|n]; simpl; auto. Qed.
Lemma firstn_ne {A} n (l : list A) : 0 < n -> l <> [] -> firstn n l <> [].
Proof. intros Hn Hl. destruct n; [lia|]. destruct l; [contradiction|discriminate]. Qed.

Lemma packs_enc (w : list Q -> str) v : (forall p, p <> [] -> Forall in_range p -> enc (w p) (map round5 p)) ->
  Forall in_range v -> Forall2 enc (map w (packs 6 v)) (map (map round5) (packs 6 v)).
Proof. intros Hw. apply (packs_ind (fun v ps => Forall in_range v -> Forall2 enc (map w ps) (map (map round5) ps)) 6); [lia|constructor|].
  intros l Hl IH HF. cbn [map]. constructor.
  - apply Hw; [apply firstn_ne; [lia|exact Hl]|now apply Forall_firstn'].
  - apply IH. now apply Forall_skipn'. Qed.
Lemma packs_round v : concat (map (map round5) (packs 6 v)) = map round5 v.
Proof. rewrite <- concat_map. rewrite packs_concat by lia. reflexivity. Qed.

(** ** the reading loop *)
Lemma read_full fuel e vec f : (e <= Z.of_nat (length vec))%Z -> read_floats fuel e vec f = Done (Ok (vec, f)).
Proof. intros H. destruct fuel; simpl; (destruct (Z.ltb_spec (Z.of_nat (length vec)) e); [lia|reflexivity]). Qed.

Lemma read_eof fuel e vec : (Z.of_nat (length vec) < e)%Z -> read_floats fuel e vec [] = Running.
Proof. revert vec; induction fuel as [|fuel IH]; intros vec H; simpl; (destruct (Z.ltb_spec (Z.of_nat (length vec)) e); [|lia]); [reflexivity|].
  rewrite app_nil_r. apply IH. exact H. Qed.

Lemma concat_cons_len {A} (q : list A) qss : length (concat (q :: qss)) = length q + length (concat qss).
Proof. simpl. apply app_length. Qed.

Lemma read_enc lines qss : Forall2 enc lines qss -> forall fuel vec rest e,
  e = Z.of_nat (length vec + length (concat qss)) ->
  (length lines <= fuel -> read_floats fuel e vec (lines ++ rest) = Done (Ok (vec ++ concat qss, rest))) /\
  (read_floats fuel e vec (lines ++ rest) = Running \/ read_floats fuel e vec (lines ++ rest) = Done (Ok (vec ++ concat qss, rest))).
Proof. induction 1 as [|l q lines qss [H1 H2] HF IH]; intros fuel vec rest e E.
  - simpl. rewrite app_nil_r. rewrite read_full by (simpl in E; lia). auto.
  - rewrite concat_cons_len in E. assert (0 < length q) by (destruct q; [contradiction|simpl; lia]).
    destruct fuel as [|fuel].
    + simpl. destruct (Z.ltb_spec (Z.of_nat (length vec)) e); [|lia]. split; [lia|auto].
    + simpl. destruct (Z.ltb_spec (Z.of_nat (length vec)) e); [|lia]. rewrite H1.
      destruct (IH fuel (vec ++ q) rest e) as [A B]; [rewrite app_length; lia|].
      rewrite <- app_assoc in A, B. split; [intros; apply A; lia|exact B]. Qed.

Lemma read_trunc lines qss : Forall2 enc lines qss -> forall fuel vec e n,
  e = Z.of_nat (length vec + length (concat qss)) -> n < length lines ->
  read_floats fuel e vec (firstn n lines) = Running.
Proof. induction 1 as [|l q lines qss [H1 H2] HF IH]; intros fuel vec e n E Hn; [simpl in Hn; lia|].
  rewrite concat_cons_len in E. assert (0 < length q) by (destruct q; [contradiction|simpl; lia]).
  destruct n as [|n]; [apply read_eof; lia|]. simpl firstn.
  destruct fuel as [|fuel]; simpl; (destruct (Z.ltb_spec (Z.of_nat (length vec)) e); [|lia]); [reflexivity|].
  rewrite H1. apply IH; [rewrite app_length; lia|]. simpl in Hn. lia. Qed.

(** a written block, read back *)
Definition block (lines : list str) (out : list Q) : Prop := exists qss, Forall2 enc lines qss /\ concat qss = out.
Lemma block_vec v : Forall in_range v -> block (write_vec v) (map round5 v).
Proof. intros H. exists (map (map round5) (packs 6 v)). split; [|apply packs_round]. apply packs_enc; [apply line_g_enc|exact H]. Qed.
Lemma block_vals v : Forall in_range v -> block (write_vals v) (map round5 v).
Proof. intros H. exists (map (map round5) (packs 6 v)). split; [|apply packs_round]. apply packs_enc; [apply line_e_enc|exact H]. Qed.

Lemma block_read lines out fuel rest e : block lines out -> e = Z.of_nat (length out) ->
  (length lines <= fuel -> read_floats fuel e [] (lines ++ rest) = Done (Ok (out, rest))) /\
  (read_floats fuel e [] (lines ++ rest) = Running \/ read_floats fuel e [] (lines ++ rest) = Done (Ok (out, rest))).
Proof. intros [qss [H1 H2]] E. destruct (read_enc lines qss H1 fuel [] rest e) as [A B]; [simpl; now rewrite H2|].
  simpl in A, B. rewrite H2 in A, B. auto. Qed.
Lemma block_trunc lines out fuel n e : block lines out -> e = Z.of_nat (length out) -> n < length lines ->
  read_floats fuel e [] (firstn n lines) = Running.
Proof. intros [qss [H1 H2]] E Hn. eapply read_trunc; [exact H1| |exact Hn]. simpl. now rewrite H2. Qed.

(** ** header *)
Lemma str_of_Z_len9 z : int9 z -> length (str_of_Z z) < 10.
Proof. intros H. destruct z as [|p|p]; [simpl; lia| |destruct H; lia].
  unfold str_of_Z, str_of_N. rewrite ndig_length. destruct (dlen_spec (Z.to_N (Z.pos p))) as [_ [H1 H2]].
  destruct (le_lt_dec (dlen (Z.to_N (Z.pos p))) 9) as [L|L]; [lia|]. exfalso. specialize (H2 ltac:(lia)).
  assert (10 ^ 9 <= 10 ^ (N.of_nat (dlen (Z.to_N (Z.pos p))) - 1))%N by (apply N.pow_le_mono_r; lia).
  change (10 ^ 9)%N with 1000000000%N in H0. unfold int9 in H. lia. Qed.

Lemma split_d10 zs : Forall int9 zs -> split (concat (map d10 zs)) = map str_of_Z zs.
Proof. intros H. destruct zs as [|z zs]; [reflexivity|]. inversion H; subst. simpl.
  destruct (str_of_Z_no_ws z) as [A B].
  assert (F : Forall (fun wt => no_ws (snd wt) /\ snd wt <> [] /\ length (snd wt) < fst wt) (map (fun z => (10, str_of_Z z)) zs)).
  { apply Forall_map. eapply Forall_impl; [|exact H3]. intros y Hy. simpl. destruct (str_of_Z_no_ws y). repeat split; auto. now apply str_of_Z_len9. }
  pose proof (split_fields 10 (str_of_Z z) _ A B F) as S. rewrite !map_map in S. simpl in S. rewrite map_id || idtac.
  unfold d10. exact S. Qed.

Lemma mapM_parse_int zs : mapM parse_int (map str_of_Z zs) = Ok zs.
Proof. rewrite mapM_map. rewrite (mapM_ok _ (fun z => z)); [now rewrite map_id|]. intros; apply parse_str_of_Z. Qed.

Lemma qtrunc_comp a b : (a == b)%Q -> qtrunc a = qtrunc b.
Proof. destruct a as [n d], b as [m e]. unfold Qeq, qtrunc. cbn [Qnum Qden]. intros H.
  rewrite <- (Z.quot_mul_cancel_r n (Z.pos d) (Z.pos e)) by lia.
  rewrite <- (Z.quot_mul_cancel_r m (Z.pos e) (Z.pos d)) by lia. f_equal; lia. Qed.
Lemma qtrunc_int z : qtrunc (inject_Z z) = z.
Proof. unfold qtrunc, inject_Z. cbn [Qnum Qden]. apply Z.quot_1_r. Qed.
Lemma intfloat_small z : small z -> intfloat (fmt_g (inject_Z z)) = Ok z.
Proof. intros H. unfold intfloat. rewrite parse_fmt_g. simpl. f_equal.
  rewrite (qtrunc_comp _ (inject_Z z)); [apply qtrunc_int|]. apply round5_int. unfold small in H. lia. Qed.

Lemma in_range_int z : small z -> in_range (inject_Z z).
Proof. intros H. destruct (Z.eq_dec z 0) as [->|N]; [left; reflexivity|]. right. unfold small in H. rewrite Qabs_pos by (apply (inject_pos_le 0); lia). split.
  - apply Qle_trans with (p10 0); [apply p10_le; lia|]. change (p10 0) with (inject_Z 1). apply inject_pos_le. lia.
  - apply Qlt_le_trans with (p10 5); [|apply p10_le; lia]. rewrite p10_nonneg_Z by lia. rewrite <- Zlt_Qlt. change (10 ^ 5)%Z with 100000%Z. lia. Qed.
Lemma in_range_n n : In n [1; 2]%Z -> in_range (inject_Z n).
Proof. intros [<-|[<-|[]]]; apply in_range_int; unfold small; lia. Qed.

Definition round_dirs (d : option (list Q * list Q)) := match d with None => None | Some (a, b) => Some (map round5 a, map round5 b) end.
Definition round_header (h : header) : header :=
  mkheader (h_if h) (h_iv h) (h_ni h) (h_nr h) (h_probid h) (h_ne h) (h_nfx h) (h_nfy h) (h_nfz h) (map round5 (h_origin h))
    (h_ncx h) (h_ncy h) (h_ncz h) (round_dirs (h_dirs h)).
Definition round_parsed (p : parsed) : parsed :=
  mkparsed (round_header (p_header p)) (map round5 (p_b2i p)) (map round5 (p_b2j p)) (map round5 (p_b2k p))
    (map (map round5) (p_energies p)) (map (map round5) (p_values p)).

Lemma three_ok l : length l = 3 -> exists a b c, l = [a; b; c] /\ three l = Ok (a, b, c).
Proof. destruct l as [|a [|b [|c [|]]]]; simpl; try discriminate. eauto 6. Qed.

Lemma line_g9_eq a qs : g9 a ++ concat (map g13 qs) = rjust 9 (fmt_g a) ++ concat (map g13 qs). Proof. reflexivity. Qed.

Lemma split_line1 a b c d : int9 a -> int9 b -> int9 c -> int9 d ->
  split (d10 a ++ d10 b ++ d10 c ++ d10 d ++ rjust 38 (s2l "Created by f4enix_ww")) =
  [str_of_Z a; str_of_Z b; str_of_Z c; str_of_Z d; s2l "Created"; s2l "by"; s2l "f4enix_ww"].
Proof. intros Ha Hb Hc Hd.
  assert (F : Forall (fun wt => no_ws (snd wt) /\ snd wt <> [] /\ length (snd wt) < fst wt)
     [(10, str_of_Z b); (10, str_of_Z c); (10, str_of_Z d); (25, s2l "Created"); (3, s2l "by"); (10, s2l "f4enix_ww")]).
  { repeat (apply Forall_cons; [cbn [fst snd]; refine (conj _ (conj _ _))|]); try apply Forall_nil;
    try apply str_of_Z_no_ws; try (now apply str_of_Z_len9); try discriminate; try (repeat constructor); try (cbn; lia). }
  pose proof (split_fields 10 (str_of_Z a) _ (proj1 (str_of_Z_no_ws a)) (proj2 (str_of_Z_no_ws a)) F) as S.
  etransitivity; [|exact S]. f_equal. Qed.

Ltac g_in_range := repeat (apply Forall_cons; [first [assumption | apply in_range_int; first [assumption | unfold small; lia]]|]); try apply Forall_nil.

Lemma header_roundtrip p rest : saveable p ->
  exists lines, write_header (p_header p) = Ok lines /\ length lines = header_lines (p_header p) /\
    parse_header (lines ++ rest) = Ok (round_header (p_header p), rest).
Proof. unfold saveable. cbv zeta. destruct (p_header p) as [hif hiv hni hnr hprob hne fx fy fz orig cx cy cz dirs]. simpl.
  intros (Eif & Eiv & Epr & Eni & Ini & _ & Ene & Fne & Sfx & Sfy & Sfz & Scx & Scy & Scz & _ & _ & _ & _ & Lo & Ro & Dirs & _).
  destruct (three_ok orig Lo) as [o0 [o1 [o2 [Eo To]]]].
  assert (I1 : int9 1) by (unfold int9; lia).
  assert (Inr : int9 hnr) by (destruct Dirs as [[-> _]|[-> _]]; unfold int9; lia).
  rewrite Eo in Ro. inversion Ro as [|? ? R0 Ro1]; subst. inversion Ro1 as [|? ? R1 Ro2]; subst. inversion Ro2 as [|? ? R2 Ro3]; subst.
  assert (W3 : split (g9 (inject_Z fx) ++ g13 (inject_Z fy) ++ g13 (inject_Z fz) ++ g13 o0 ++ g13 o1 ++ g13 o2) =
               map fmt_g [inject_Z fx; inject_Z fy; inject_Z fz; o0; o1; o2]).
  { rewrite <- (split_g 9) by g_in_range. unfold g9. cbn [map List.concat]. now rewrite app_nil_r. }
  unfold write_header. cbn [h_origin h_if h_iv h_ni h_nr h_probid h_ne h_nfx h_nfy h_nfz h_ncx h_ncy h_ncz h_dirs three bind].
  destruct Dirs as [[Enr ->]|[Enr [d1 [d2 [-> [L1 [L2 [F1 F2]]]]]]]].
  - eexists. split; [reflexivity|]. split; [reflexivity|]. unfold parse_header, readwords. cbn [app].
    rewrite split_line1 by assumption. unfold word. cbn [nth_error of_opt bind].
    rewrite !parse_str_of_Z. cbn [bind]. rewrite split_d10 by assumption. rewrite mapM_parse_int. cbn [bind].
    rewrite W3. cbn [map nth_error of_opt bind]. rewrite !intfloat_small by assumption. cbn [bind].
    change (skipn 3 [fmt_g (inject_Z fx); fmt_g (inject_Z fy); fmt_g (inject_Z fz); fmt_g o0; fmt_g o1; fmt_g o2]) with (map fmt_g [o0; o1; o2]).
    rewrite parse_all_g. cbn [bind].
    assert (W4 : split ((g9 (inject_Z cx) ++ g13 (inject_Z cy) ++ g13 (inject_Z cz)) ++ g13 1) = map fmt_g [inject_Z cx; inject_Z cy; inject_Z cz; inject_Z 1]).
    { rewrite <- (split_g 9) by g_in_range. unfold g9. cbn [map List.concat]. rewrite app_nil_r. now rewrite <- !app_assoc. }
    rewrite W4. cbn [map nth_error of_opt bind]. rewrite !intfloat_small by assumption. cbn [bind].
    rewrite Enr. rewrite Z.eqb_refl. unfold round_header. simpl. rewrite ?Eo, ?Enr. reflexivity.
  - destruct (three_ok d1 L1) as [a0 [a1 [a2 [E1 T1]]]]. destruct (three_ok d2 L2) as [b0 [b1 [b2 [E2 T2]]]]. subst d1 d2. cbn [three bind].
    inversion F1 as [|? ? RA0 RA]; subst. inversion RA as [|? ? RA1 RA']; subst. inversion RA' as [|? ? RA2 _]; subst.
    inversion F2 as [|? ? RB0 RB]; subst. inversion RB as [|? ? RB1 RB']; subst. inversion RB' as [|? ? RB2 _]; subst.
    eexists. split; [reflexivity|]. split; [reflexivity|]. unfold parse_header, readwords. cbn [app].
    rewrite split_line1 by assumption. unfold word. cbn [nth_error of_opt bind].
    rewrite !parse_str_of_Z. cbn [bind]. rewrite split_d10 by assumption. rewrite mapM_parse_int. cbn [bind].
    rewrite W3. cbn [map nth_error of_opt bind]. rewrite !intfloat_small by assumption. cbn [bind].
    change (skipn 3 [fmt_g (inject_Z fx); fmt_g (inject_Z fy); fmt_g (inject_Z fz); fmt_g o0; fmt_g o1; fmt_g o2]) with (map fmt_g [o0; o1; o2]).
    rewrite parse_all_g. cbn [bind].
    assert (W4 : split ((g9 (inject_Z cx) ++ g13 (inject_Z cy) ++ g13 (inject_Z cz)) ++ g13 a0 ++ g13 a1 ++ g13 a2) = map fmt_g [inject_Z cx; inject_Z cy; inject_Z cz; a0; a1; a2]).
    { rewrite <- (split_g 9) by g_in_range. unfold g9. cbn [map List.concat]. rewrite app_nil_r. now rewrite <- !app_assoc. }
    rewrite W4. cbn [map nth_error of_opt bind]. rewrite !intfloat_small by assumption. cbn [bind].
    change (skipn 3 [fmt_g (inject_Z cx); fmt_g (inject_Z cy); fmt_g (inject_Z cz); fmt_g a0; fmt_g a1; fmt_g a2]) with (map fmt_g [a0; a1; a2]).
    rewrite parse_all_g. cbn [bind].
    assert (W5 : split (g9 b0 ++ g13 b1 ++ g13 b2 ++ g13 2) = map fmt_g [b0; b1; b2; inject_Z 2]).
    { rewrite <- (split_g 9) by g_in_range. unfold g9. cbn [map List.concat]. now rewrite app_nil_r. }
    rewrite W5. change (firstn 3 (map fmt_g [b0; b1; b2; inject_Z 2])) with (map fmt_g [b0; b1; b2]). rewrite parse_all_g. cbn [bind].
    reflexivity. Qed.
