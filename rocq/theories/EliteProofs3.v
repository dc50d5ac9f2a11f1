(** C44: the outer cell and the graveyard; the text of planes. *)
From Coq Require Import Lia ZArith QArith Qabs Lqa.
From Verif Require Import PyBase PyLemmas PyStr PyStrLemmas PyFmtLemmas PyText D1SProofs2 LibModel MatModel MatProofs MatProofs2 InpModel InpSpec InpGeomSpec InpProofs InpProofs2 InpProofs6 InpGeomProofs InpGeomProofs2 InpGeomProofs3 InpGeomProps FmeshModel FmeshProofs6 EliteModel EliteSpec EliteProofs EliteProofs2.
Open Scope nat_scope.

(** ** regions *)
Lemma add_surface_ordinary c n m geo key s num mo c' : ordinary c n m geo key -> add_surface s num mo c = Ok c' ->
  exists geo', ordinary c' (match num with Some z => z | None => n end) m geo' key.
Proof.
  intros O E. set (id := str_of_Z (Z.abs s)) in *. set (pre := mode_symbol mo ++ (if (0 <=? s)%Z then [] else s2l "-")).
  assert (PW : Forall (fun c => is_ws c = false) pre) by (unfold pre; destruct mo, (0 <=? s)%Z; repeat constructor).
  assert (P2 : Forall (fun c => Ascii.eqb c tilde = false) pre) by (unfold pre; destruct mo, (0 <=? s)%Z; repeat constructor).
  assert (A1 : has_alpha (text pre ++ [Hole (length id)]) = false) by (unfold pre; destruct mo, (0 <=? s)%Z; reflexivity).
  assert (A2 : no_tilde (text pre ++ [Hole (length id)])). { unfold no_tilde. intros Q. apply in_app_or in Q as [Q|[Q|[]]]; [|discriminate]. unfold text in Q. apply in_map_iff in Q as [x [EQ Q]]. injection EQ as ->. rewrite Forall_forall in P2. specialize (P2 _ Q). discriminate P2. }
  assert (A3 : holes (text pre ++ [Hole (length id)]) = 1) by (unfold pre; destruct mo, (0 <=? s)%Z; reflexivity).
  unfold add_surface in E. fold id in E. fold pre in E.
  assert (AD : text pre ++ Hole (length id) :: text (s2l " ") = (text pre ++ [Hole (length id)]) ++ text (s2l " ")) by (now rewrite <- app_assoc).
  rewrite AD in E. eexists. exact (proj1 (edited_ordinary c n m geo key _ (Z.abs s) num c' O (text_word pre _ (or_intror I) PW) A1 A2 A3 E)).
Qed.
Definition edit_value (side : str -> bool) (mo : mode) (s : Z) (x : bool) : bool := match mo with Intersect => x && sense side s | Union => x || sense side s end.
Lemma add_two c n m geo key ls g mo s1 s2 : ordinary c n m geo key -> card_text c = Ok ls -> region_of ls g ->
  exists c1 c2 ls2 g2, add_surface s1 None mo c = Ok c1 /\ add_surface s2 None mo c1 = Ok c2 /\ card_text c2 = Ok ls2 /\ region_of ls2 g2 /\
    (forall side cell, inside side cell g2 = edit_value side mo s2 (edit_value side mo s1 (inside side cell g))) /\ c_name c2 = c_name c.
Proof.
  intros O T R. destruct (C33_add_surface c n m geo key ls g s1 None mo O T R) as (c1 & ls1 & g1 & E1 & T1 & R1 & I1 & _ & N1).
  destruct (add_surface_ordinary _ _ _ _ _ _ _ _ _ O E1) as (geo1 & O1).
  destruct (C33_add_surface c1 n m geo1 key ls1 g1 s2 None mo O1 T1 R1) as (c2 & ls2 & g2 & E2 & T2 & R2 & I2 & _ & N2).
  exists c1, c2, ls2, g2. repeat split; auto; [|congruence]. intros side cell. rewrite I2. cbv zeta. rewrite I1. cbv zeta. unfold edit_value, sense. destruct mo; reflexivity.
Qed.
Lemma sense_neg side s : s <> 0%Z -> sense side (- s) = negb (sense side s).
Proof.
  intros H. unfold sense. rewrite Z.abs_opp. destruct (Z.ltb_spec s 0), (Z.ltb_spec (- s) 0); try lia; [now rewrite negb_involutive|reflexivity].
Qed.

(** ** the two cutting planes *)
Definition cut (gy out : card) (b0 b1 : Z) : res (card * card) :=
  do gy1 <- add_surface (- b0) None Union gy; do out1 <- add_surface b0 None Intersect out;
  do gy2 <- add_surface (- b1) None Union gy1; do out2 <- add_surface b1 None Intersect out1; Ok (out2, gy2).
Lemma graveyard_tail gy out cur l : forall k, match l with [] => False | _ => True end ->
  modify_graveyard_aux (Some cur) (S k) gy out l =
  do b <- lookup sector_boundaries (last l (SNum 0));
  do gy' <- add_surface (- snd b) None Union (fst cur); do out' <- add_surface (snd b) None Intersect (snd cur); Ok (out', gy').
Proof.
  induction l as [|s l IH]; intros k H; [destruct H|]. cbn [modify_graveyard_aux bind]. destruct cur as [g o]. destruct l as [|s' l].
  - cbn [last fst snd]. destruct (lookup sector_boundaries s) as [b|]; cbn [bind]; [|reflexivity].
    destruct (add_surface (- snd b) None Union g) as [g'|]; cbn [bind]; [|reflexivity]. destruct (add_surface (snd b) None Intersect o) as [o'|]; reflexivity.
  - cbn [bind]. rewrite (IH (S k) I). reflexivity.
Qed.
Lemma graveyard_cut s l gy out b0 b1 : (exists x, In (s, (b0, x)) sector_boundaries) -> (exists x, In (last (s :: l) s, (x, b1)) sector_boundaries) ->
  modify_graveyard (s :: l) gy out = cut gy out b0 b1.
Proof.
  intros (x & H0) (y & H1). unfold modify_graveyard, cut. cbn [modify_graveyard_aux].
  assert (N : NoDup (map fst sector_boundaries)) by exact names_nodup. pose proof (lookup_nodup _ _ _ N H0) as L0. pose proof (lookup_nodup _ _ _ N H1) as L1.
  rewrite L0. cbn [bind fst snd].
  destruct (add_surface (- b0) None Union gy) as [g1|]; cbn [bind]; [|reflexivity]. destruct (add_surface b0 None Intersect out) as [o1|]; cbn [bind]; [|reflexivity].
  destruct l as [|s' l].
  - cbn [last] in L1. assert (E : (b0, x) = (y, b1)) by congruence. injection E as -> ->. cbn [bind].
    destruct (add_surface (- b1) None Union g1) as [g2|]; cbn [bind]; [|reflexivity]. destruct (add_surface b1 None Intersect o1) as [o2|]; reflexivity.
  - cbn [bind]. rewrite graveyard_tail by exact I. change (last (s :: s' :: l) s) with (last (s' :: l) s) in L1.
    assert (L : forall (u v : sector) w l0, last (u :: l0) v = last (u :: l0) w). { clear. intros u v w l0. revert u. induction l0 as [|z l0 IH]; intros u; [reflexivity|]. change (last (z :: l0) v = last (z :: l0) w). apply IH. }
    rewrite (L s' (SNum 0) s l), L1. reflexivity.
Qed.

(** ** the number printed by a translation *)
Lemma f8_pos q : (0 <= q)%Q -> parse_float (fmt_f8_pos q) = Ok (inject_Z (qround_even (q * inject_Z 100000000)) * p10 (-8))%Q
  /\ parse_float (minus :: fmt_f8_pos q) = Ok (- (inject_Z (qround_even (q * inject_Z 100000000)) * p10 (-8)))%Q.
Proof.
  intros H. assert (H0 : (0 <= qround_even (q * inject_Z 100000000))%Z). { apply round_nonneg. apply Qmult_le_0_compat; [exact H|discriminate]. }
  unfold fmt_f8_pos. set (n := Z.to_N (qround_even (q * inject_Z 100000000))).
  destruct (parse_float_shape (str_of_N (n / 100000000)) (ndig 8 (n mod 100000000)) [] 0) as [P1 P2].
  - apply str_of_N_digits.
  - apply str_of_N_ne.
  - apply ndig_digits.
  - exact I.
  - reflexivity.
  - rewrite app_nil_r in P1, P2. rewrite num_of_app, num_of_str, ndig_length, num_of_ndig in P1, P2.
    assert (E : (n / 100000000 * 10 ^ N.of_nat 8 + n mod 100000000 mod 10 ^ N.of_nat 8)%N = n).
    { change (10 ^ N.of_nat 8)%N with 100000000%N. rewrite (N.mod_small (n mod 100000000)) by (apply N.mod_lt; lia). pose proof (N.div_mod n 100000000 ltac:(lia)). lia. }
    assert (EN : Z.of_N n = qround_even (q * inject_Z 100000000)) by (unfold n; rewrite Z2N.id by exact H0; reflexivity).
    rewrite E in P1, P2. rewrite EN in P1, P2. split; [exact P1|exact P2].
Qed.
Lemma f8_close q : (0 <= q)%Q -> (Qabs (inject_Z (qround_even (q * inject_Z 100000000)) * p10 (-8) - q) <= 1 # 200000000)%Q.
Proof. intros H. change (p10 (-8)) with (1 # 100000000)%Q. pose proof (qround_even_spec (q * inject_Z 100000000)) as [A B]. change (inject_Z 100000000) with (100000000 # 1)%Q in *. apply Qabs_Qle_condition. split; lra. Qed.
Lemma f8_no_ws q : no_ws (fmt_f8 q) /\ fmt_f8 q <> [].
Proof.
  assert (G : forall q, no_ws (fmt_f8_pos q)).
  { intros r. unfold fmt_f8_pos. apply Forall_app. split; [apply digits_no_ws, str_of_N_digits|]. constructor; [reflexivity|]. apply digits_no_ws, ndig_digits. }
  unfold fmt_f8. destruct (Qle_bool 0 q); [split; [apply G|]|split; [constructor; [reflexivity|apply G]|discriminate]].
  unfold fmt_f8_pos. intros E. apply app_eq_nil in E. destruct E as [_ E]. discriminate E.
Qed.
Lemma f8_value q : exists v, parse_float (fmt_f8 q) = Ok v /\ (Qabs (v - q) <= 1 # 200000000)%Q.
Proof.
  unfold fmt_f8. destruct (Qle_bool 0 q) eqn:E.
  - apply Qle_bool_iff in E. eexists. split; [apply f8_pos; exact E|apply f8_close; exact E].
  - assert (H : (0 <= - q)%Q). { destruct (Qlt_le_dec q 0) as [X|X]; [lra|]. apply Qle_bool_iff in X. congruence. }
    eexists. split; [apply f8_pos; exact H|]. pose proof (f8_close (- q) H) as C. rewrite <- Qabs_opp.
    setoid_replace (- (- (inject_Z (qround_even (- q * inject_Z 100000000)) * p10 (-8)) - q))%Q with (inject_Z (qround_even (- q * inject_Z 100000000)) * p10 (-8) - - q)%Q by ring. exact C.
Qed.

(** ** words of the lines of a card *)
Lemma split_join ls : split (join ls) = concat (map split ls).
Proof. induction ls as [|l ls IH]; [reflexivity|]. destruct ls as [|l2 ls]; [cbn; now rewrite app_nil_r|]. change (join (l :: l2 :: ls)) with (l ++ sp :: join (l2 :: ls)). rewrite split_app_ws by reflexivity. rewrite IH. reflexivity. Qed.
Lemma split_snoc_nl l : split (l ++ [nl]) = split l.
Proof. rewrite split_app_ws by reflexivity. change (split []) with (@nil str). apply app_nil_r. Qed.
Lemma split_rstrip l : split (rstrip_nl l) = split l.
Proof.
  unfold rstrip_nl. rewrite <- (rev_involutive l) at 2. induction (rev l) as [|c r IH]; [reflexivity|]. destruct (Ascii.eqb_spec c nl) as [->|N]; [|reflexivity].
  rewrite IH. cbn [rev]. symmetry. apply split_snoc_nl.
Qed.
Lemma words_eq s : split (join (map rstrip_nl (filter not_comment (s_lines s)))) = card_words s.
Proof. rewrite split_join, map_map. unfold card_words. f_equal. apply map_ext. intros l. apply split_rstrip. Qed.
Lemma split_good s : Forall (fun w => w <> [] /\ no_ws w) (split s).
Proof.
  assert (G : forall s cur, Forall (fun c => is_ws c = false) cur -> Forall (fun w => w <> [] /\ no_ws w) (split_aux cur s)).
  { clear s. induction s as [|c s IH]; intros cur F; cbn [split_aux].
    - destruct cur as [|x cur]; constructor; [|constructor]. split; [intros Q; apply (f_equal (@rev ascii)) in Q; rewrite rev_involutive in Q; discriminate|]. apply Forall_rev. exact F.
    - destruct (is_ws c) eqn:W; [destruct cur as [|x cur]; [apply IH; constructor|constructor; [|apply IH; constructor]]|apply IH; constructor; assumption].
      split; [intros Q; apply (f_equal (@rev ascii)) in Q; rewrite rev_involutive in Q; discriminate|]. apply Forall_rev. exact F. }
  apply G. constructor.
Qed.
Lemma card_words_good s : Forall (fun w => w <> [] /\ no_ws w) (card_words s).
Proof. rewrite <- words_eq. apply split_good. Qed.
Lemma split_join_words ws : Forall (fun w => w <> [] /\ no_ws w) ws -> split (join ws) = ws.
Proof. intros H. rewrite split_join. induction H as [|w ws [N W] _ IH]; [reflexivity|]. cbn [map concat]. rewrite IH. rewrite (split_one w N W). reflexivity. Qed.
Lemma translate_ok a l tol s y ws w d : nth_error (s_coefs s) 1 = Some y -> card_words s = ws ++ [w] -> parse_float w = Ok d ->
  match ws with x :: _ => not_comment x = true | [] => False end ->
  exists t, translate a l tol s = Ok t /\ moved_by (sgn (1 <? l) * sgn (quadrant a) * sgn (negb (Qle_bool y 0)) * 2 * tol)%Q s t.
Proof.
  intros Hy Hw Hd Hc. unfold translate. rewrite words_eq, Hw. unfold coef. rewrite Hy. cbn [of_opt bind]. rewrite rev_app_distr. cbn [rev app hd_error of_opt bind]. rewrite Hd. cbn [bind].
  set (e := (sgn (1 <? l) * sgn (quadrant a) * sgn (negb (Qle_bool y 0)))%Q). rewrite removelast_last. eexists. split; [reflexivity|].
  destruct (f8_value (d + e * 2 * tol)) as (v & Pv & Cv). exists ws, w, d, (fmt_f8 (d + e * 2 * tol)), v. cbn [s_lines s_text s_num s_type s_coefs s_tr].
  repeat split; auto. unfold card_words. cbn [s_lines filter].
  assert (G : Forall (fun w => w <> [] /\ no_ws w) (ws ++ [fmt_f8 (d + e * 2 * tol)])).
  { pose proof (card_words_good s) as G. rewrite Hw in G. apply Forall_app in G. apply Forall_app. split; [apply G|]. constructor; [|constructor]. split; apply f8_no_ws. }
  assert (NC : not_comment (join (ws ++ [fmt_f8 (d + e * 2 * tol)]) ++ [nl]) = true).
  { destruct ws as [|x ws]; [destruct Hc|]. apply Forall_inv in G. destruct G as [Nx _]. destruct x as [|c x]; [contradiction|]. cbn [app join]. destruct (ws ++ [fmt_f8 (d + e * 2 * tol)]); exact Hc. }
  rewrite NC. cbn [map concat]. rewrite app_nil_r, split_snoc_nl. apply split_join_words. exact G.
Qed.

(** ** the loops *)
Lemma mapM_foldM {A B} (f : B -> A -> res A) bs : forall (l l' : list A), foldM (fun l b => mapM (f b) l) l bs = Ok l' ->
  Forall2 (fun x y => foldM (fun x b => f b x) x bs = Ok y) l l'.
Proof.
  induction bs as [|b bs IH]; intros l l' H; cbn [foldM] in *.
  - injection H as <-. induction l; constructor; [reflexivity|assumption].
  - destruct (mapM (f b) l) as [l1|] eqn:E; [|discriminate H]. cbn [bind] in H. apply IH in H. apply mapM_Forall2 in E. revert l' H. induction E as [|x y l l1 Exy _ IHE]; intros l' H; inversion H as [|? ? ? ? H1 H2]; subst; constructor; [|apply IHE; assumption].
    rewrite Exy. cbn [bind]. exact H1.
Qed.
Lemma foldM_mapM {A B} (f : B -> A -> res A) bs : forall (l l' : list A), Forall2 (fun x y => foldM (fun x b => f b x) x bs = Ok y) l l' ->
  foldM (fun l b => mapM (f b) l) l bs = Ok l'.
Proof.
  induction bs as [|b bs IH]; intros l l' H; cbn [foldM] in *.
  - f_equal. induction H as [|x y l l' E _ IHl]; [reflexivity|]. injection E as <-. congruence.
  - assert (E : exists l1, mapM (f b) l = Ok l1 /\ Forall2 (fun x y => foldM (fun x b => f b x) x bs = Ok y) l1 l').
    { induction H as [|x y l l' E _ IHl]; [exists []; split; [reflexivity|constructor]|]. destruct IHl as (l1 & E1 & F1). destruct (f b x) as [x1|] eqn:Ex; [|discriminate E]. cbn [bind] in E. exists (x1 :: l1). cbn [mapM]. rewrite Ex. cbn [bind]. rewrite E1. split; [reflexivity|constructor; assumption]. }
    destruct E as (l1 & E1 & F1). rewrite E1. cbn [bind]. apply IH. exact F1.
Qed.
