(** Proofs for C33: the regions of the edited cards. *)
From Coq Require Import Lia ZArith.
From Verif Require Import PyBase PyLemmas PyStr PyStrLemmas PyText D1SProofs2 WWTextProofs LibModel MatModel MatProofs MatProofs2 MatProofs4 InpModel InpSpec InpGeomSpec InpUnionModel InpProofs InpProofs2 InpProofs6 InpGeomProofs InpGeomProofs2.
Open Scope nat_scope.

Lemma digit_num c : is_digit c = true -> num_char c = true. Proof. unfold num_char. now intros ->. Qed.
Lemma lex_digits s : forall cur, digits s -> lex_aux cur s = flush (rev s ++ cur).
Proof. induction s as [|c s IH]; intros cur D; [reflexivity|]. inversion D as [|? ? Hc D']; subst. cbn [lex_aux]. rewrite digit_num by exact Hc. rewrite IH by exact D'. cbn [rev]. now rewrite <- app_assoc. Qed.
Lemma digit_sign c : is_digit c = true -> Ascii.eqb c "-" = false /\ Ascii.eqb c "+" = false.
Proof. intros H. split; [destruct (Ascii.eqb_spec c "-") as [->|]|destruct (Ascii.eqb_spec c "+") as [->|]]; try reflexivity; vm_compute in H; discriminate H. Qed.
Lemma number_digits s : digits s -> s <> [] -> number s = TNum false s.
Proof. intros D N. destruct s as [|c s]; [contradiction|]. inversion D as [|? ? Hc _]; subst. unfold number. destruct (digit_sign c Hc) as [-> ->].
  assert (E : existsb (fun c => Ascii.eqb c "-" || Ascii.eqb c "+") (c :: s) = false). { clear -D. induction D as [|x s0 H _ IH]; [reflexivity|]. cbn [existsb]. destruct (digit_sign x H) as [-> ->]. exact IH. }
  now rewrite E. Qed.
Lemma number_minus s : digits s -> s <> [] -> number ("-"%char :: s) = TNum true s.
Proof. intros D N. unfold number. change (Ascii.eqb "-" "-") with true. cbv iota. destruct s as [|c s]; [contradiction|].
  assert (E : existsb (fun c => Ascii.eqb c "-" || Ascii.eqb c "+") (c :: s) = false). { clear -D. induction D as [|x s0 H _ IH]; [reflexivity|]. cbn [existsb]. destruct (digit_sign x H) as [-> ->]. exact IH. }
  now rewrite E. Qed.
Lemma abs_digits s : digits (str_of_Z (Z.abs s)) /\ str_of_Z (Z.abs s) <> [].
Proof. destruct (Z.abs s) eqn:E; try (exfalso; lia); unfold str_of_Z; split; try apply str_of_N_digits; apply str_of_N_ne. Qed.
Lemma flush_rev s : s <> [] -> flush (rev s) = [number s].
Proof. intros N. unfold flush. destruct (rev s) eqn:E; [apply (f_equal (@rev ascii)) in E; rewrite rev_involutive in E; contradiction|]. now rewrite <- E, rev_involutive. Qed.
Lemma lex_id s : digits s -> s <> [] -> lex s = [TNum false s].
Proof. intros D N. unfold lex. rewrite lex_digits, app_nil_r, flush_rev, number_digits by assumption. reflexivity. Qed.
Lemma lex_minus s : digits s -> s <> [] -> lex ("-"%char :: s) = [TNum true s].
Proof. intros D N. unfold lex. cbn [lex_aux]. change (num_char "-") with true. cbv iota. rewrite lex_digits by exact D. change (rev s ++ ["-"%char]) with (rev ("-"%char :: s)). rewrite flush_rev by discriminate. now rewrite number_minus. Qed.
Lemma lex_sym c s : num_char c = false -> lex (c :: s) = symbol c :: lex s.
Proof. intros H. unfold lex. cbn [lex_aux]. rewrite H. reflexivity. Qed.
Lemma ljust_exact s : ljust (length s) s = s. Proof. unfold ljust. rewrite Nat.sub_diag. apply app_nil_r. Qed.
Lemma ljust_less w s : w <= length s -> ljust w s = s. Proof. intros H. unfold ljust. replace (w - length s) with 0 by lia. apply app_nil_r. Qed.
Lemma tokens_app a b : tokens (a ++ b) = tokens a ++ tokens b. Proof. unfold tokens. now rewrite map_app, concat_app. Qed.
Lemma tokens_wrapped gw aw : tokens (s2l "(" :: gw ++ s2l ")" :: aw) = TLP :: tokens gw ++ TRP :: tokens aw.
Proof. change (s2l "(" :: gw ++ s2l ")" :: aw) with ([s2l "("] ++ gw ++ [s2l ")"] ++ aw). rewrite !tokens_app. reflexivity. Qed.
Lemma wrapped_factor ts g : is_union ts g -> is_factor (TLP :: ts ++ [TRP]) g. Proof. apply f_par. Qed.
Lemma wrapped_and ts g ts2 g2 : is_union ts g -> is_factor ts2 g2 -> is_union (TLP :: ts ++ TRP :: ts2) (GAnd g g2).
Proof. intros A B. apply u_one. change (TLP :: ts ++ TRP :: ts2) with (TLP :: ts ++ [TRP] ++ ts2). rewrite app_assoc. apply (i_and (TLP :: ts ++ [TRP])); [apply i_one, f_par, A|exact B]. Qed.
Lemma wrapped_or ts g ts2 g2 : is_union ts g -> is_inter ts2 g2 -> is_union (TLP :: ts ++ TRP :: TColon :: ts2) (GOr g g2).
Proof. intros A B. change (TLP :: ts ++ TRP :: TColon :: ts2) with (TLP :: ts ++ [TRP] ++ TColon :: ts2). rewrite app_assoc. apply (u_or (TLP :: ts ++ [TRP])); [apply u_one, i_one, f_par, A|exact B]. Qed.

Lemma renumbered_eq num c n m gs ks rows hs nm : c = mkCard nm ((n, Kcel) :: (m, Kmat) :: gs ++ ks) rows hs ->
  exists nm', renumbered num c = mkCard nm' ((match num with Some z => z | None => n end, Kcel) :: (m, Kmat) :: gs ++ ks) rows hs /\ nm' = match num with Some z => Some z | None => nm end.
Proof. intros ->. destruct num as [z|]; cbn [renumbered]; unfold rename; cbn [set_first c_values c_input c_hidden kind_eqb]; eauto. Qed.

(** one symbol with one number *)
Lemma edit_one c n m geo key aw x xk num ls :
  ordinary c n m geo key -> card_text c = Ok ls -> word aw -> has_alpha aw = false -> no_tilde aw -> holes aw = 1 ->
  exists rows gw kw ls' t,
    add_symbol (aw ++ text (s2l " ")) true c = Ok rows /\
    let c1 := renumbered num (mkCard (c_name c) (c_values c) rows (c_hidden c)) in
    let c' := with_values c1 (insert_value (x, xk) (c_values c1)) in
    card_text c' = Ok ls' /\ fill aw [x] [] = Ok (t, ([], [])) /\
    words ls = hd_text n m (c_hidden c) ++ gw ++ kw /\
    words ls' = hd_text (match num with Some z => z | None => n end) m (c_hidden c) ++ (s2l "(" :: gw ++ s2l ")" :: split t) ++ kw /\
    geometry_words (words ls) = gw /\ geometry_words (words ls') = s2l "(" :: gw ++ s2l ")" :: split t.
Proof. intros O T W A NT H1. pose proof O as O'. destruct O' as [_ _ _ [gs [ks [EV [LG [NG [FG FK]]]]]] _].
  destruct (add_symbol_words c n m geo key (aw ++ text (s2l " ")) O) as [w0 [w1 [rows [_ [AS _]]]]].
  assert (TS : tsplit (aw ++ text (s2l " ")) = [aw]). { change (text (s2l " ")) with [Ch sp]. rewrite tsplit_ws by reflexivity. rewrite tsplit_word by exact W. reflexivity. }
  destruct (edit_words c n m geo key (aw ++ text (s2l " ")) rows [(x, xk)] (match num with Some z => z | None => n end) gs ks (match num with Some z => Some z | None => c_name c end) ls O AS) as [ls' [l [gw [kw [T' [F [E1 [E2 [E3 E4]]]]]]]]]; try assumption.
  - rewrite TS. constructor; [auto|constructor].
  - rewrite TS. unfold hole_count. cbn [concat length]. rewrite app_nil_r. symmetry. exact H1.
  - rewrite TS in F. cbn [fillw map fst] in F. destruct (fill aw [x] []) as [[t [v1 h1]]|] eqn:FA; cbn [bind] in F; [|discriminate]. injection F as <- -> ->.
    exists rows, gw, kw, ls', t. split; [exact AS|]. cbv zeta.
    destruct (renumbered_eq num (mkCard (c_name c) (c_values c) rows (c_hidden c)) n m gs ks rows (c_hidden c) (c_name c)) as [nm' [-> ->]]; [now rewrite EV|].
    cbn [c_values with_values c_input c_hidden c_name]. rewrite insert_after_geometry by assumption.
    replace (words [t]) with (split t) in E2, E4 by (unfold words; cbn; now rewrite app_nil_r). auto 10. Qed.
Lemma text_word s w : s <> [] \/ True -> Forall (fun c => is_ws c = false) s -> word (text s ++ [Hole w]).
Proof. intros _ F. split; [destruct s; discriminate|]. apply Forall_app. split; [|repeat constructor]. unfold text. apply Forall_forall. intros i I. apply in_map_iff in I as [c [<- I]]. rewrite Forall_forall in F. now apply F. Qed.
Lemma fill_text s w x : Forall (fun c => Ascii.eqb c tilde = false) s -> fill (text s ++ [Hole w]) [x] [] = Ok (s ++ ljust w (str_of_Z x), ([], [])).
Proof. induction 1 as [|c s H _ IH]; [cbn; now rewrite app_nil_r|]. cbn [text map app fill]. rewrite H. fold (text s). now rewrite IH. Qed.
Lemma split_one s : s <> [] -> Forall (fun c => is_ws c = false) s -> split s = [s].
Proof. intros N F. now apply split_tok_end. Qed.
Lemma digits_ws s : digits s -> Forall (fun c => is_ws c = false) s. Proof. apply digits_no_ws. Qed.

(** the union of regions *)
Lemma flat_words geom : words [flat geom] = words [geom].
Proof. unfold words. cbn [map concat]. rewrite !app_nil_r. unfold split, flat. generalize (@nil ascii) as cur. induction geom as [|c s IH]; intros cur; [reflexivity|]. cbn [map split_aux]. destruct (Ascii.eqb_spec c nl) as [->|N].
  - change (is_ws sp) with true. change (is_ws nl) with true. cbv iota. rewrite !IH. reflexivity.
  - rewrite !IH. destruct (is_ws c); [destruct cur; reflexivity|reflexivity]. Qed.
Fixpoint slex (cur : str) (s : str) : list token :=
  match s with
  | [] => flush cur
  | c :: s' => if is_ws c then flush cur ++ slex [] s' else if num_char c then slex (c :: cur) s' else flush cur ++ symbol c :: slex [] s'
  end.
Lemma slex_lex s : forall cur, Forall (fun c => is_ws c = false) s -> slex cur s = lex_aux cur s.
Proof. induction s as [|c s IH]; intros cur F; [reflexivity|]. inversion F as [|? ? Hc F']; subst. cbn [slex lex_aux]. rewrite Hc, !IH by exact F'. reflexivity. Qed.
Lemma slex_ws a : forall cur c b, is_ws c = true -> slex cur (a ++ c :: b) = slex cur a ++ slex [] b.
Proof. induction a as [|x a IH]; intros cur c b W; cbn [app slex]; [rewrite W; reflexivity|]. destruct (is_ws x); [rewrite IH by exact W; now rewrite app_assoc|]. destruct (num_char x); rewrite IH by exact W; [reflexivity|]. now rewrite <- app_assoc. Qed.
Lemma slex_sym a : forall cur c b, is_ws c = false -> num_char c = false -> slex cur (a ++ c :: b) = slex cur a ++ symbol c :: slex [] b.
Proof. induction a as [|x a IH]; intros cur c b W N; cbn [app slex]; [rewrite W, N; reflexivity|]. destruct (is_ws x); [rewrite IH by assumption; now rewrite app_assoc|]. destruct (num_char x); rewrite IH by assumption; [reflexivity|]. now rewrite <- app_assoc. Qed.
Lemma tokens_split s : forall cur, Forall (fun c => is_ws c = false) cur -> tokens (split_aux cur s) = slex [] (rev cur ++ s).
Proof. induction s as [|c s IH]; intros cur F; cbn [split_aux].
  - rewrite app_nil_r. destruct cur as [|x cur]; [reflexivity|]. unfold tokens. cbn [map concat]. rewrite app_nil_r. symmetry. apply slex_lex. now apply Forall_rev.
  - destruct (is_ws c) eqn:W.
    + rewrite slex_ws by exact W. destruct cur as [|x cur]; [rewrite IH by constructor; reflexivity|]. unfold tokens. cbn [map concat]. fold (tokens (split_aux [] s)). rewrite IH by constructor. rewrite (slex_lex (rev (x :: cur))) by now apply Forall_rev. reflexivity.
    + rewrite IH by now constructor. cbn [rev]. now rewrite <- app_assoc. Qed.
Lemma tsplit_items s : forall cur w i, In w (tsplit_aux cur s) -> In i w -> In i cur \/ In i s.
Proof. induction s as [|x s IH]; intros cur w i H I; cbn [tsplit_aux] in H.
  - destruct cur; [destruct H|]. destruct H as [<-|[]]. left. now apply in_rev.
  - destruct (is_ws_t x).
    + destruct cur as [|y cur].
      * destruct (IH _ _ _ H I) as [Q|Q]; [destruct Q|right; right; exact Q].
      * destruct H as [<-|H]; [left; now apply in_rev|]. destruct (IH _ _ _ H I) as [Q|Q]; [destruct Q|right; right; exact Q].
    + destruct (IH _ _ _ H I) as [[<-|Q]|Q]; [right; left; reflexivity|left; exact Q|right; right; exact Q]. Qed.
Lemma text_tsplit s : has_letter s = false -> ~ In tilde s -> Forall (fun w => has_alpha w = false /\ no_tilde w) (tsplit (text s)) /\ hole_count (tsplit (text s)) = 0.
Proof. intros L T. assert (I : forall w i, In w (tsplit (text s)) -> In i w -> exists c, i = Ch c /\ In c s).
  { intros w i Hw Hi. destruct (tsplit_items _ _ _ _ Hw Hi) as [[]|Q]. unfold text in Q. apply in_map_iff in Q as [c [<- Q]]. eauto. }
  split.
  - apply Forall_forall. intros w Hw. split.
    + destruct (has_alpha w) eqn:A; [|reflexivity]. unfold has_alpha in A. apply existsb_exists in A as [i [Hi A]]. destruct (I w i Hw Hi) as [c [-> Hc]]. unfold has_letter in L. assert (existsb is_alpha s = true) by (apply existsb_exists; eauto). congruence.
    + intros Q. destruct (I w _ Hw Q) as [c [E Hc]]. injection E as <-. contradiction.
  - unfold hole_count. destruct (filter _ (concat (tsplit (text s)))) as [|i l] eqn:E; [reflexivity|]. exfalso. assert (Q : In i (i :: l)) by (left; reflexivity). rewrite <- E in Q. apply filter_In in Q as [Q1 Q2]. apply in_concat in Q1 as [w [Hw Hi]]. destruct (I w i Hw Hi) as [c [-> _]]. discriminate. Qed.
Lemma fill_plain_text s hs : ~ In tilde s -> fill (text s) [] hs = Ok (s, ([], hs)).
Proof. induction s as [|c s IH]; intros T; [reflexivity|]. cbn [text map fill]. destruct (Ascii.eqb_spec c tilde) as [->|]; [elim T; left; reflexivity|]. fold (text s). rewrite IH; [reflexivity|]. intros Q. apply T. right. exact Q. Qed.
Lemma flat_in c geom : In c (flat geom) -> c = sp \/ In c geom.
Proof. unfold flat. intros H. apply in_map_iff in H as [x [E H]]. destruct (Ascii.eqb x nl); [left; congruence|right; congruence]. Qed.

Lemma union_step_region num geom c n m geo key ls g g2 :
  ordinary c n m geo key -> card_text c = Ok ls -> region_of ls g ->
  has_letter geom = false -> ~ In tilde geom -> is_union (tokens (split geom)) g2 ->
  exists c1 ls1 gw aw kw, union_step num geom c = Ok c1 /\ card_text c1 = Ok ls1 /\ region_of ls1 (GOr g g2) /\ c_name c1 = Some num /\
    words ls = hd_text n m (c_hidden c) ++ gw ++ kw /\ words ls1 = hd_text num m (c_hidden c) ++ (s2l "(" :: gw ++ s2l ")" :: aw) ++ kw.
Proof. intros O T R NL NT U. pose proof O as O'. destruct O' as [_ _ _ [gs [ks [EV [LG [NG [FG FK]]]]]] _].
  destruct (add_symbol_words c n m geo key (union_addition geom) O) as [w0 [w1 [rows [_ [AS _]]]]].
  set (s := s2l " : (" ++ flat geom ++ s2l ")").
  assert (Ls : has_letter s = false). { unfold s. rewrite !no_letter_app. replace (has_letter (flat geom)) with false; [reflexivity|]. symmetry. destruct (has_letter (flat geom)) eqn:E; [|reflexivity]. unfold has_letter in *. apply existsb_exists in E as [x [Hx Ax]]. apply flat_in in Hx as [->|Hx]; [discriminate Ax|]. assert (existsb is_alpha geom = true) by (apply existsb_exists; eauto). congruence. }
  assert (Ts : ~ In tilde s). { unfold s. intros Q. apply in_app_or in Q as [Q|Q]; [cbn in Q; intuition discriminate|]. apply in_app_or in Q as [Q|Q]; [|cbn in Q; intuition discriminate]. apply flat_in in Q as [Q|Q]; [discriminate|contradiction]. }
  destruct (text_tsplit s Ls Ts) as [FA HC].
  destruct (edit_words c n m geo key (union_addition geom) rows [] num gs ks (Some num) ls O AS FA (eq_sym HC) EV LG T) as [ls1 [aw [gw [kw [T1 [F [E1 [E2 [E3 E4]]]]]]]]].
  unfold union_step. rewrite AS. cbn [bind]. destruct (renumbered_eq (Some num) (mkCard (c_name c) (c_values c) rows (c_hidden c)) n m gs ks rows (c_hidden c) (c_name c)) as [nm' [-> ->]]; [now rewrite EV|].
  eexists. exists ls1, gw, (words aw), kw. split; [reflexivity|]. split; [exact T1|]. split; [|split; [reflexivity|split; [exact E1|exact E2]]].
  unfold region_of in *. rewrite E3 in R. rewrite E4, tokens_wrapped.
  assert (EA : words aw = split s). { pose proof (row_words (union_addition geom) [] [] []) as A. cbn [rev app] in A. unfold union_addition in A at 1. fold s in A. rewrite fill_plain_text in A by exact Ts. change (map fst []) with (@nil Z) in F. change (tsplit_aux [] (union_addition geom)) with (tsplit (union_addition geom)) in A. rewrite F in A. cbn [agree] in A. symmetry. apply A. }
  assert (EF : split (flat geom) = split geom). { pose proof (flat_words geom) as Q. unfold words in Q. cbn [map concat] in Q. now rewrite !app_nil_r in Q. }
  rewrite EA. assert (ES : tokens (split s) = TColon :: TLP :: tokens (split geom) ++ [TRP]).
  { unfold split at 1. rewrite tokens_split by constructor. cbn [rev app]. unfold s. change (s2l " : (" ++ flat geom ++ s2l ")") with (sp :: ":"%char :: sp :: "("%char :: flat geom ++ [")"%char]).
    change (slex [] (sp :: ":"%char :: sp :: "("%char :: flat geom ++ [")"%char])) with (TColon :: TLP :: slex [] (flat geom ++ [")"%char])). rewrite slex_sym by reflexivity. rewrite <- EF. unfold split at 1. rewrite (tokens_split (flat geom) []) by constructor. reflexivity. }
  rewrite ES. apply wrapped_or; [exact R|]. apply i_one, f_par, U. Qed.
Lemma union_loop_region num geoms : forall c c' n m geo key ls g gs,
  union_loop num c geoms c' -> ordinary c n m geo key -> card_text c = Ok ls -> region_of ls g ->
  Forall2 (fun geom g2 => has_letter geom = false /\ ~ In tilde geom /\ is_union (tokens (split geom)) g2) geoms gs ->
  exists ls', card_text c' = Ok ls' /\ region_of ls' (fold_left GOr gs g).
Proof. induction geoms as [|geom geoms IH]; intros c c' n m geo key ls g gs L O T R F; inversion L; subst.
  - inversion F; subst. eauto.
  - inversion F as [|? g2 ? gs' [A [B C]] F']; subst. destruct (union_step_region num geom c n m geo key ls g g2 O T R A B C) as [c1' [ls1 [gw [aw [kw [S [T1 [R1 _]]]]]]]].
    match goal with H : union_step num geom c = Ok _ |- _ => rewrite H in S; injection S as <- end.
    match goal with H : card_text c1 = Ok ?x |- _ => rewrite H in T1; injection T1 as -> end. cbn [fold_left].
    match goal with H : words ?x = words ls1, OO : ordinary c2 _ _ _ _ |- _ => apply (IH c2 c' _ _ _ _ x (GOr g g2) gs' ltac:(assumption) OO ltac:(assumption)); [unfold region_of in *; rewrite H; exact R1|exact F'] end. Qed.
Lemma dpop_spec key d : match dpop key d with
  | Ok d' => exists a l b, d = a ++ (key, l) :: b /\ d' = a ++ b /\ ~ In key (dkeys a)
  | Err e => e = KeyError /\ ~ In key (dkeys d) end.
Proof. induction d as [|[k l] d IH]; cbn [dpop]; [split; [reflexivity|intros []]|]. destruct (str_eqb k key) eqn:E.
  - apply str_eqb_eq in E. subst k. exists [], l, d. repeat split; auto.
  - assert (N : k <> key) by (intros ->; rewrite str_eqb_refl in E; discriminate). destruct (dpop key d) as [d'|e]; cbn [bind].
    + destruct IH as [a [l' [b [-> [-> H]]]]]. exists ((k, l) :: a), l', b. repeat split. intros [Q|Q]; [contradiction|contradiction].
    + destruct IH as [-> H]. split; [reflexivity|]. intros [Q|Q]; [contradiction|contradiction]. Qed.
