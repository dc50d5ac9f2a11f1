(** Proofs for C33: the grammar is unambiguous; the words of a card and of the edited card. *)
From Coq Require Import Lia ZArith.
From Verif Require Import PyBase PyLemmas PyStr PyStrLemmas PyText D1SProofs2 WWTextProofs LibModel MatModel MatProofs MatProofs2 MatProofs4 InpModel InpSpec InpGeomSpec InpProofs InpProofs2 InpProofs6.
Open Scope nat_scope.

(** ** the grammar is unambiguous *)
Definition frame := (option geom * option geom * bool)%type.
Definition add_factor (i : option geom) (g : geom) : option geom := Some (match i with None => g | Some a => GAnd a g end).
Definition close (u : option geom) (a : geom) : geom := match u with None => a | Some b => GOr b a end.
Fixpoint run (ts : list token) (st : list frame) : option geom :=
  match ts, st with
  | [], [(u, Some a, false)] => Some (close u a)
  | TNum neg id :: ts', (u, i, h) :: st' =>
      if h then (if neg then None else run ts' ((u, add_factor i (GNot (GCell id)), false) :: st')) else run ts' ((u, add_factor i (GSurf neg id), false) :: st')
  | TLP :: ts', _ => run ts' ((None, None, false) :: st)
  | TRP :: ts', (u, Some a, false) :: (u', i', h') :: st' => run ts' ((u', add_factor i' (if (h' : bool) then GNot (close u a) else close u a), false) :: st')
  | TColon :: ts', (u, Some a, false) :: st' => run ts' ((Some (close u a), None, false) :: st')
  | THash :: ts', (u, i, false) :: st' => run ts' ((u, i, true) :: st')
  | _, _ => None
  end.
Scheme union_ind' := Induction for is_union Sort Prop with inter_ind' := Induction for is_inter Sort Prop with factor_ind' := Induction for is_factor Sort Prop.
Lemma grammar_run :
  (forall ts g, is_union ts g -> forall st rest, exists u a, run (ts ++ rest) ((None, None, false) :: st) = run rest ((u, Some a, false) :: st) /\ close u a = g).
Proof. apply (union_ind'
  (fun ts g _ => forall st rest, exists u a, run (ts ++ rest) ((None, None, false) :: st) = run rest ((u, Some a, false) :: st) /\ close u a = g)
  (fun ts g _ => forall u st rest, run (ts ++ rest) ((u, None, false) :: st) = run rest ((u, Some g, false) :: st))
  (fun ts g _ => forall u i st rest, run (ts ++ rest) ((u, i, false) :: st) = run rest ((u, add_factor i g, false) :: st))).
  - intros ts g _ IH st rest. exists None, g. split; [apply IH|reflexivity].
  - intros ts1 g1 ts2 g2 _ IH1 _ IH2 st rest. exists (Some g1), g2. split; [|reflexivity]. rewrite <- app_assoc. cbn [app]. destruct (IH1 st (TColon :: ts2 ++ rest)) as [u [a [E C]]]. rewrite E. cbn [run]. rewrite C. apply IH2.
  - intros ts g _ IH u st rest. rewrite IH. reflexivity.
  - intros ts1 g1 ts2 g2 _ IH1 _ IH2 u st rest. rewrite <- app_assoc, IH1, IH2. reflexivity.
  - intros neg id u i st rest. reflexivity.
  - intros ts g _ IH u i st rest. cbn [app run]. rewrite <- app_assoc. cbn [app]. destruct (IH ((u, i, false) :: st) (TRP :: rest)) as [u' [a [E C]]]. rewrite E. cbn [run]. now rewrite C.
  - intros id u i st rest. reflexivity.
  - intros ts g _ IH u i st rest. cbn [app run]. rewrite <- app_assoc. cbn [app]. destruct (IH ((u, i, true) :: st) (TRP :: rest)) as [u' [a [E C]]]. rewrite E. cbn [run]. now rewrite C. Qed.
Lemma union_unique ts g1 g2 : is_union ts g1 -> is_union ts g2 -> g1 = g2.
Proof. intros H1 H2. destruct (grammar_run ts g1 H1 [] []) as [u1 [a1 [E1 <-]]]. destruct (grammar_run ts g2 H2 [] []) as [u2 [a2 [E2 <-]]]. rewrite app_nil_r in *. cbn [run] in *. congruence. Qed.

(** ** words of templates *)
Lemma tsplit_aux_ws a : forall cur x b, is_ws_t x = true -> tsplit_aux cur (a ++ x :: b) = tsplit_aux cur a ++ tsplit b.
Proof. induction a as [|i a IH]; intros cur x b X; cbn [app tsplit_aux].
  - rewrite X. destruct cur; reflexivity.
  - destruct (is_ws_t i); [destruct cur|]; rewrite IH by exact X; reflexivity. Qed.
Lemma tsplit_ws a x b : is_ws_t x = true -> tsplit (a ++ x :: b) = tsplit a ++ tsplit b. Proof. apply tsplit_aux_ws. Qed.
Definition word (w : tline) : Prop := w <> [] /\ Forall (fun i => is_ws_t i = false) w.
Lemma tsplit_aux_word w : forall cur, Forall (fun i => is_ws_t i = false) w -> tsplit_aux cur w = match rev w ++ cur with [] => [] | _ => [rev cur ++ w] end.
Proof. induction w as [|i w IH]; intros cur F; cbn [tsplit_aux rev app]; [rewrite app_nil_r; destruct cur; reflexivity|].
  inversion F as [|? ? Hi F']; subst. rewrite Hi, IH by exact F'. cbn [rev]. rewrite <- !app_assoc. cbn [app]. destruct (rev w); reflexivity. Qed.
Lemma tsplit_word w : word w -> tsplit w = [w].
Proof. intros [N F]. unfold tsplit. rewrite tsplit_aux_word by exact F. rewrite app_nil_r. destruct (rev w) eqn:E; [|reflexivity]. apply (f_equal (@rev titem)) in E. rewrite rev_involutive in E. contradiction. Qed.
Lemma tsplit_aux_words s : forall cur, Forall (fun i => is_ws_t i = false) cur -> Forall word (tsplit_aux cur s).
Proof. induction s as [|i s IH]; intros cur F; cbn [tsplit_aux].
  - destruct cur as [|x cur]; constructor; [|constructor]. split; [intros Q; apply (f_equal (@rev titem)) in Q; rewrite rev_involutive in Q; discriminate|]. now apply Forall_rev.
  - destruct (is_ws_t i) eqn:I.
    + destruct cur as [|x cur]; [now apply IH|]. constructor; [|apply IH; constructor]. split; [intros Q; apply (f_equal (@rev titem)) in Q; rewrite rev_involutive in Q; discriminate|]. now apply Forall_rev.
    + apply IH. now constructor. Qed.
Lemma tsplit_words s : Forall word (tsplit s). Proof. apply tsplit_aux_words. constructor. Qed.
Lemma tsplit_join ws : tsplit (tjoin ws) = concat (map tsplit ws).
Proof. induction ws as [|w ws IH]; [reflexivity|]. cbn [tjoin]. destruct ws as [|w2 ws]; [cbn; now rewrite app_nil_r|]. rewrite tsplit_ws by reflexivity. rewrite IH. reflexivity. Qed.
Lemma words_id ws : Forall word ws -> concat (map tsplit ws) = ws.
Proof. induction 1 as [|w ws H _ IH]; [reflexivity|]. cbn [map concat]. rewrite tsplit_word by exact H. cbn [app]. now rewrite IH. Qed.
Lemma tsplit_margin l : tsplit (margin ++ l) = tsplit l. Proof. reflexivity. Qed.

(** the first word with a letter *)
Fixpoint tw (ws : list tline) : list tline := match ws with [] => [] | w :: r => if has_alpha w then [] else w :: tw r end.
Fixpoint dw (ws : list tline) : list tline := match ws with [] => [] | w :: r => if has_alpha w then ws else dw r end.
Lemma tw_dw ws : ws = tw ws ++ dw ws.
Proof. induction ws as [|w ws IH]; [reflexivity|]. cbn [tw dw]. destruct (has_alpha w); [reflexivity|]. cbn [app]. now rewrite <- IH. Qed.
Lemma tw_app pre key : Forall (fun w => has_alpha w = false) pre -> tw (pre ++ key) = pre ++ tw key /\ dw (pre ++ key) = dw key.
Proof. induction 1 as [|w pre H _ IH]; [split; reflexivity|]. cbn [app tw dw]. rewrite H. destruct IH as [-> ->]. split; reflexivity. Qed.
Lemma tw_split pre key : Forall (fun w => has_alpha w = false) pre -> match key with [] => True | w :: _ => has_alpha w = true end -> tw (pre ++ key) = pre /\ dw (pre ++ key) = key.
Proof. intros P K. destruct (tw_app pre key P) as [-> ->]. destruct key as [|w key]; [split; [apply app_nil_r|reflexivity]|]. cbn [tw dw]. rewrite K. split; [apply app_nil_r|reflexivity]. Qed.
Lemma find_alpha_spec ws : match find_alpha ws with
  | Some n => firstn n ws = tw ws /\ skipn n ws = dw ws /\ dw ws <> []
  | None => tw ws = ws /\ dw ws = [] end.
Proof. induction ws as [|w ws IH]; [split; reflexivity|]. cbn [find_alpha tw dw]. destruct (has_alpha w); [repeat split; discriminate|].
  destruct (find_alpha ws) as [n|]; cbn [option_map firstn skipn].
  - destruct IH as [-> [-> N]]. auto.
  - destruct IH as [-> ->]. split; reflexivity. Qed.
Lemma put_words first addition n ws l : Forall word ws -> l = tjoin (insert_at n addition ws) ->
  tsplit (if first || starts5 l then l else margin ++ l) = firstn n ws ++ tsplit addition ++ skipn n ws.
Proof. intros F ->. assert (E : tsplit (tjoin (insert_at n addition ws)) = firstn n ws ++ tsplit addition ++ skipn n ws).
  { rewrite tsplit_join. unfold insert_at. rewrite map_app, concat_app. cbn [map concat]. rewrite !words_id; [reflexivity| |].
    - rewrite <- (firstn_skipn n ws) in F. apply Forall_app in F. apply F.
    - rewrite <- (firstn_skipn n ws) in F. apply Forall_app in F. apply F. }
  destruct (first || starts5 _); [exact E|]. now rewrite tsplit_margin. Qed.
Lemma add_rows_words addition rows : forall first, rows <> [] ->
  concat (map tsplit (add_symbol_rows first addition rows)) = tw (concat (map tsplit rows)) ++ tsplit addition ++ dw (concat (map tsplit rows)).
Proof. induction rows as [|row rows IH]; intros first N; [contradiction|]. cbn [add_symbol_rows map concat].
  pose proof (find_alpha_spec (tsplit row)) as FA. pose proof (tsplit_words row) as FW. destruct (find_alpha (tsplit row)) as [n|].
  - destruct FA as [F1 [F2 F3]]. cbn [map concat]. rewrite (put_words first addition n (tsplit row) _ FW eq_refl), F1, F2.
    pose proof (tw_dw (tsplit row)) as E. assert (A : Forall (fun w => has_alpha w = false) (tw (tsplit row))). { clear. induction (tsplit row) as [|w r IH]; cbn [tw]; [constructor|]. destruct (has_alpha w) eqn:E; constructor; auto. }
    rewrite E at 3 4. rewrite <- !app_assoc. assert (K : match dw (tsplit row) ++ concat (map tsplit rows) with [] => True | w :: _ => has_alpha w = true end).
    { destruct (dw (tsplit row)) as [|w r] eqn:D; [contradiction|]. cbn [app]. clear - D. induction (tsplit row) as [|x xs IH]; cbn [dw] in D; [discriminate|]. destruct (has_alpha x) eqn:X; [injection D as <- <-; exact X|now apply IH]. }
    destruct (tw_split _ _ A K) as [-> ->]. reflexivity.
  - destruct FA as [F1 F2]. destruct rows as [|r2 rows].
    + cbn [map concat]. rewrite (put_words first addition (length (tsplit row)) (tsplit row) _ FW eq_refl), firstn_all, skipn_all, !app_nil_r, F1, F2, app_nil_r. reflexivity.
    + change (tsplit row ++ concat (map tsplit (add_symbol_rows false addition (r2 :: rows))) = tw (tsplit row ++ concat (map tsplit (r2 :: rows))) ++ tsplit addition ++ dw (tsplit row ++ concat (map tsplit (r2 :: rows)))).
      rewrite IH by discriminate. assert (A : Forall (fun w => has_alpha w = false) (tsplit row)). { rewrite <- F1. clear. induction (tsplit row) as [|w r IH]; cbn [tw]; [constructor|]. destruct (has_alpha w) eqn:E; constructor; auto. }
      destruct (tw_app _ (concat (map tsplit (r2 :: rows))) A) as [-> ->]. now rewrite <- app_assoc. Qed.

Lemma keyword_alpha w : keyword w -> has_alpha w = true.
Proof. destruct w as [|[a|h] w]; cbn [keyword]; intros K; try contradiction. unfold has_alpha. cbn [existsb]. destruct K as [->|[-> K]]; [reflexivity|]. destruct w as [|[b|h] w]; try contradiction. cbn [existsb]. rewrite K. apply orb_true_r. Qed.
Definition hd_words (m : Z) (w0 w1 : nat) : list tline := [Hole w0] :: [Hole w1] :: (if (m =? 0)%Z then [] else [[Ch tilde]]).
Definition lpar : tline := [Ch "("%char].
Definition rpar : tline := [Ch ")"%char].
Lemma get_m_ord c n m geo key : ordinary c n m geo key -> get_m c = Some m.
Proof. intros [_ _ _ [gs [ks [V _]]] _]. unfold get_m. rewrite V. reflexivity. Qed.
Lemma add_symbol_words c n m geo key addition : ordinary c n m geo key ->
  exists w0 w1 rows, concat (map tsplit (c_input c)) = hd_words m w0 w1 ++ geo ++ key /\
    add_symbol addition true c = Ok rows /\
    concat (map tsplit rows) = hd_words m w0 w1 ++ lpar :: geo ++ rpar :: tsplit addition ++ key.
Proof. intros O. pose proof (get_m_ord _ _ _ _ _ O) as GM. destruct O as [[w0 [w1 [row0 [rest [rows [EI [T E]]]]]]] OG OK _ _].
  exists w0, w1. unfold add_symbol. rewrite EI, T, GM.
  set (ws1 := if (m =? 0)%Z then [Hole w0] :: ([Hole w1] ++ text (s2l " (")) :: rest else [Hole w0] :: [Hole w1] :: ([Ch tilde] ++ text (s2l " (")) :: rest).
  assert (A : append_word (if (m =? 0)%Z then 1 else 2) (text (s2l " (")) ([Hole w0] :: [Hole w1] :: (if (m =? 0)%Z then rest else [Ch tilde] :: rest)) =
     Ok ws1) by (unfold ws1; destruct (m =? 0)%Z; reflexivity).
  rewrite A. cbn [bind]. eexists. split; [|split; [reflexivity|]].
  - cbn [map concat]. rewrite T. unfold hd_words. destruct (m =? 0)%Z; cbn [app]; now rewrite <- E.
  - rewrite add_rows_words by discriminate. cbn [map concat]. rewrite tsplit_join.
    assert (R : Forall word rest). { pose proof (tsplit_words row0) as F. rewrite T in F. inversion F as [|? ? _ F1]; subst. inversion F1 as [|? ? _ F2]; subst. destruct (m =? 0)%Z; [exact F2|]. now inversion F2. }
    assert (W : concat (map tsplit ws1) = hd_words m w0 w1 ++ lpar :: rest).
    { unfold hd_words, ws1. destruct (m =? 0)%Z; cbn [map concat]; rewrite words_id by exact R; reflexivity. }
    rewrite W. assert (EQ : (hd_words m w0 w1 ++ lpar :: rest) ++ concat (map tsplit rows) = (hd_words m w0 w1 ++ lpar :: geo) ++ key).
    { rewrite <- !app_assoc. cbn [app]. f_equal. f_equal. exact E. }
    rewrite EQ.
    assert (P : Forall (fun w => has_alpha w = false) (hd_words m w0 w1 ++ lpar :: geo)).
    { apply Forall_app. split; [unfold hd_words; destruct (m =? 0)%Z; repeat constructor|]. constructor; [reflexivity|]. eapply Forall_impl; [|exact OG]. intros w Hw. apply Hw. }
    destruct (tw_split _ key P) as [-> ->]. { destruct key; [exact I|]. now apply keyword_alpha. }
    rewrite <- app_assoc. cbn [app]. change (text (s2l ") ") ++ addition) with (rpar ++ Ch sp :: addition). rewrite tsplit_ws by reflexivity. reflexivity. Qed.
