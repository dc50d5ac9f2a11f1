(** C44: an edited cell is again an ordinary one, so that edits can be chained. *)
From Coq Require Import Lia ZArith.
From Verif Require Import PyBase PyLemmas PyStr PyStrLemmas PyText D1SProofs2 LibModel MatModel MatProofs InpModel InpSpec InpGeomSpec InpProofs InpProofs2 InpProofs6 InpGeomProofs InpGeomProofs2 InpGeomProofs3.
Open Scope nat_scope.

Lemma first_row_head row rows addition first hd r : tsplit row = hd ++ r -> Forall (fun w => has_alpha w = false) hd ->
  exists row' rows' r', add_symbol_rows first addition (row :: rows) = row' :: rows' /\ tsplit row' = hd ++ r'.
Proof.
  intros E H. cbn [add_symbol_rows]. pose proof (find_alpha_spec (tsplit row)) as F. pose proof (tsplit_words row) as W.
  destruct (find_alpha (tsplit row)) as [n|].
  - destruct F as [F1 [F2 F3]]. eexists. exists rows. exists (tw r ++ tsplit addition ++ dw r). split; [reflexivity|].
    rewrite (put_words first addition n (tsplit row) _ W eq_refl), F1, F2, E. destruct (tw_app hd r H) as [-> ->]. now rewrite <- app_assoc.
  - destruct rows as [|r2 rows].
    + eexists. exists []. exists (r ++ tsplit addition). split; [reflexivity|]. rewrite (put_words first addition (length (tsplit row)) (tsplit row) _ W eq_refl), firstn_all, skipn_all, E. now rewrite app_nil_r, <- app_assoc.
    + exists row. eexists. exists r. split; [reflexivity|exact E].
Qed.
Lemma add_symbol_head c n m geo key addition : ordinary c n m geo key ->
  exists w0 w1 row rows r, add_symbol addition true c = Ok (row :: rows) /\ tsplit row = hd_words m w0 w1 ++ r /\
    r ++ concat (map tsplit rows) = (lpar :: geo ++ rpar :: tsplit addition) ++ key.
Proof.
  intros O. pose proof (get_m_ord _ _ _ _ _ O) as GM. pose proof (add_symbol_words c n m geo key addition O) as (w0 & w1 & rows & A & B & C).
  destruct O as [[v0 [v1 [row0 [rest [rs [EI [T E]]]]]]] OG OK _ _].
  unfold add_symbol in B. rewrite EI, T, GM in B.
  set (ws1 := if (m =? 0)%Z then [Hole v0] :: ([Hole v1] ++ text (s2l " (")) :: rest else [Hole v0] :: [Hole v1] :: ([Ch tilde] ++ text (s2l " (")) :: rest) in *.
  assert (AW : append_word (if (m =? 0)%Z then 1 else 2) (text (s2l " (")) ([Hole v0] :: [Hole v1] :: (if (m =? 0)%Z then rest else [Ch tilde] :: rest)) = Ok ws1) by (unfold ws1; destruct (m =? 0)%Z; reflexivity).
  rewrite AW in B. cbn [bind] in B.
  assert (R : Forall word rest). { pose proof (tsplit_words row0) as F. rewrite T in F. inversion F as [|? ? _ F1]; subst. inversion F1 as [|? ? _ F2]; subst. destruct (m =? 0)%Z; [exact F2|]. now inversion F2. }
  assert (W : tsplit (tjoin ws1) = hd_words m v0 v1 ++ lpar :: rest). { rewrite tsplit_join. unfold hd_words, ws1. destruct (m =? 0)%Z; cbn [map concat]; rewrite words_id by exact R; reflexivity. }
  assert (P : Forall (fun w => has_alpha w = false) (hd_words m v0 v1)) by (unfold hd_words; destruct (m =? 0)%Z; repeat constructor).
  destruct (first_row_head (tjoin ws1) rs (text (s2l ") ") ++ addition) true (hd_words m v0 v1) (lpar :: rest) W P) as (row' & rows' & r' & E1 & E2).
  assert (EQ : rows = row' :: rows') by congruence. subst rows.
  exists v0, v1, row', rows', r'. split; [|split; [exact E2|]].
  - unfold add_symbol. rewrite EI, T, GM, AW. cbn [bind]. congruence.
  - cbn [map concat] in C. rewrite E2, <- app_assoc in C. cbn [map concat] in A.
    assert (H : length (hd_words m v0 v1) = length (hd_words m w0 w1)) by (unfold hd_words; destruct (m =? 0)%Z; reflexivity).
    assert (J : forall (A : Type) (a b c d : list A), length a = length b -> a ++ c = b ++ d -> c = d).
    { clear. induction a as [|x a IH]; intros [|y b] c d L H; try discriminate L; [exact H|]. cbn [app] in H. injection H as _ H. injection L as L. exact (IH b c d L H). }
    rewrite (J _ _ _ _ _ H C). cbn [app]. f_equal. now rewrite <- app_assoc.
Qed.
Lemma edited_ordinary c n m geo key aw x num c' : ordinary c n m geo key -> word aw -> has_alpha aw = false -> no_tilde aw -> holes aw = 1 ->
  (do rows <- add_symbol (aw ++ text (s2l " ")) true c;
   let c1 := renumbered num (mkCard (c_name c) (c_values c) rows (c_hidden c)) in
   Ok (with_values c1 (insert_value (x, Ksur) (c_values c1)))) = Ok c' ->
  ordinary c' (match num with Some z => z | None => n end) m (lpar :: geo ++ [rpar; aw]) key /\ c_hidden c' = c_hidden c.
Proof.
  intros O W A NT H1 E. destruct (add_symbol_head c n m geo key (aw ++ text (s2l " ")) O) as (w0 & w1 & row & rows & r & AS & T & R).
  rewrite AS in E. cbn [bind] in E. pose proof O as O'. destruct O' as [_ OG OK [gs [ks [EV [LG [NG [FG FK]]]]]] OD].
  destruct (renumbered_eq num (mkCard (c_name c) (c_values c) (row :: rows) (c_hidden c)) n m gs ks (row :: rows) (c_hidden c) (c_name c)) as [nm' [E1 _]]; [now rewrite EV|].
  rewrite E1 in E. cbn [c_values with_values c_input c_hidden c_name] in E. rewrite insert_after_geometry in E by assumption. injection E as <-.
  assert (TS : tsplit (aw ++ text (s2l " ")) = [aw]). { change (text (s2l " ")) with [Ch sp]. rewrite tsplit_ws by reflexivity. rewrite tsplit_word by exact W. reflexivity. }
  rewrite TS in R. split; [|reflexivity]. constructor; cbn [c_input c_values c_hidden].
  - exists w0, w1, row, r, rows. split; [reflexivity|]. split; [rewrite T; unfold hd_words; destruct (m =? 0)%Z; reflexivity|exact R].
  - constructor; [split; [reflexivity|intros [Q|[]]; discriminate]|]. apply Forall_app. split; [exact OG|]. constructor; [split; [reflexivity|intros [Q|[]]; discriminate]|]. constructor; [auto|constructor].
  - exact OK.
  - exists (gs ++ [(x, Ksur)]), ks. split; [|split; [|split; [|split]]].
    + rewrite <- app_assoc. reflexivity.
    + rewrite app_length, LG. cbn [length]. unfold hole_count. cbn [concat]. rewrite concat_app. cbn [concat].
      rewrite filter_app, app_nil_r. cbn [lpar filter app length]. rewrite filter_app. cbn [rpar app filter]. rewrite !app_length. unfold holes in H1. cbn [length app filter]. 
      change (filter (fun i : titem => match i with Hole _ => true | Ch _ => false end) aw) with (filter (fun i => match i with Hole _ => true | Ch _ => false end) aw). lia.
    + destruct gs; discriminate.
    + apply Forall_app. split; [exact FG|]. constructor; [left; reflexivity|constructor].
    + exact FK.
  - exact OD.
Qed.
