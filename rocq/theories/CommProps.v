(** C122: the comments of a card. *)
From Coq Require Import Lia.
From Verif Require Import PyBase PyStr PyText CommModel CommSpec.
Open Scope nat_scope.

Lemma to_newline_ok a r : ~ In nl a -> to_newline (a ++ nl :: r) = Some (a ++ [nl]).
Proof. induction a as [|c a IH]; intros H; cbn [app to_newline]; [reflexivity|]. destruct (Ascii.eqb_spec c nl) as [->|_]; [destruct H; left; reflexivity|]. rewrite IH by (intros X; apply H; right; exact X). reflexivity. Qed.
Lemma to_newline_none a : ~ In nl a -> to_newline a = None.
Proof. induction a as [|c a IH]; intros H; cbn [to_newline]; [reflexivity|]. destruct (Ascii.eqb_spec c nl) as [->|_]; [destruct H; left; reflexivity|]. rewrite IH by (intros X; apply H; right; exact X). reflexivity. Qed.
Lemma d_comment_ok a b r : ~ In "$"%char a -> ~ In nl b -> d_comment (a ++ "$"%char :: b ++ nl :: r) = Some ("$"%char :: b ++ [nl]).
Proof.
  intros Ha Hb. induction a as [|c a IH]; cbn [app d_comment].
  - change (Ascii.eqb "$" "$") with true. cbn iota. rewrite to_newline_ok by exact Hb. reflexivity.
  - destruct (Ascii.eqb_spec c "$"%char) as [->|_]; [destruct Ha; left; reflexivity|]. apply IH. intros X. apply Ha. right. exact X.
Qed.
Lemma d_comment_none a : ~ In "$"%char a -> d_comment a = None.
Proof. induction a as [|c a IH]; intros H; cbn [d_comment]; [reflexivity|]. destruct (Ascii.eqb_spec c "$"%char) as [->|_]; [destruct H; left; reflexivity|]. apply IH. intros X. apply H. right. exact X. Qed.
Lemma d_comment_open a : ~ In nl a -> d_comment a = None.
Proof. induction a as [|c a IH]; intros H; cbn [d_comment]; [reflexivity|]. assert (H' : ~ In nl a) by (intros X; apply H; right; exact X). rewrite to_newline_none by exact H'. rewrite IH by exact H'. destruct (Ascii.eqb c "$"); reflexivity. Qed.
Lemma c_comment_ok text : ~ In nl text -> CommentLine text -> c_comment (text ++ [nl]) = Some (text ++ [nl]).
Proof.
  intros H (c & w & r & -> & Hc & Hw). cbn [app c_comment]. assert (X : (Ascii.eqb c "C" || Ascii.eqb c "c") = true) by (destruct Hc as [->| ->]; reflexivity). rewrite X, Hw. cbn [andb].
  rewrite to_newline_ok by (intros Y; apply H; right; right; exact Y). reflexivity.
Qed.
Lemma c_comment_none text : ~ In nl text -> ~ CommentLine text -> c_comment (text ++ [nl]) = None.
Proof.
  intros H N. destruct text as [|c [|w r]]; cbn [app c_comment]; [reflexivity| |].
  - destruct ((Ascii.eqb c "C" || Ascii.eqb c "c") && is_ws nl); reflexivity.
  - destruct ((Ascii.eqb c "C" || Ascii.eqb c "c") && is_ws w) eqn:B; [|reflexivity]. destruct N. apply Bool.andb_true_iff in B as [B1 B2]. exists c, w, r. split; [reflexivity|]. split; [|exact B2].
    apply Bool.orb_true_iff in B1 as [B1|B1]; apply Ascii.eqb_eq in B1; auto.
Qed.
Lemma commentline_dec text : CommentLine text \/ ~ CommentLine text.
Proof.
  destruct text as [|c [|w r]]; [right; intros (? & ? & ? & X & _); discriminate X..|]. destruct ((Ascii.eqb c "C" || Ascii.eqb c "c") && is_ws w) eqn:B.
  - left. apply Bool.andb_true_iff in B as [B1 B2]. exists c, w, r. split; [reflexivity|]. split; [|exact B2]. apply Bool.orb_true_iff in B1 as [B1|B1]; apply Ascii.eqb_eq in B1; auto.
  - right. intros (c' & w' & r' & X & Hc & Hw). injection X as <- <- <-. rewrite Hw in B. destruct Hc as [->| ->]; discriminate B.
Qed.
Lemma dollar_split text : ~ In "$"%char text \/ exists t, DollarComment text t.
Proof.
  induction text as [|c text IH]; [left; intros []|]. destruct (Ascii.eqb_spec c "$"%char) as [->|N]; [right; exists ("$"%char :: text), [], text; repeat split; intros []|].
  destruct IH as [IH|(t & a & b & -> & A & ->)]; [left; intros [X|X]; [congruence|contradiction]|]. right. exists ("$"%char :: b), (c :: a), b. split; [reflexivity|]. split; [|reflexivity]. intros [X|X]; [congruence|contradiction].
Qed.
Lemma line_ok acc text line : Line text line -> exists t, Shown text t /\ fold_left add_match [c_comment line; d_comment line] acc = acc ++ t.
Proof.
  intros [H ->]. cbn [fold_left].
  assert (D : forall a b, text = a ++ "$"%char :: b -> ~ In "$"%char a -> d_comment (text ++ [nl]) = Some ("$"%char :: b ++ [nl])).
  { intros a b -> Ha. rewrite <- app_assoc. cbn [app]. apply (d_comment_ok a b []); [exact Ha|]. intros X. apply H. apply in_or_app. right. right. exact X. }
  destruct (commentline_dec text) as [C|C], (dollar_split text) as [N|(t & a & b & Et & Ha & Eb)].
  - rewrite c_comment_ok by assumption. rewrite d_comment_none by (intros X; apply in_app_or in X as [X|[X|[]]]; [contradiction|discriminate X]). exists (text ++ [nl]). split; [apply ShownLine; assumption|reflexivity].
  - rewrite c_comment_ok by assumption. rewrite (D a b Et Ha). exists (text ++ [nl] ++ t ++ [nl]). split; [apply ShownTwice; [assumption|exists a, b; auto]|]. cbn [add_match]. subst t. rewrite <- !app_assoc. reflexivity.
  - rewrite c_comment_none by assumption. rewrite d_comment_none by (intros X; apply in_app_or in X as [X|[X|[]]]; [contradiction|discriminate X]). exists []. split; [apply ShownNothing; assumption|]. cbn [add_match]. rewrite app_nil_r. reflexivity.
  - rewrite c_comment_none by assumption. rewrite (D a b Et Ha). exists (t ++ [nl]). split; [apply ShownDollar; [assumption|exists a, b; auto]|]. cbn [add_match]. subst t. reflexivity.
Qed.
Lemma shown_unique text t t' : Shown text t -> Shown text t' -> t = t'.
Proof.
  assert (U : forall x y, DollarComment text x -> DollarComment text y -> x = y).
  { intros x y (a & b & E & A & ->) (a' & b' & E' & A' & ->). rewrite E in E'. clear E. revert a' A' E'. induction a as [|c a IH]; intros [|c' a'] A' E'; cbn [app] in E'.
    - congruence.
    - injection E' as <- _. destruct A'. left. reflexivity.
    - injection E' as -> _. destruct A. left. reflexivity.
    - injection E' as _ E'. apply (IH (fun X => A (or_intror X)) a'); [intros X; apply A'; right; exact X|exact E']. }
  assert (N : forall x, DollarComment text x -> In "$"%char text) by (intros x (a & b & -> & _); apply in_or_app; right; left; reflexivity).
  intros [C1 D1|x C1 D1|x C1 D1|C1 D1] [C2 D2|y C2 D2|y C2 D2|C2 D2]; try contradiction; try reflexivity; try (specialize (N _ D1); contradiction); try (specialize (N _ D2); contradiction); rewrite (U _ _ D1 D2); reflexivity.
Qed.

(* C122: of every line of the card, in order, exactly what is written as comment is reported *)
Theorem C122_comments : forall texts lines, Forall2 Line texts lines -> exists ts, Forall2 Shown texts ts /\ get_comments lines = concat ts.
Proof.
  intros texts lines F. unfold get_comments.
  assert (G : forall acc, exists ts, Forall2 Shown texts ts /\ fold_left (fun comments line => fold_left add_match [c_comment line; d_comment line] comments) lines acc = acc ++ concat ts).
  { induction F as [|x l xs ls H _ IH]; intros acc; [exists []; split; [constructor|cbn; rewrite app_nil_r; reflexivity]|].
    destruct (line_ok acc x l H) as (t & S1 & E). cbn [fold_left] in *. rewrite E. destruct (IH (acc ++ t)) as (ts & S2 & E2). exists (t :: ts). split; [constructor; assumption|]. rewrite E2, <- app_assoc. reflexivity. }
  exact (G []).
Qed.
Print Assumptions C122_comments.
(* C122: and what is reported of a line is determined by the line *)
Theorem C122_determined : forall text t t', Shown text t -> Shown text t' -> t = t'.
Proof. exact shown_unique. Qed.
Print Assumptions C122_determined.
(* C122: a card without C lines and dollars has no comments *)
Theorem C122_none : forall texts lines, Forall2 Line texts lines -> (get_comments lines = [] <-> Forall (fun t => ~ CommentLine t /\ ~ In "$"%char t) texts).
Proof.
  intros texts lines F. destruct (C122_comments texts lines F) as (ts & S1 & E). rewrite E. clear E F lines. induction S1 as [|x t xs ts H _ IH]; [split; [constructor|reflexivity]|].
  cbn [concat]. split.
  - intros X. apply app_eq_nil in X as [X Y]. constructor; [|apply IH; exact Y]. destruct H as [? ?|? ? ?|? ? ?|? ?]; [destruct x; discriminate X|destruct t; discriminate X|destruct x; discriminate X|auto].
  - intros X. inversion X as [|? ? [A B] C]; subst. apply IH in C. rewrite C, app_nil_r. destruct H as [? ?|? ? (a & b & -> & _)|? ? ?|? ?]; try contradiction; [|reflexivity]. destruct B. apply in_or_app. right. left. reflexivity.
Qed.
Print Assumptions C122_none.
(* C122: a comment on a last line without newline is lost *)
Theorem C122_last_line_refuted : forall lines line, ~ In nl line -> get_comments (lines ++ [line]) = get_comments lines.
Proof.
  intros lines line H. unfold get_comments. rewrite fold_left_app. cbn [fold_left]. rewrite d_comment_open by exact H. assert (X : c_comment line = None).
  { destruct line as [|c [|w r]]; [reflexivity..|]. cbn [c_comment]. rewrite to_newline_none by (intros Y; apply H; right; right; exact Y). destruct ((Ascii.eqb c "C" || Ascii.eqb c "c") && is_ws w); reflexivity. }
  rewrite X. reflexivity.
Qed.
Print Assumptions C122_last_line_refuted.
(* C122: the end of a C line from its first dollar is reported twice; a C line that is indented, or has nothing after the C, is not reported *)
Theorem C122_once_refuted : forall a b, ~ In nl (a ++ "$"%char :: b) -> CommentLine (a ++ "$"%char :: b) -> ~ In "$"%char a ->
  get_comments [a ++ "$"%char :: b ++ [nl]] = a ++ "$"%char :: b ++ [nl] ++ "$"%char :: b ++ [nl].
Proof.
  intros a b H C A. destruct (line_ok [] (a ++ "$"%char :: b) (a ++ "$"%char :: b ++ [nl])) as (t & S1 & E). { split; [exact H|]. rewrite <- app_assoc. reflexivity. }
  unfold get_comments. cbn [fold_left] in *. rewrite E. cbn [app]. assert (X : t = (a ++ "$"%char :: b) ++ [nl] ++ ("$"%char :: b) ++ [nl]). { apply (shown_unique (a ++ "$"%char :: b)); [exact S1|]. apply ShownTwice; [exact C|]. exists a, b. auto. }
  rewrite X, <- app_assoc. reflexivity.
Qed.
Print Assumptions C122_once_refuted.
Theorem C122_every_comment_line_refuted : (forall r, get_comments [" "%char :: "c"%char :: " "%char :: r] = match d_comment r with Some t => t | None => [] end) /\ get_comments [["c"%char; nl]] = [].
Proof. split; [|reflexivity]. intros r. unfold get_comments. cbn [fold_left c_comment d_comment Ascii.eqb Bool.eqb orb andb add_match]. destruct (d_comment r); reflexivity. Qed.
Print Assumptions C122_every_comment_line_refuted.

Example C122_witness : get_comments [s2l "1 0 -1 $ inside" ++ [nl]; s2l "c a note" ++ [nl]; s2l "  imp:n=1" ++ [nl]] = s2l "$ inside" ++ [nl] ++ s2l "c a note" ++ [nl]
  /\ Line (s2l "c a note") (s2l "c a note" ++ [nl]) /\ CommentLine (s2l "c a note") /\ DollarComment (s2l "1 0 -1 $ inside") (s2l "$ inside").
Proof.
  split; [vm_compute; reflexivity|]. split; [split; [intros X; cbn in X; repeat (destruct X as [X|X]; [discriminate X|]); exact X|reflexivity]|].
  split; [exists "c"%char, " "%char, (s2l "a note"); repeat split; right; reflexivity|]. exists (s2l "1 0 -1 "), (s2l " inside"). split; [reflexivity|]. split; [|reflexivity]. intros X. cbn in X. repeat (destruct X as [X|X]; [discriminate X|]). exact X.
Qed.
