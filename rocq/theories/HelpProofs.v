(** Lemmas for HelpProps.v. *)
From Coq Require Import Lia ZArith.
From Verif Require Import PyBase PyStr PyText PyStrLemmas D1SModel D1SProofs2 MatInfoSpec MatInfoProofs2 DataModel LibModel OutModel FispModel EeoutModel TalSumModel PathsModel InpModel EliteModel MatModel XsModel XsSpec XsProofs HelpSpec.
Open Scope nat_scope.

Lemma range_iff a b c : ((a <=? N_of_ascii c) && (N_of_ascii c <=? b))%N = true <-> between a b c.
Proof. unfold between. rewrite Bool.andb_true_iff, !N.leb_le. reflexivity. Qed.
Lemma letter_iff c : D1SModel.is_letter c = true <-> Letter c.
Proof. unfold D1SModel.is_letter, Letter. cbv zeta. rewrite Bool.orb_true_iff, !range_iff. reflexivity. Qed.
Lemma digit_iff c : is_digit c = true <-> Digit c.
Proof. unfold is_digit, Digit. cbv zeta. apply range_iff. Qed.
Lemma blank_iff c : is_ws c = true <-> Blank c.
Proof. unfold is_ws, Blank. cbv zeta. rewrite Bool.orb_true_iff, !range_iff. reflexivity. Qed.

Lemma str_leb_iff a b : D1SModel.str_leb a b = true <-> a = b \/ str_lt a b.
Proof.
  split.
  - intros H. destruct (D1SModel.str_leb b a) eqn:R; [left|right; apply str_lt_leb; exact R]. revert b H R. induction a as [|x a IH]; intros [|y b] H R; cbn [D1SModel.str_leb] in *; try discriminate; [reflexivity|].
    apply Bool.orb_true_iff in H. apply Bool.orb_true_iff in R. rewrite Bool.andb_true_iff, N.ltb_lt, Ascii.eqb_eq in H, R. destruct H as [H|[-> H]], R as [R|[E R]]; try lia; [subst y; lia|]. f_equal. apply IH; assumption.
  - intros [->|H]; [|apply str_lt_leb in H; apply str_leb_total; exact H]. induction b as [|y b IH]; cbn [D1SModel.str_leb]; [reflexivity|]. rewrite IH. rewrite (proj2 (Ascii.eqb_eq y y) eq_refl). apply Bool.orb_true_r.
Qed.

Lemma not_directory w l : split l = w -> ~ starts_directory l -> match w with x :: _ => str_eqb x directory = false | [] => True end.
Proof. intros E N. destruct w as [|x w]; [exact I|]. destruct (str_eqb x directory) eqn:X; [|reflexivity]. apply str_eqb_eq in X. subst x. destruct N. exists w. exact E. Qed.
Lemma to_directory_none a rest : Forall (fun l => ~ starts_directory l) a -> (rest = [] \/ exists l r, rest = l :: r /\ split l = []) ->
  forall l0, ~ starts_directory l0 -> to_directory (split l0) (a ++ rest) = Err IndexError.
Proof.
  intros F R. induction F as [|x a H _ IH]; intros l0 N; cbn [app].
  - pose proof (not_directory _ l0 eq_refl N) as D. destruct R as [->|(l & r & -> & E)]; cbn [to_directory]; destruct (split l0) as [|w ws]; try reflexivity; rewrite D; [reflexivity|]. rewrite E. destruct r; reflexivity.
  - pose proof (not_directory _ l0 eq_refl N) as D. cbn [to_directory]. destruct (split l0) as [|w ws]; [reflexivity|]. rewrite D. exact (IH x H).
Qed.
Lemma read_awr_none a rest : Forall (fun l => ~ starts_directory l) a -> (rest = [] \/ exists l r, rest = l :: r /\ split l = []) ->
  forall d, (do x <- read_awr d (a ++ rest); let '(awr, ws, r3) := x in to_directory ws r3) = Err IndexError.
Proof.
  intros F R. induction F as [|x a H F IH]; intros d; cbn [app].
  - destruct R as [->|(l & r & -> & E)]; cbn [read_awr]; [reflexivity|]. rewrite E. reflexivity.
  - cbn [read_awr]. cbv zeta. destruct (Nat.odd (length (split x))) eqn:O; [cbn [bind]; exact (to_directory_none a rest F R x H)|].
    pose proof (not_directory _ x eq_refl H) as D. destruct (split x) as [|w ws] eqn:W; [reflexivity|]. rewrite D. apply IH.
Qed.
Lemma no_directory_refused dp l1 l2 a rest : FirstLine dp l1 -> SecondLine l2 -> Forall (fun l => ~ starts_directory l) a -> (rest = [] \/ exists l r, rest = l :: r /\ split l = []) ->
  read_xsdir (l1 :: l2 :: a ++ rest) = Err IndexError.
Proof.
  intros H1 H2 F R. unfold read_xsdir. cbn [readline]. rewrite (datapath_ok _ _ H1). cbn [bind]. rewrite (proj1 (title_ok _) H2). cbn [negb].
  pose proof (read_awr_none a rest F R []) as X. destruct (read_awr [] (a ++ rest)) as [[[awr ws] r3]|e]; cbn [bind] in *; [|congruence]. rewrite X. reflexivity.
Qed.
