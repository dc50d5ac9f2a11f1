(** Proofs for C123. *)
From Coq Require Import ZArith QArith Lia Lqa.
From Verif Require Import PyBase PyStr PyText PyStrLemmas PyFmtLemmas AceModel RssaModel RssaInfoModel RssaPlotModel RssaPlotSpec InpProofs2.
Open Scope nat_scope.

Lemma int_log10_spec v : (0 < v)%Q -> exists m, int_log10 v = Ok m /\
  ((1 <= v)%Q -> (ten m <= v /\ v < ten (m + 1))%Q /\ (0 <= m)%Z) /\ ((v < 1)%Q -> (ten (m - 1) < v /\ v <= ten m)%Q /\ (m <= 0)%Z).
Proof.
  intros H. unfold int_log10. destruct (Qeq_bool v 0) eqn:E0; [apply Qeq_bool_iff in E0; lra|]. destruct (Qle_bool v 0) eqn:E1; [apply Qle_bool_iff in E1; lra|].
  destruct (ilog10_spec v H) as [A B]. cbv zeta. set (x := ilog10 v) in *. change ten with p10. destruct (Qle_bool 1 v) eqn:E2.
  - apply Qle_bool_iff in E2. exists x. split; [reflexivity|]. split; [|lra]. intros _. split; [split; assumption|].
    assert (0 < x + 1)%Z; [|lia]. apply p10_lt_inv. change (p10 0) with 1%Q. lra.
  - assert (L : (v < 1)%Q). { apply Qnot_le_lt. intros X. apply Qle_bool_iff in X. congruence. }
    assert (X0 : (x < 0)%Z). { apply p10_lt_inv. change (p10 0) with 1%Q. lra. }
    destruct (Qeq_bool v (p10 x)) eqn:E3.
    + apply Qeq_bool_iff in E3. exists x. split; [reflexivity|]. split; [lra|]. intros _. split; [|lia]. split; [|lra]. rewrite E3. replace x with (x - 1 + 1)%Z at 2 by lia. rewrite p10_succ. pose proof (p10_pos (x - 1)). lra.
    + exists (x + 1)%Z. split; [reflexivity|]. split; [lra|]. intros _. replace (x + 1 - 1)%Z with x by lia. split; [|lia]. split; [|lra].
      apply Qle_lt_or_eq in A. destruct A as [A|A]; [exact A|]. symmetry in A. apply Qeq_bool_iff in A. congruence.
Qed.
Lemma ten_le a b : (a <= b)%Z -> (ten a <= ten b)%Q.
Proof. intros H. change ten with p10. destruct (Z.eq_dec a b) as [->|N]; [apply Qle_refl|]. apply Qlt_le_weak. destruct (Qlt_le_dec (p10 a) (p10 b)) as [X|X]; [exact X|]. exfalso.
  assert (b < a + 1)%Z; [|lia]. apply p10_lt_inv. rewrite p10_succ. pose proof (p10_pos a). lra. Qed.

Lemma abs_no_us z : Forall (fun c => c <> "_"%char) (str_of_Z z).
Proof.
  apply Forall_forall. intros c I ->. assert (D : forall n, Forall (fun c => is_digit c = true) (str_of_N n)) by (intros n; apply str_of_N_digits).
  unfold str_of_Z in I. destruct z as [|p|p].
  - pose proof (proj1 (Forall_forall _ _) (D 0%N) _ I) as X. discriminate X.
  - pose proof (proj1 (Forall_forall _ _) (D (Z.to_N (Z.pos p))) _ I) as X. discriminate X.
  - destruct I as [I|I]; [discriminate I|]. pose proof (proj1 (Forall_forall _ _) (D (N.pos p)) _ I) as X. discriminate X.
Qed.
(* two texts without the separator, then the separator *)
Lemma until_sep (c : ascii) a b x y : ~ In c a -> ~ In c b -> a ++ c :: x = b ++ c :: y -> a = b /\ x = y.
Proof.
  revert b. induction a as [|u a IH]; intros [|v b] Ha Hb E; cbn [app] in E.
  - injection E as E. auto.
  - injection E as E1 _. destruct Hb. left. congruence.
  - injection E as E1 _. destruct Ha. left. congruence.
  - injection E as E1 E2. destruct (IH b) as [-> ->]; [intros X; apply Ha; now right|intros X; apply Hb; now right|exact E2|]. split; [congruence|reflexivity].
Qed.
Lemma no_us z : ~ In "_"%char (str_of_Z z).
Proof. intros I. exact (proj1 (Forall_forall _ _) (abs_no_us z) _ I eq_refl). Qed.
Definition settings (p : particle) (nz nt : Z) (tail : str) : str := particle_text p ++ s2l "_z" ++ str_of_Z nz ++ s2l "_theta" ++ str_of_Z nt ++ tail.
Lemma settings_split p q nz mz nt mt s t : settings p nz nt s = settings q mz mt t -> p = q /\ nz = mz /\ str_of_Z nt ++ s = str_of_Z mt ++ t.
Proof.
  unfold settings. intros E. assert (P : forall p, ~ In "_"%char (particle_text p)) by (intros []; cbn; intuition discriminate).
  change (s2l "_z") with ("_"%char :: s2l "z") in E. cbn [app] in E. apply until_sep in E as [E1 E]; [|apply P|apply P].
  injection E as E. change (s2l "_theta") with ("_"%char :: s2l "theta") in E. cbn [app] in E. apply until_sep in E as [E2 E3]; [|apply no_us|apply no_us].
  injection E3 as E3. split; [destruct p, q; try reflexivity; discriminate E1|]. split; [apply str_of_Z_inj; exact E2|exact E3].
Qed.
Lemma base_no_slash s : forall acc, ~ In "/"%char acc -> ~ In "/"%char (base_from acc s).
Proof.
  induction s as [|c s IH]; intros acc H; cbn [base_from]; [exact H|]. destruct (Ascii.eqb_spec c "/"%char) as [->|N]; apply IH; [intros []|].
  intros I. apply in_app_or in I as [I|[I|[]]]; [exact (H I)|congruence].
Qed.
Lemma before_dot_in s c : In c (before_dot s) -> In c s.
Proof. induction s as [|x s IH]; cbn [before_dot]; [auto|]. destruct (Ascii.eqb x dot); [intros []|]. intros [->|I]; [now left|right; auto]. Qed.
Lemma name_no_slash file : ~ In "/"%char (rssa_name file).
Proof. intros I. apply before_dot_in in I. revert I. apply base_no_slash. intros []. Qed.
(* where the pictures go *)
Definition before_path (folder : str) : str := match folder with [] => [] | _ => folder ++ ["/"%char] end.
Lemma join_here folder f : f <> [] -> (forall r, f <> "/"%char :: r) -> join_path folder f = before_path folder ++ f.
Proof.
  intros N H. destruct f as [|c f]; [congruence|]. unfold join_path, slash. destruct (Ascii.eqb_spec c "/"%char) as [->|E]; [destruct (H f eq_refl)|].
  destruct folder as [|x folder]; [reflexivity|]. unfold before_path. rewrite <- app_assoc. reflexivity.
Qed.
Lemma default_path folder file p nz nt tail : join_path folder (plot_name file p nz nt ++ tail) = before_path folder ++ rssa_name file ++ "_"%char :: settings p nz nt tail.
Proof.
  assert (E : plot_name file p nz nt ++ tail = rssa_name file ++ "_"%char :: settings p nz nt tail) by (unfold plot_name, settings; rewrite <- !app_assoc; reflexivity).
  rewrite E. apply join_here.
  - intros X. apply app_eq_nil in X as [_ X]. discriminate X.
  - intros r X. pose proof (name_no_slash file) as S0. destruct (rssa_name file) as [|c n]; cbn [app] in X; injection X as X _; [discriminate X|]. apply S0. left. exact X.
Qed.
Lemma default_files folder file p nz nt : plot_files file p nz nt (Some folder) None =
  [before_path folder ++ rssa_name file ++ "_"%char :: settings p nz nt (s2l ".jpeg");
   before_path folder ++ rssa_name file ++ "_"%char :: settings p nz nt (s2l "_errors.jpeg_errors.jpeg")].
Proof.
  unfold plot_files. cbv zeta. rewrite !default_path. f_equal. f_equal. rewrite <- !app_assoc. cbn [app]. unfold settings. rewrite <- !app_assoc. reflexivity.
Qed.
Lemma tails_eq a b s : str_of_Z a ++ s = str_of_Z b ++ s -> a = b.
Proof. intros E. apply app_inv_tail in E. apply str_of_Z_inj. exact E. Qed.
Lemma tails_ne a b : str_of_Z a ++ s2l ".jpeg" <> str_of_Z b ++ s2l "_errors.jpeg_errors.jpeg".
Proof.
  intros E. assert (I : In "_"%char (str_of_Z a ++ s2l ".jpeg")) by (rewrite E; apply in_or_app; right; left; reflexivity).
  apply in_app_or in I as [I|I]; [exact (no_us a I)|]. cbn in I. intuition discriminate.
Qed.
Lemma files_apart folder file p q nz mz nt mt f : In f (plot_files file p nz nt (Some folder) None) -> In f (plot_files file q mz mt (Some folder) None) -> p = q /\ nz = mz /\ nt = mt.
Proof.
  rewrite !default_files. intros A B. cbn [In] in A, B.
  assert (G : forall s t, before_path folder ++ rssa_name file ++ "_"%char :: settings p nz nt s = before_path folder ++ rssa_name file ++ "_"%char :: settings q mz mt t -> p = q /\ nz = mz /\ str_of_Z nt ++ s = str_of_Z mt ++ t).
  { intros s t E. apply app_inv_head in E. apply app_inv_head in E. injection E as E. apply settings_split. exact E. }
  destruct A as [A|[A|[]]], B as [B|[B|[]]]; rewrite <- B in A; apply G in A as (E1 & E2 & E3).
  - apply tails_eq in E3. auto.
  - exfalso. exact (tails_ne _ _ E3).
  - exfalso. symmetry in E3. exact (tails_ne _ _ E3).
  - apply tails_eq in E3. auto.
Qed.
Lemma files_nodup folder file p nz nt : NoDup (plot_files file p nz nt (Some folder) None).
Proof.
  rewrite default_files. constructor; [|constructor; [intros []|constructor]]. intros [E|[]]. apply app_inv_head in E. apply app_inv_head in E. injection E as E. apply settings_split in E as (_ & _ & E). symmetry in E. exact (tails_ne _ _ E).
Qed.
