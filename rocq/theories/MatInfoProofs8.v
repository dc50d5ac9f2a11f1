From Coq Require Import Lia Lqa.
From Verif Require Import PyBase PyLemmas PyStr PyStrLemmas PyText D1SModel D1SProofs2 LibModel LibSpec LibProofs LibProofs2 LibProps MatModel MatSpec MatProofs MatProofs2 MatProofs3 MatInfoModel MatInfoSpec MatInfoProofs MatInfoProofs2 MatInfoProofs4.
Open Scope nat_scope.

Lemma digit_not_letter c : is_digit c = true -> is_letter c = false.
Proof. unfold is_digit, is_letter. intros H. apply andb_true_iff in H. destruct H as [H1 H2]. apply N.leb_le in H1, H2. apply orb_false_iff. split; apply andb_false_iff; left; apply N.leb_gt; lia. Qed.
Lemma digits_no_letters s : Forall (fun c => is_digit c = true) s -> first_letters s = None.
Proof. induction 1 as [|c s H F IH]; [reflexivity|]. cbn [first_letters]. rewrite (digit_not_letter c H). exact IH. Qed.
Lemma parts3 s : 3 <= length s -> but3 s ++ last3 s = s /\ length (last3 s) = 3.
Proof. intros H. destruct (key_split s) as [E L]. split; [symmetry; exact E|]. rewrite L. lia. Qed.
Lemma split_unique (a b a' b' : str) : a ++ b = a' ++ b' -> length b = length b' -> a = a' /\ b = b'.
Proof. intros H L. assert (length a = length a') by (apply (f_equal (@length ascii)) in H; rewrite !app_length in H; lia). split.
  - apply (f_equal (firstn (length a))) in H. rewrite !firstn_app, H0 in H. rewrite Nat.sub_diag in H. rewrite <- H0 in H at 1. rewrite !firstn_all in H. cbn in H. now rewrite !app_nil_r in H.
  - apply (f_equal (skipn (length a))) in H. rewrite !skipn_app, H0 in H. rewrite Nat.sub_diag in H. rewrite <- H0 in H at 1. rewrite !skipn_all in H. exact H. Qed.
Lemma entry_ok E x z : wf_table (l_iso (m_lib E)) -> entry E x z -> entry_zaid E x = Ok z /\ wf_zaid z.
Proof. intros W H. destruct H as [e n a f z S A T L Lb Fr|s f z D Ls Nu L Lb Fr].
  - destruct (C20_number_then_name _ n e a W S A) as [s [nm [G [T2 _]]]]. unfold entry_zaid. cbn [fst snd]. rewrite G.
    assert (s = z_num z). { pose proof (proj1 (zaid_text_fmt n a s) T2) as [_ ->]. pose proof (proj1 (zaid_text_fmt n a (z_num z)) T) as [_ ->]. reflexivity. }
    subst s. destruct (zaid_text_clean _ _ _ T) as [ND L3]. destruct (parts3 (z_num z) L3) as [P1 P2]. unfold z_num in P1 at 3. destruct (split_unique _ _ _ _ P1) as [-> ->]; [lia|]. split; [rewrite <- Fr, <- Lb; destruct z; reflexivity|].
    unfold wf_zaid. split; [exact L|]. unfold z_num in ND. rewrite in_app_iff in ND. split; [tauto|]. split; [tauto|]. now rewrite Lb.
  - unfold entry_zaid, get_zaidnum. cbn [fst snd]. rewrite (digits_no_letters s D). cbn [of_opt bind]. destruct (parts3 s Ls) as [P1 P2]. assert (P3 : but3 s ++ last3 s = z_elem z ++ z_iso z) by (rewrite P1; symmetry; exact Nu). clear P1; rename P3 into P1. destruct (split_unique _ _ _ _ P1) as [-> ->]; [lia|].
    split; [rewrite <- Fr, <- Lb; destruct z; reflexivity|]. assert (ND : ~ In dot s) by (intros Q; rewrite Forall_forall in D; specialize (D _ Q); discriminate).
    rewrite <- Nu in ND. unfold z_num in ND. rewrite in_app_iff in ND. unfold wf_zaid. split; [exact L|]. split; [tauto|]. split; [tauto|]. now rewrite Lb. Qed.
Lemma entries_ok E zs zl : wf_table (l_iso (m_lib E)) -> Forall2 (entry E) zs zl -> mapM (entry_zaid E) zs = Ok zl /\ Forall wf_zaid zl.
Proof. intros W. induction 1 as [|x z zs zl H F [IH1 IH2]]; [split; [reflexivity|constructor]|]. destruct (entry_ok E x z W H) as [H1 H2]. split; [|constructor; assumption]. cbn [mapM]. rewrite H1. cbn [bind]. rewrite IH1. reflexivity. Qed.
Lemma no_subs_info E n : update_info E (mkmat n []) = Err ValueError. Proof. reflexivity. Qed.
