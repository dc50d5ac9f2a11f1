From Coq Require Import Lia ZArith Qabs Lqa.
From Verif Require Import PyBase PyStr PyText PyLemmas PyStrLemmas LibModel LibSpec D1SModel MatModel MatInfoModel MatInfoSpec MatInfoProofs MatInfoProofs7 RssaProofs2 XmlModel XmlSpec XmlProofs.
Open Scope nat_scope.

Lemma no_dash_word s : ~ In dash s -> no_dash s = s.
Proof.
  unfold no_dash. induction s as [|c s IH]; intros N; [reflexivity|]. cbn [filter]. destruct (Ascii.eqb_spec c dash) as [->|]; [exfalso; apply N; left; reflexivity|]. cbn [negb]. f_equal. apply IH. intros K. apply N. right. exact K.
Qed.
Lemma no_dash_app a b : no_dash (a ++ b) = no_dash a ++ no_dash b.
Proof. unfold no_dash. apply filter_app. Qed.
Lemma digits_no_dash s : Forall (fun c => is_digit c = true) s -> ~ In dash s.
Proof. intros H K. rewrite Forall_forall in H. specialize (H _ K). discriminate H. Qed.
Lemma neg_iff q : negb (Qle_bool 0 q) = true <-> (q < 0)%Q.
Proof.
  rewrite Bool.negb_true_iff. split; intros H.
  - apply Qnot_le_lt. intros K. apply Qle_bool_iff in K. congruence.
  - destruct (Qle_bool 0 q) eqn:B; [|reflexivity]. apply Qle_bool_iff in B. lra.
Qed.
Lemma mapM_forall2 {A B} (f : A -> res B) l l' : mapM f l = Ok l' -> Forall2 (fun x y => f x = Ok y) l l'.
Proof.
  revert l'. induction l as [|x l IH]; intros l' H; cbn [mapM] in H; [apply Ok_inj in H; subst; constructor|].
  destruct (f x) as [y|] eqn:F; [|discriminate H]. cbn [bind] in H. destruct (mapM f l) as [ys|] eqn:M; [|discriminate H]. cbn [bind] in H. apply Ok_inj in H. subst l'. constructor; [exact F|apply IH; reflexivity].
Qed.
Lemma f2_build {A B C} (R : A -> B -> Prop) (S : A -> C -> Prop) (g : C -> B) l l' : (forall x y, In x l -> R x y -> exists c, S x c /\ y = g c) -> Forall2 R l l' ->
  exists cs, Forall2 S l cs /\ l' = map g cs.
Proof.
  intros H F. induction F as [|x y l l' Hxy F IH]; [exists []; split; [constructor|reflexivity]|]. destruct (H x y (or_introl eq_refl) Hxy) as (c & Sc & ->).
  destruct IH as (cs & HS & ->); [intros; apply H; [right; assumption|assumption]|]. exists (c :: cs). split; [constructor; assumption|reflexivity].
Qed.
Section P.
  Variable fs : Q -> str. Variable E : matenv.
  Hypothesis WF : wf_table (l_iso (m_lib E)).
  Lemma zaid_xml_ok z y : zaid_xml fs E z = Ok y -> exists n, NuclideOf fs E z n /\ y = nuc_elem n.
  Proof.
    unfold zaid_xml. destruct (fullname E z) as [f|] eqn:F; [|discriminate]. cbn [bind]. intros H. apply Ok_inj in H. subst y.
    destruct (fullname_ok E z f WF F) as (Sy & _ & a & Pa & Ef). exists (mkXN (no_dash f) (negb (Qle_bool 0 (z_frac z))) (fs (Qabs (z_frac z)))). split; [|unfold nuc_elem; cbn [xn_name xn_weight xn_amount]; reflexivity].
    exists (symb E z), a. cbn [xn_name xn_weight xn_amount]. split; [exact Sy|]. split; [exact Pa|]. split; [|split; [apply neg_iff|reflexivity]]. subst f.
    assert (ND : no_dash (symb E z) = symb E z).
    { destruct Sy as (n & r & _ & (t1 & t2 & Et & _) & <-). apply no_dash_word, word_no_dash. apply (proj1 WF r). rewrite Et. apply in_or_app. right. left. reflexivity. }
    rewrite no_dash_app, ND. f_equal. destruct (0 <? a)%Z eqn:Pz; [|reflexivity]. change (s2l "-" ++ str_of_Z a) with (dash :: str_of_Z a). unfold no_dash at 1. cbn [filter]. change (negb (Ascii.eqb dash dash)) with false. cbn iota.
    apply no_dash_word. apply Z.ltb_lt in Pz. unfold str_of_Z. destruct a; try discriminate Pz. apply digits_no_dash, str_of_N_digits.
  Qed.
  Lemma material_xml_ok md y : material_xml fs E md = Ok y -> exists x, MaterialOf fs E md x /\ y = mat_elem x.
  Proof.
    destruct md as [m d]. unfold material_xml. destruct d as [d|]; [|discriminate]. cbn [of_opt bind]. destruct (mapM (sub_xml fs E) (mt_subs m)) as [subs|] eqn:M; [|discriminate]. cbn [bind]. intros H. apply Ok_inj in H. subst y.
    apply mapM_forall2 in M. assert (K : exists ns, Forall2 (NuclideOf fs E) (concat (map (fun s => concat (s_elems s)) (mt_subs m))) ns /\ concat subs = map nuc_elem ns).
    { clear - M WF. induction M as [|s ys l subs Hs M (ns & F & Es)]; [exists []; split; [constructor|reflexivity]|]. unfold sub_xml in Hs. apply mapM_forall2 in Hs.
      destruct (f2_build _ (NuclideOf fs E) nuc_elem _ _ (fun x y _ Hx => zaid_xml_ok x y Hx) Hs) as (n1 & F1 & ->). exists (n1 ++ ns). cbn [map concat]. split; [apply Forall2_app; assumption|]. rewrite Es, map_app. reflexivity. }
    destruct K as (ns & F & Es). exists (mkXM (filter is_digit (mt_name m)) (mt_name m) (fs (Qabs d)) (if negb (Qle_bool 0 d) then s2l "g/cc" else s2l "atom/b-cm") ns).
    split; [|unfold mat_elem; cbn [xm_id xm_name xm_density xm_units xm_nuclides]; rewrite Es; reflexivity].
    exists d. cbn [xm_id xm_name xm_density xm_units xm_nuclides fst snd]. split; [reflexivity|]. split; [reflexivity|]. split; [reflexivity|]. split; [reflexivity|].
    split; [intros H; apply neg_iff in H; rewrite H; reflexivity|]. split; [|exact F]. intros H. destruct (negb (Qle_bool 0 d)) eqn:B; [|reflexivity]. apply neg_iff in B. contradiction.
  Qed.
  Lemma to_xml_ok ms t : to_xml fs E ms = Ok t -> exists xs, Forall2 (MaterialOf fs E) ms xs /\ Document xs t.
  Proof.
    unfold to_xml. destruct (mapM (material_xml fs E) ms) as [es|] eqn:M; [|discriminate]. cbn [bind]. intros H. apply Ok_inj in H. subst t. apply mapM_forall2 in M.
    destruct (f2_build _ (MaterialOf fs E) mat_elem _ _ (fun x y _ Hx => material_xml_ok x y Hx) M) as (xs & F & ->). exists xs. split; [exact F|apply doc_text].
  Qed.
  Lemma mapM_total {A B} (f : A -> res B) l : (forall x, In x l -> exists y, f x = Ok y) -> exists ys, mapM f l = Ok ys.
  Proof.
    induction l as [|x l IH]; intros H; [exists []; reflexivity|]. destruct (H x (or_introl eq_refl)) as (y & Hy). destruct IH as (ys & Hys); [intros; apply H; right; assumption|]. exists (y :: ys). cbn [mapM]. rewrite Hy. cbn [bind]. rewrite Hys. reflexivity.
  Qed.
  Lemma to_xml_total ms : (forall m d, In (m, d) ms -> d <> None /\ forall s zs z, In s (mt_subs m) -> In zs (s_elems s) -> In z zs -> known E z) -> exists t, to_xml fs E ms = Ok t.
  Proof.
    intros H. unfold to_xml. destruct (mapM_total (material_xml fs E) ms) as (es & ->); [|eexists; reflexivity]. intros [m d] Hm. destruct (H m d Hm) as [Nd HK]. destruct d as [d|]; [|contradiction].
    unfold material_xml. cbn [of_opt bind]. destruct (mapM_total (sub_xml fs E) (mt_subs m)) as (subs & ->); [|eexists; reflexivity]. intros s Hs. apply mapM_total. intros z Hz. apply in_concat in Hz. destruct Hz as (zs & H1 & H2).
    destruct (known_fullname E z (HK s zs z Hs H1 H2)) as (f & Ef). unfold zaid_xml. rewrite Ef. eexists. reflexivity.
  Qed.
  Lemma to_xml_none m ms : to_xml fs E ((m, None) :: ms) = Err TypeError.
  Proof. reflexivity. Qed.
  Lemma to_xml_some ms t : to_xml fs E ms = Ok t -> forall m d, In (m, d) ms -> d <> None.
  Proof.
    intros H m d Hm ->. destruct (to_xml_ok ms t H) as (xs & F & _). clear H. induction F as [|md x l l' (d & Ed & _) F IH]; [destruct Hm|]. destruct Hm as [->|Hm]; [discriminate Ed|auto].
  Qed.
End P.
