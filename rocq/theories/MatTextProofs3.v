(** Proofs about a material that is read, written and read again. *)
From Coq Require Import Lia QArith.
From Verif Require Import PyBase PyLemmas PyStr PyStrLemmas PyText PySci PySciLemmas LibModel LibProofs D1SProofs D1SProofs2 MatModel MatSpec MatProofs MatProofs2 MatTextModel MatTextSpec MatTextProofs MatTextProofs2.
Open Scope nat_scope.

Lemma dget_out {V} (d : list (str * V)) k : ~ In k (map fst d) -> dget str_eqb k d = None.
Proof. intros H. destruct (dget str_eqb k d) eqn:E; [|reflexivity]. exfalso. apply H. apply (dget_some_in str_eqb str_eqb_eq) in E. apply (in_map fst) in E. exact E. Qed.
Lemma dset_out {V} (d : list (str * V)) k v : ~ In k (map fst d) -> dset str_eqb k v d = d ++ [(k, v)].
Proof.
  induction d as [|[a b] d IH]; intros H; [reflexivity|]. cbn [dset]. rewrite str_eqb_neq; [|intros ->; apply H; left; reflexivity]. rewrite IH; [reflexivity|]. intros X. apply H. right. exact X.
Qed.
Lemma dget_end {V} (d : list (str * V)) k v : ~ In k (map fst d) -> dget str_eqb k (d ++ [(k, v)]) = Some v.
Proof.
  induction d as [|[a b] d IH]; intros H; cbn [app dget]; [rewrite str_eqb_refl; reflexivity|]. rewrite str_eqb_neq; [|intros ->; apply H; left; reflexivity]. apply IH. intros X. apply H. right. exact X.
Qed.
Lemma dset_end {V} (d : list (str * V)) k v w : ~ In k (map fst d) -> dset str_eqb k w (d ++ [(k, v)]) = d ++ [(k, w)].
Proof.
  induction d as [|[a b] d IH]; intros H; cbn [app dset]; [rewrite str_eqb_refl; reflexivity|]. rewrite str_eqb_neq; [|intros ->; apply H; left; reflexivity]. rewrite IH; [reflexivity|]. intros X. apply H. right. exact X.
Qed.
Lemma names_id zs : forall d, NoDup (map z_name zs) -> (forall z, In z zs -> ~ In (z_name z) (map fst d)) ->
  acc z_name upq d zs = d ++ map (fun z => (z_name z, z_frac z)) zs.
Proof.
  induction zs as [|z zs IH]; intros d N H; [cbn; now rewrite app_nil_r|]. cbn [acc fold_left map]. fold (acc z_name upq (dset str_eqb (z_name z) (upq (dget str_eqb (z_name z) d) z) d) zs).
  inversion N as [|? ? N1 N2]; subst. rewrite (dget_out d), (dset_out d) by (apply H; left; reflexivity). rewrite IH; [cbn [upq]; rewrite <- app_assoc; reflexivity|exact N2|].
  intros y Hy. rewrite map_app, in_app_iff. cbn. intros [X|[X|[]]]; [exact (H y (or_intror Hy) X)|]. apply N1. rewrite X. apply in_map, Hy.
Qed.
Lemma element_id zs : Forall wf_zaid zs -> NoDup (map z_name zs) -> element_zaids zs = zs.
Proof.
  intros W N. unfold element_zaids. rewrite collapse_names_acc, (names_id zs [] N) by (intros ? ? []). cbn [app]. rewrite map_map. rewrite <- (map_id zs) at 2. apply map_ext_in. intros z Hz. cbn [fst snd].
  rewrite Forall_forall in W. rewrite (zaid_of_name_ok z _ (W z Hz)). destruct z. reflexivity.
Qed.
Lemma block_more e g : forall d l, ~ In e (map fst d) -> Forall (fun z => z_elem z = e) g -> acc z_elem upl (d ++ [(e, l)]) g = d ++ [(e, l ++ g)].
Proof.
  induction g as [|z g IH]; intros d l H F; [cbn; now rewrite app_nil_r|]. cbn [acc fold_left]. pose proof (Forall_inv F) as E. cbn beta in E. rewrite E. rewrite (dget_end d e l H), (dset_end d e l _ H).
  cbn [upl]. fold (acc z_elem upl (d ++ [(e, l ++ [z])]) g). rewrite (IH d (l ++ [z]) H (Forall_inv_tail F)), <- app_assoc. reflexivity.
Qed.
Lemma block_one e g d : ~ In e (map fst d) -> g <> [] -> Forall (fun z => z_elem z = e) g -> acc z_elem upl d g = d ++ [(e, g)].
Proof.
  intros H N F. destruct g as [|z g]; [contradiction|]. cbn [acc fold_left]. pose proof (Forall_inv F) as E. cbn beta in E. rewrite E, (dget_out d e H), (dset_out d e _ H). cbn [upl].
  fold (acc z_elem upl (d ++ [(e, [z])]) g). rewrite (block_more e g d [z] H (Forall_inv_tail F)). reflexivity.
Qed.
Lemma acc_app {A V} (key : A -> str) (up : option V -> A -> V) a b d : acc key up d (a ++ b) = acc key up (acc key up d a) b.
Proof. unfold acc. apply fold_left_app. Qed.
Lemma blocks es gs : Forall2 (fun e g => g <> [] /\ Forall (fun z => z_elem z = e) g) es gs -> forall d, NoDup es -> (forall e, In e es -> ~ In e (map fst d)) ->
  acc z_elem upl d (concat gs) = d ++ combine es gs.
Proof.
  induction 1 as [|e g es gs [Hn Hf] _ IH]; intros d N H; [cbn; now rewrite app_nil_r|]. cbn [concat combine]. rewrite acc_app, (block_one e g d) by (try assumption; apply H; left; reflexivity).
  inversion N as [|? ? N1 N2]; subst. rewrite IH; [rewrite <- app_assoc; reflexivity|exact N2|]. intros e' He. rewrite map_app, in_app_iff. cbn. intros [X|[X|[]]]; [exact (H e' (or_intror He) X)|]. subst. contradiction.
Qed.
Lemma nodup_in_concat {A B} (f : A -> B) gs : NoDup (map f (concat gs)) -> Forall (fun g => NoDup (map f g)) gs.
Proof.
  induction gs as [|g gs IH]; intros N; [constructor|]. cbn [concat] in N. rewrite map_app in N. constructor.
  - clear IH. induction (map f g) as [|x l IHl]; [constructor|]. cbn [app] in N. inversion N as [|? ? N1 N2]; subst. constructor; [|apply IHl; exact N2]. intros X. apply N1. apply in_app_iff. now left.
  - apply IH. induction (map f g) as [|x l IHl]; [exact N|]. cbn [app] in N. inversion N; subst. auto.
Qed.
Lemma collapse_id gs : Grouped gs -> Forall wf_zaid (concat gs) -> collapse (concat gs) = gs.
Proof.
  intros (es & Ne & F & N) W. unfold collapse. rewrite group_elements_acc, (blocks es gs F []) by (try assumption; intros ? ? []). cbn [app]. apply nodup_in_concat in N. rewrite Forall_concat in W.
  clear Ne. revert N W. induction F as [|e g es gs _ _ IH]; intros N W; [reflexivity|]. cbn [combine map snd]. rewrite (element_id g (Forall_inv W) (Forall_inv N)). f_equal. apply IH; [exact (Forall_inv_tail N)|exact (Forall_inv_tail W)].
Qed.

Definition refrac (z : zaid) : zaid := with_frac z (roundn Short 6 (z_frac z)).
Lemma refrac_grouped gs : Grouped gs -> Grouped (map (map refrac) gs).
Proof.
  intros (es & Ne & F & N). exists es. split; [exact Ne|]. split.
  - clear N Ne. induction F as [|e g es gs [Hn Hf] _ IH]; constructor; [|exact IH]. split; [destruct g; [contradiction|discriminate]|]. apply Forall_map. exact Hf.
  - rewrite concat_map, map_map. rewrite <- (map_map (map refrac) (map z_name)).
    assert (E : map (map z_name) (map (map refrac) gs) = map (map z_name) gs) by (rewrite map_map; apply map_ext; intros g; rewrite map_map; apply map_ext; intros z; reflexivity).
    rewrite E, <- concat_map. exact N.
Qed.
(** the parts of the material that was read *)
Definition reread (p : wpart) : wpart := mkwp (wp_notes p) (map (map (fun z => (z, no_info))) (collapse (wp_zaids p))) (wp_keys p).
Lemma wp_zaids_groups p : wp_zaids p = concat (map (map refrac) (map (map fst) (wp_elems p))).
Proof. unfold wp_zaids. rewrite concat_map, !map_map. f_equal. apply map_ext. intros g. rewrite map_map. reflexivity. Qed.
Lemma wz_wf zi : WZaid zi -> wf_zaid (refrac (fst zi)). Proof. intros (W & _). exact W. Qed.
Lemma wp_zaids_wf p : WPart p -> Forall wf_zaid (wp_zaids p).
Proof. intros (_ & _ & HZ & _). unfold wp_zaids. apply Forall_map. eapply Forall_impl; [|exact HZ]. exact wz_wf. Qed.
Lemma wz_reread zi : WZaid zi -> WZaid (refrac (fst zi), no_info).
Proof.
  intros (A & B & C & D & _). assert (P : Plain []) by (split; intros []). split; [exact A|]. split; [exact B|]. split; [exact C|]. split; [exact D|]. split; [exact P|]. split; exact P.
Qed.
Lemma reread_ok p : WPart p -> Grouped (map (map fst) (wp_elems p)) -> WPart (reread p) /\ wp_zaids (reread p) = wp_zaids p.
Proof.
  intros H G. pose proof (wp_zaids_wf p H) as W. pose proof (wp_zaids_groups p) as E. pose proof (collapse_id _ (refrac_grouped _ G)) as C. rewrite <- E in C. specialize (C W).
  assert (EZ : concat (wp_elems (reread p)) = map (fun z => (z, no_info)) (wp_zaids p)).
  { unfold reread. cbn [wp_elems]. rewrite C, <- concat_map, <- E. reflexivity. }
  destruct H as (HN & Hz & HZ & HK). split.
  - split; [exact HN|]. rewrite EZ. split; [unfold wp_zaids; destruct (concat (wp_elems p)); [contradiction|discriminate]|]. split; [|exact HK].
    apply Forall_map. unfold wp_zaids. apply Forall_map. eapply Forall_impl; [|exact HZ]. exact wz_reread.
  - unfold wp_zaids at 1. rewrite EZ, map_map. cbn [fst]. unfold wp_zaids. rewrite map_map. apply map_ext. intros zi. unfold with_frac. cbn [z_frac z_elem z_iso z_lib]. rewrite roundn_idem. reflexivity.
Qed.
Lemma read_rewrite m hs ps r : WMat m hs ps -> Forall (fun p => Grouped (map (map fst) (wp_elems p))) ps -> mat_from_text (file_lines (mat_to_text m)) = Ok r ->
  WMat (rewritten r) hs (map reread ps).
Proof.
  intros H G R. destruct (written_read m hs ps H) as (subs & R' & S). rewrite R' in R. injection R as <-. destruct H as (HN & (HH & _) & _ & HP & HS & _).
  unfold WMat, rewritten. cbn [wm_name wm_header wm_subs wm_mx rm_name rm_header rm_subs]. split.
  { destruct (upper_name _ HN) as (ds & -> & Hn & Hd). exists "M"%char, ds. auto. }
  split; [split; [exact HH|right; right; reflexivity]|]. split.
  { clear - S. induction S as [|p s ps subs (Z & K & J) _ IH]; [constructor|]. cbn [map]. constructor; [|exact IH]. unfold Sub, reread. cbn [w_elems w_keys w_header wp_elems wp_keys wp_notes]. rewrite Z, K, J. repeat split. right. reflexivity. }
  split. { apply Forall_map. rewrite Forall_forall in HP, G |- *. intros p Hp. exact (proj1 (reread_ok p (HP p Hp) (G p Hp))). }
  split; [|reflexivity]. destruct ps as [|p ps]; [exact I|]. cbn [map separated] in *. apply Forall_map. exact HS.
Qed.
Lemma read_again m hs ps r : WMat m hs ps -> Forall (fun p => Grouped (map (map fst) (wp_elems p))) ps -> mat_from_text (file_lines (mat_to_text m)) = Ok r ->
  exists r', mat_from_text (file_lines (mat_to_text (rewritten r))) = Ok r' /\ rm_name r' = rm_name r /\ rm_header r' = rm_header r /\
    Forall2 (fun s s' => seen s' (r_zaids s) (r_keys s) (r_header s)) (rm_subs r) (rm_subs r').
Proof.
  intros H G R. pose proof (read_rewrite m hs ps r H G R) as W. destruct (written_read m hs ps H) as (subs & R' & S). rewrite R' in R. injection R as <-.
  destruct (written_read _ hs _ W) as (subs' & R2 & S2). exists (mkRM (upper (wm_name (rewritten (mkRM (upper (wm_name m)) (closed hs) subs)))) (closed hs) subs'). split; [exact R2|].
  cbn [rm_name rm_header rm_subs rewritten wm_name]. split. { destruct (upper_name _ (proj1 H)) as (ds & -> & Hn & Hd). change (upper ("M"%char :: ds)) with ("M"%char :: upper ds). f_equal.
    assert (M : MatName ("M"%char :: ds)) by (exists "M"%char, ds; auto). destruct (upper_name _ M) as (ds' & E & _). unfold upper in E |- *. cbn [map] in E. injection E as E.
    rewrite <- (map_id ds) at 2. apply map_ext_in. intros d Hi. rewrite Forall_forall in Hd. specialize (Hd d Hi). clear - Hd. destruct d as [[] [] [] [] [] [] [] []]; (reflexivity || discriminate Hd). }
  split; [reflexivity|]. destruct H as (_ & _ & _ & HP & _). clear - HP G S S2. revert subs' S2. induction S as [|p s ps subs (Z & K & J) _ IH]; intros subs' S2; cbn [map] in S2.
  - inversion S2. constructor.
  - inversion S2 as [|? s' ? t (Z' & K' & J') S3 E1 E2]; subst. constructor; [|exact (IH (Forall_inv_tail HP) (Forall_inv_tail G) t S3)]. unfold seen.
    rewrite Z', K', J', (proj2 (reread_ok p (Forall_inv HP) (Forall_inv G))). cbn [reread wp_keys wp_notes]. auto.
Qed.
Lemma upto_words ws us : kill_comment ws = us -> Forall (fun w => hd_error w <> Some "$"%char) us -> UpToDollar ws us.
Proof.
  revert us. induction ws as [|w ws IH]; intros us E H; cbn [kill_comment] in E; [subst; constructor|]. destruct (dollar w) eqn:D.
  - subst. destruct w as [|c w]; [discriminate D|]. cbn [dollar] in D. apply Ascii.eqb_eq in D. subst. constructor.
  - subst. constructor; [exact (Forall_inv H)|]. apply IH; [reflexivity|exact (Forall_inv_tail H)].
Qed.
