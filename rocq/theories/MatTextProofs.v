(** Proofs about the reading of material cards. *)
From Coq Require Import Lia.
From Verif Require Import PyBase PyLemmas PyStr PyStrLemmas PyText PySci LibModel LibProofs MatModel MatSpec MatProofs MatProofs2 MatTextModel MatTextSpec.
Open Scope nat_scope.

Lemma split_aux_good s : forall cur, no_ws cur -> Forall (fun w => w <> [] /\ no_ws w) (split_aux cur s).
Proof.
  induction s as [|c s IH]; intros cur Hc; cbn [split_aux].
  - destruct cur as [|a cur]; [constructor|]. constructor; [|constructor]. split; [intros E; apply (f_equal (@length ascii)) in E; rewrite rev_length in E; discriminate|].
    apply Forall_rev. exact Hc.
  - destruct (is_ws c) eqn:E.
    + destruct cur as [|a cur]; [apply IH; constructor|]. constructor; [|apply IH; constructor]. split; [intros X; apply (f_equal (@length ascii)) in X; rewrite rev_length in X; discriminate|].
      apply Forall_rev. exact Hc.
    + apply IH. constructor; assumption.
Qed.
Lemma split_words s : Forall (fun w => w <> [] /\ no_ws w) (split s). Proof. apply split_aux_good. constructor. Qed.

Lemma starts_word s : starts_ws s = false -> exists w r, split s = w :: r.
Proof.
  destruct s as [|c s]; [discriminate|]. cbn [starts_ws]. intros H. unfold split. cbn [split_aux]. rewrite H.
  assert (G : forall s cur, cur <> [] -> exists w r, split_aux cur s = w :: r).
  { clear. induction s as [|c s IH]; intros cur Hc; cbn [split_aux]; [destruct cur; [contradiction|eauto]|]. destruct (is_ws c); [destruct cur; [contradiction|eauto]|]. apply IH. discriminate. }
  apply G. discriminate.
Qed.
Lemma ends_word s : ends_ws s = false -> exists w r, rev (split s) = w :: r.
Proof.
  intros H. unfold ends_ws in H. destruct (rev s) as [|c t] eqn:E; [discriminate H|]. cbn [starts_ws] in H.
  assert (Es : s = rev t ++ [c]) by (rewrite <- (rev_involutive s), E; reflexivity).
  assert (N : split s <> []).
  { intros X. assert (G : forall a cur, split_aux cur (a ++ [c]) <> []).
    { clear - H. induction a as [|b a IH]; intros cur; cbn [app split_aux]; [rewrite H; discriminate|]. destruct (is_ws b); [destruct cur; [apply IH|discriminate]|apply IH]. }
    apply (G (rev t) []). rewrite <- Es. exact X. }
  destruct (rev (split s)) as [|w r] eqn:R; [|eauto]. exfalso. apply N. rewrite <- (rev_involutive (split s)), R. reflexivity.
Qed.
Lemma read_line_words s : s <> [] -> read_line s = read_pieces (kill_comment (split s)).
Proof.
  intros H. unfold read_line, resplit. destruct s as [|c s]; [contradiction|]. set (l := c :: s) in *. pose proof (split_words l) as W.
  assert (D : drop_first_empty ((if starts_ws l then [[]] else []) ++ split l ++ (if ends_ws l then [[]] else [])) = split l ++ (if ends_ws l then [[]] else [])).
  { destruct (starts_ws l) eqn:E; [reflexivity|]. destruct (starts_word l E) as (w & r & Es). rewrite Es in W |- *. cbn [app drop_first_empty]. destruct w; [exfalso; exact (proj1 (Forall_inv W) eq_refl)|reflexivity]. }
  rewrite D. destruct (ends_ws l) eqn:E.
  - rewrite rev_app_distr. cbn [rev app]. rewrite rev_involutive. reflexivity.
  - rewrite app_nil_r. destruct (ends_word l E) as (w & r & Er). rewrite Er. assert (Hw : In w (split l)) by (apply in_rev; rewrite Er; left; reflexivity).
    rewrite Forall_forall in W. destruct (W w Hw) as [X _]. destruct w; [contradiction|reflexivity].
Qed.

Lemma kill_upto ws us : UpToDollar ws us -> kill_comment ws = us.
Proof.
  induction 1 as [|w r|w r us N U IH]; [reflexivity|reflexivity|]. cbn [kill_comment]. replace (dollar w) with false; [rewrite IH; reflexivity|].
  destruct w as [|c w]; [reflexivity|]. cbn [dollar]. destruct (Ascii.eqb_spec c "$"%char); [subst; exfalso; apply N; reflexivity|reflexivity].
Qed.
Lemma zaid_text_ok w z : ZaidText w z -> zaid_of_name w (z_frac z) = z.
Proof.
  intros (_ & L & ND & -> & Hl). assert (W : wf_zaid z).
  { repeat split; [exact L|intros X; apply ND, in_or_app; left; exact X|intros X; apply ND, in_or_app; right; exact X|exact Hl]. }
  pose proof (zaid_of_name_ok z (z_frac z) W) as E. unfold z_name in E. rewrite E. destruct z; reflexivity.
Qed.
Lemma read_words us zs ks : Words us zs ks -> read_pieces us = Ok (zs, ks).
Proof.
  induction 1 as [|k ks N|n f z ws zs ks T P W IH]; [reflexivity| |].
  - cbn [read_pieces]. replace (digit_first k) with false; [reflexivity|]. destruct k as [|c k]; [reflexivity|]. cbn [digit_first]. symmetry. exact (N c k eq_refl).
  - cbn [read_pieces]. pose proof T as ((c & r & -> & D) & _). cbn [digit_first]. rewrite D, P. cbn [bind]. rewrite IH. cbn [bind]. rewrite (zaid_text_ok _ _ T). reflexivity.
Qed.
Lemma read_data l zs ks : l <> [] -> Data l zs ks -> read_line l = Ok (zs, ks).
Proof. intros H (us & U & W). rewrite (read_line_words l H), (kill_upto _ _ U). now apply read_words. Qed.

Lemma comment_ok l : CommentLine l -> pat_comment l = true.
Proof. intros (c & w & r & -> & Hc & Hw). cbn [pat_comment]. rewrite Hw, andb_true_r. unfold is_c. destruct Hc as [-> | ->]; reflexivity. Qed.
Lemma starts_no_comment l : starts_ws l = true -> pat_comment l = false.
Proof.
  destruct l as [|c [|d l]]; try reflexivity. cbn [starts_ws pat_comment]. intros H. replace (is_c c) with false; [reflexivity|]. unfold is_c.
  destruct (Ascii.eqb_spec c "C"%char); [subst; discriminate H|]. destruct (Ascii.eqb_spec c "c"%char); [subst; discriminate H|]. reflexivity.
Qed.
Lemma lower_m c : Ascii.eqb (lower c) "m"%char = true <-> c = "m"%char \/ c = "M"%char.
Proof. split; [|intros [-> | ->]; reflexivity]. destruct c as [[] [] [] [] [] [] [] []]; vm_compute; intros H; try discriminate H; auto. Qed.
Lemma span_ws_ok w r : Forall (fun c => is_ws c = true) w -> (forall c t, r = c :: t -> is_ws c = false) -> span_ws (w ++ r) = (w, r).
Proof.
  induction w as [|c w IH]; intros Hw Hr; cbn [app].
  - destruct r as [|c r]; [reflexivity|]. cbn [span_ws]. rewrite (Hr c r eq_refl). reflexivity.
  - cbn [span_ws]. rewrite (Forall_inv Hw), (IH (Forall_inv_tail Hw) Hr). reflexivity.
Qed.
Lemma span_ws_spec s : exists w r, span_ws s = (w, r) /\ s = w ++ r /\ Forall (fun c => is_ws c = true) w /\ (forall c t, r = c :: t -> is_ws c = false).
Proof.
  induction s as [|c s (w & r & E & -> & Hw & Hr)]; [exists [], []; repeat split; [constructor|discriminate]|]. cbn [span_ws]. destruct (is_ws c) eqn:Ec.
  - rewrite E. exists (c :: w), r. repeat split; [constructor; assumption|exact Hr].
  - exists [], (c :: w ++ r). repeat split; [constructor|]. intros ? ? [= <- <-]. exact Ec.
Qed.
Lemma comment_no_mat l : CommentLine l -> pat_mat l = None.
Proof. intros (c & w & r & -> & Hc & Hw). unfold pat_mat. cbn [span_ws]. destruct Hc as [-> | ->]; reflexivity. Qed.
Lemma data_no_mat l : DataLine l -> pat_mat l = None.
Proof.
  intros (Hs & Hn & Hm). unfold pat_mat. destruct (span_ws_spec l) as (w & r & -> & El & Hw & Hr). destruct r as [|c r]; [reflexivity|].
  destruct (Ascii.eqb (lower c) "m") eqn:Em; [|reflexivity]. apply lower_m in Em. destruct (span_digits r) as [[|d ds] t] eqn:Ed; [reflexivity|]. exfalso.
  pose proof (Hr c r eq_refl) as Ec. subst l. rewrite (split_ws w (c :: r)) in Hm by exact Hw.
  assert (D : exists r', r = d :: r' /\ is_digit d = true).
  { destruct r as [|x r']; [discriminate Ed|]. cbn [span_digits] in Ed. destruct (is_digit x) eqn:Ex; [|discriminate Ed]. destruct (span_digits r') as [a b]. injection Ed as <- _ _. eauto. }
  destruct D as (r' & -> & Dd).
  assert (S : exists u v, split (c :: d :: r') = (c :: d :: u) :: v).
  { unfold split. cbn [split_aux]. rewrite Ec. destruct (digit_not d Dd) as [Wd _]. rewrite Wd. clear - Ec.
    assert (G : forall s cur, exists u v, split_aux (cur ++ [d; c]) s = (c :: d :: u) :: v).
    { induction s as [|x s IH]; intros cur; cbn [split_aux].
      - destruct (cur ++ [d; c]) as [|y l] eqn:E; [destruct cur; discriminate E|]. rewrite <- E, rev_app_distr. cbn [rev app]. eauto.
      - destruct (is_ws x).
        + destruct (cur ++ [d; c]) as [|y l] eqn:E; [destruct cur; discriminate E|]. rewrite <- E, rev_app_distr. cbn [rev app]. eauto.
        + apply (IH (x :: cur)). }
    exact (G r' []). }
  destruct S as (u & v & S). apply (Hm _ _ S). exists c, d, u. auto.
Qed.
Lemma name_line_mat n : NameLine n -> pat_mat (n_text n) = Some (n_ws n ++ n_name n, n_rest n).
Proof.
  intros (Hw & (c & ds & E & Hc & Hn & Hd) & (w & r & Er & Hr) & _). unfold pat_mat, n_text. rewrite E.
  rewrite (span_ws_ok (n_ws n)); [|exact Hw|cbn [app]; intros ? ? [= <- _]; destruct Hc as [-> | ->]; reflexivity]. cbn [app].
  replace (Ascii.eqb (lower c) "m") with true by (symmetry; apply lower_m; exact Hc). rewrite Er.
  rewrite (span_digits_app ds (w :: r) Hd); [destruct ds; [contradiction|reflexivity]|]. destruct (is_digit w) eqn:D; [|reflexivity]. destruct (digit_not w D) as [X _]. congruence.
Qed.
Lemma name_no_comment n : NameLine n -> pat_comment (n_text n) = false.
Proof.
  intros (Hw & (c & ds & E & Hc & Hn & Hd) & _). unfold n_text. rewrite E. destruct (n_ws n) as [|x ws].
  - cbn [app]. destruct ds as [|d ds]; [contradiction|]. cbn [app pat_comment]. destruct Hc as [-> | ->]; reflexivity.
  - apply starts_no_comment. exact (Forall_inv Hw).
Qed.
Lemma no_cr_id s : ~ In cr s -> no_cr s = s.
Proof.
  induction s as [|c s IH]; intros H; [reflexivity|]. unfold no_cr in *. cbn [filter]. destruct (Ascii.eqb_spec c cr); [subst; exfalso; apply H; left; reflexivity|]. cbn [negb].
  rewrite IH; [reflexivity|]. intros X. apply H. right. exact X.
Qed.

(** ** A submaterial *)
Lemma span_comments_ok cs ls : Forall CommentLine cs -> (forall l r, ls = l :: r -> pat_comment l = false) -> span_comments (cs ++ ls) = (cs, ls).
Proof.
  induction cs as [|c cs IH]; intros Hc Hl; cbn [app].
  - destruct ls as [|l r]; [reflexivity|]. cbn [span_comments]. rewrite (Hl l r eq_refl). reflexivity.
  - cbn [span_comments]. rewrite (comment_ok c (Forall_inv Hc)), (IH (Forall_inv_tail Hc) Hl). reflexivity.
Qed.
Lemma mapM_data ls : Lines ls -> mapM read_line (map (fun x => fst (fst x)) ls) = Ok (map (fun x => (snd (fst x), snd x)) ls).
Proof.
  induction ls as [|[[l zs] ks] ls IH]; intros H; [reflexivity|]. cbn [map mapM fst snd]. destruct (Forall_inv H) as ((_ & Hn & _) & _ & D). cbn [fst snd] in *.
  rewrite (read_data l zs ks Hn D). cbn [bind]. rewrite (IH (Forall_inv_tail H)). reflexivity.
Qed.
Lemma first_data l zs ks : DataLine l -> Data l zs ks -> first_line l = Ok (zs, ks).
Proof.
  intros DL D. pose proof (data_no_mat l DL) as M. destruct DL as (Hs & Hn & _). unfold first_line. rewrite M.
  assert (R : read_line l = Ok (zs, ks)) by now apply read_data.
  unfold resplit. destruct l as [|c l]; [contradiction|]. rewrite Hs. cbn [app]. destruct (split (c :: l)) as [|w r] eqn:S.
  - assert (X : read_line (c :: l) = Ok ([], [])) by (rewrite read_line_words, S by discriminate; reflexivity). rewrite <- R, X. destruct (ends_ws (c :: l)); reflexivity.
  - pose proof (split_words (c :: l)) as W. rewrite S in W. destruct (Forall_inv W) as [Hw _]. destruct w as [|a w]; [contradiction|]. exact R.
Qed.
Lemma map_fst_pair {A} (ls : list (A * list zaid * list str)) : map fst (map (fun x => (snd (fst x), snd x)) ls) = map (fun x => snd (fst x)) ls.
Proof. rewrite map_map. apply map_ext. intros [[? ?] ?]. reflexivity. Qed.
Lemma map_snd_pair {A} (ls : list (A * list zaid * list str)) : map snd (map (fun x => (snd (fst x), snd x)) ls) = map snd ls.
Proof. rewrite map_map. apply map_ext. intros [[? ?] ?]. reflexivity. Qed.
Lemma comments_lines cs : Comments cs -> Forall CommentLine cs. Proof. intros H. eapply Forall_impl; [|exact H]. intros l [X _]. exact X. Qed.
Lemma sub_part p : Part p -> sub_from_text (p_text p) = Ok (mkR None (p_zaids p) (removelast (concat (p_comments p))) (p_keys p)).
Proof.
  intros (HC & _ & HL & Hn). unfold sub_from_text, p_text. destruct p as [cs ls]. cbn [p_comments p_lines] in *. destruct ls as [|[[l zs] ks] ls]; [contradiction|].
  cbn [map fst]. destruct (Forall_inv HL) as (DL & _ & D). cbn [fst snd] in DL, D.
  rewrite (span_comments_ok cs _ (comments_lines cs HC)) by (intros ? ? [= <- <-]; apply starts_no_comment; exact (proj1 DL)).
  rewrite (first_data l zs ks DL D). cbn [bind]. rewrite (mapM_data ls (Forall_inv_tail HL)). cbn [bind]. rewrite (data_no_mat l DL).
  unfold p_zaids, p_keys. cbn [p_lines map fst snd concat]. rewrite map_fst_pair, map_snd_pair. reflexivity.
Qed.
Lemma strip_ws_word w n : Forall (fun c => is_ws c = true) w -> n <> [] -> no_ws n -> strip (w ++ n) = n.
Proof.
  intros Hw Hn Hs. unfold strip. assert (L : forall w m, Forall (fun c => is_ws c = true) w -> m <> [] -> no_ws m -> lstrip (w ++ m) = m).
  { clear. induction w as [|c w IH]; intros m Hw Hn Hs; cbn [app].
    - destruct m as [|c m]; [contradiction|]. cbn [lstrip]. rewrite (Forall_inv Hs). reflexivity.
    - cbn [lstrip]. rewrite (Forall_inv Hw). apply IH; [exact (Forall_inv_tail Hw)|exact Hn|exact Hs]. }
  rewrite (L w n Hw Hn Hs). rewrite <- (app_nil_l (rev n)). rewrite (L [] (rev n)); [apply rev_involutive|constructor| |apply Forall_rev; exact Hs].
  intros X. apply Hn. rewrite <- (rev_involutive n), X. reflexivity.
Qed.
Lemma name_word n : NameLine n -> n_name n <> [] /\ no_ws (n_name n).
Proof.
  intros (_ & (c & ds & -> & Hc & Hn & Hd) & _). split; [discriminate|]. constructor; [destruct Hc as [-> | ->]; reflexivity|]. apply digits_no_ws. exact Hd.
Qed.
Lemma first_name n : NameLine n -> first_line (n_text n) = Ok (n_zaids n, n_keys n).
Proof.
  intros H. pose proof (name_line_mat n H) as M. pose proof (name_word n H) as [Nn Nw]. destruct H as (Hw & (c & ds & E & Hc & Hn & Hd) & (w & r & Er & Hr) & D & _).
  unfold first_line. rewrite M. assert (R : read_line (n_rest n) = Ok (n_zaids n, n_keys n)) by (apply read_data; [rewrite Er; discriminate|exact D]).
  assert (S : split (n_text n) = n_name n :: split r). { unfold n_text. rewrite (split_ws (n_ws n)) by exact Hw. rewrite Er. apply split_tok_ws; assumption. }
  assert (Sr : split (n_rest n) = split r). { rewrite Er. apply (split_ws [w] r). constructor; [exact Hr|constructor]. }
  unfold resplit. destruct (n_text n) as [|x t] eqn:Et; [unfold n_text in Et; rewrite E in Et; destruct (n_ws n); discriminate Et|]. rewrite S.
  assert (B : split r = [] -> (n_zaids n, n_keys n) = ([], [])).
  { intros X. rewrite read_line_words, Sr, X in R by (rewrite Er; discriminate). cbn [kill_comment read_pieces] in R. injection R as <- <-. reflexivity. }
  destruct (starts_ws (x :: t)); cbn [app].
  - destruct (n_name n) as [|a l]; [contradiction|exact R].
  - pose proof (split_words r) as W. destruct (split r) as [|u v]; cbn [app].
    + rewrite (B eq_refl). destruct (ends_ws (x :: t)); reflexivity.
    + destruct u as [|a u]; [exfalso; exact (proj1 (Forall_inv W) eq_refl)|exact R].
Qed.
Lemma sub_first n ls : NameLine n -> Lines ls ->
  sub_from_text (n_text n :: map (fun x => fst (fst x)) ls) = Ok (mkR (Some (n_name n)) (n_zaids n ++ concat (map (fun x => snd (fst x)) ls)) [] (n_keys n ++ concat (map snd ls))).
Proof.
  intros H HL. unfold sub_from_text. pose proof (span_comments_ok [] (n_text n :: map (fun x => fst (fst x)) ls) (Forall_nil _)) as SC. cbn [app] in SC.
  rewrite SC by (intros ? ? [= <- <-]; exact (name_no_comment n H)). rewrite (first_name n H). cbn [bind]. rewrite (mapM_data ls HL). cbn [bind]. rewrite (name_line_mat n H).
  pose proof (name_word n H) as [Nn Nw]. rewrite (strip_ws_word (n_ws n) (n_name n)) by (try assumption; exact (proj1 H)).
  cbn [map fst snd concat]. rewrite map_fst_pair, map_snd_pair. reflexivity.
Qed.

(** ** A card *)
Lemma fold_comments cs st : Comments cs -> ms_in st = true -> foldM mstep st cs = Ok (mkMS true (ms_text st ++ cs) (ms_subs st) (ms_header st)).
Proof.
  revert st. induction cs as [|c cs IH]; intros st HC Hi; cbn [foldM]; [rewrite app_nil_r; destruct st; cbn in *; subst; reflexivity|].
  destruct (Forall_inv HC) as [X _]. unfold mstep at 1. rewrite (comment_no_mat c X), Hi, (comment_ok c X). cbn [bind].
  rewrite IH; [|exact (Forall_inv_tail HC)|reflexivity]. cbn [ms_text ms_subs ms_header]. rewrite <- app_assoc. reflexivity.
Qed.
Lemma fold_lines ls st : Lines ls -> ls <> [] -> foldM mstep st (map (fun x => fst (fst x)) ls) = Ok (mkMS false (ms_text st ++ map (fun x => fst (fst x)) ls) (ms_subs st) (ms_header st)).
Proof.
  revert st. induction ls as [|[[l zs] ks] ls IH]; intros st HL Hn; [contradiction|]. cbn [map fst foldM]. destruct (Forall_inv HL) as (DL & _ & _). cbn [fst] in DL.
  unfold mstep at 1. rewrite (data_no_mat l DL), (starts_no_comment l (proj1 DL)).
  assert (E : (if ms_in st then Ok (mkMS false (ms_text st ++ [l]) (ms_subs st) (ms_header st)) else Ok (mkMS false (ms_text st ++ [l]) (ms_subs st) (ms_header st)))
     = Ok (mkMS false (ms_text st ++ [l]) (ms_subs st) (ms_header st))) by (destruct (ms_in st); reflexivity). rewrite E. cbn [bind].
  destruct ls as [|x ls]; [reflexivity|]. rewrite IH; [|exact (Forall_inv_tail HL)|discriminate]. cbn [ms_text ms_subs ms_header]. rewrite <- app_assoc. reflexivity.
Qed.
Lemma foldM_app' {A B} (f : A -> B -> res A) l1 l2 a : foldM f a (l1 ++ l2) = (do b <- foldM f a l1; foldM f b l2).
Proof. revert a. induction l1 as [|x l1 IH]; intros a; [reflexivity|]. cbn [app foldM]. destruct (f a x); cbn [bind]; [apply IH|reflexivity]. Qed.
Lemma fold_part p st : Part p -> ms_in st = false ->
  foldM mstep st (p_text p) = (do s <- sub_from_text (ms_text st); Ok (mkMS false (p_text p) (ms_subs st ++ [s]) (ms_header st))).
Proof.
  intros (HC & Hc & HL & Hl) Hi. unfold p_text. destruct (p_comments p) as [|c cs]; [contradiction|]. cbn [app foldM]. destruct (Forall_inv HC) as [X _].
  unfold mstep at 1. rewrite (comment_no_mat c X), Hi, (comment_ok c X). destruct (sub_from_text (ms_text st)) as [s|e]; cbn [bind]; [|reflexivity].
  rewrite foldM_app', (fold_comments cs (mkMS true [c] (ms_subs st ++ [s]) (ms_header st)) (Forall_inv_tail HC) eq_refl). cbn [bind]. rewrite (fold_lines _ _ HL Hl). reflexivity.
Qed.
Fixpoint psubs (ps : list part) : list rsub :=
  match ps with [] => [] | p :: r => mkR None (p_zaids p) (removelast (concat (p_comments p))) (p_keys p) :: psubs r end.
Lemma fold_parts ps : forall st s, Forall Part ps -> ms_in st = false -> sub_from_text (ms_text st) = Ok s ->
  exists st', foldM mstep st (concat (map p_text ps)) = Ok st' /\ ms_header st' = ms_header st /\
    (do s' <- sub_from_text (ms_text st'); Ok (ms_subs st' ++ [s'])) = Ok (ms_subs st ++ s :: psubs ps).
Proof.
  induction ps as [|p ps IH]; intros st s HP Hi Hs; cbn [map concat psubs foldM].
  - exists st. rewrite Hs. repeat split.
  - rewrite foldM_app', (fold_part p st (Forall_inv HP) Hi), Hs. cbn [bind].
    destruct (IH (mkMS false (p_text p) (ms_subs st ++ [s]) (ms_header st)) _ (Forall_inv_tail HP) eq_refl (sub_part p (Forall_inv HP))) as (st' & E & H & R).
    exists st'. split; [exact E|]. split; [exact H|]. rewrite R. cbn [ms_subs]. rewrite <- app_assoc. reflexivity.
Qed.
Lemma map_no_cr ls : Forall (fun l => ~ In cr l) ls -> map no_cr ls = ls.
Proof. induction 1 as [|l ls H _ IH]; [reflexivity|]. cbn [map]. rewrite IH, (no_cr_id l H). reflexivity. Qed.
Lemma lines_no_cr ls : Lines ls -> Forall (fun l => ~ In cr l) (map (fun x => fst (fst x)) ls).
Proof. intros H. apply Forall_map. eapply Forall_impl; [|exact H]. intros x (_ & X & _). exact X. Qed.
Lemma comments_no_cr cs : Comments cs -> Forall (fun l => ~ In cr l) cs.
Proof. intros H. eapply Forall_impl; [|exact H]. intros l [_ X]. exact X. Qed.
Lemma card_read hdr n ls ps : Comments hdr -> NameLine n -> Lines ls -> Forall Part ps ->
  mat_from_text (hdr ++ n_text n :: map (fun x => fst (fst x)) ls ++ concat (map p_text ps)) =
  Ok (mkRM (n_name n) (concat hdr)
    (match n_zaids n ++ concat (map (fun x => snd (fst x)) ls) with [] => psubs ps
     | zs => mkR (Some (n_name n)) zs [] (n_keys n ++ concat (map snd ls)) :: psubs ps end)).
Proof.
  intros HH HN HL HP. unfold mat_from_text. rewrite map_no_cr.
  2:{ apply Forall_app. split; [now apply comments_no_cr|]. constructor; [exact (proj2 (proj2 (proj2 (proj2 HN))))|]. apply Forall_app. split; [now apply lines_no_cr|].
      apply Forall_concat. apply Forall_map. eapply Forall_impl; [|exact HP]. intros p (C & _ & L & _). unfold p_text. apply Forall_app. split; [now apply comments_no_cr|now apply lines_no_cr]. }
  rewrite foldM_app', (fold_comments hdr (mkMS true [] [] None) HH eq_refl). cbn [bind foldM ms_text ms_subs ms_header app]. unfold mstep at 1. rewrite (name_line_mat n HN). cbn [ms_in ms_text ms_subs ms_header].
  rewrite (name_no_comment n HN). cbn [bind app]. rewrite foldM_app'.
  assert (E : foldM mstep (mkMS false [n_text n] [] (Some (concat hdr))) (map (fun x => fst (fst x)) ls) = Ok (mkMS false (n_text n :: map (fun x => fst (fst x)) ls) [] (Some (concat hdr)))).
  { destruct ls as [|x ls']; [reflexivity|]. rewrite (fold_lines _ _ HL ltac:(discriminate)). reflexivity. }
  rewrite E. cbn [bind]. destruct (fold_parts ps (mkMS false (n_text n :: map (fun x => fst (fst x)) ls) [] (Some (concat hdr))) _ HP eq_refl (sub_first n ls HN HL)) as (st' & E1 & E2 & E3).
  unfold str in *. rewrite E1. cbn [bind]. destruct (sub_from_text (ms_text st')) as [s'|e]; cbn [bind] in E3 |- *; [|discriminate E3]. injection E3 as E3. cbn [ms_subs app] in E3. rewrite E3, E2. cbn [ms_header r_name r_zaids].
  pose proof (name_word n HN) as [Nn Nw]. assert (St : strip (n_name n) = n_name n) by exact (strip_ws_word [] (n_name n) (Forall_nil _) Nn Nw). unfold str in St. rewrite St.
  destruct (n_zaids n ++ concat (map (fun x => snd (fst x)) ls)); reflexivity.
Qed.
