(** Proofs about the reading of all the materials of an input. *)
From Coq Require Import Lia.
From Verif Require Import PyBase PyLemmas PyStr PyText LibModel MatModel MatTextModel MatTextSpec MatTextProofs MatInModel MatInSpec.
Open Scope nat_scope.

Lemma add_last_end ms m x mx : add_last (ms ++ [(m, x)]) mx = Ok (ms ++ [(m, x ++ [mx])]).
Proof. unfold add_last. rewrite rev_app_distr. cbn [rev app]. rewrite rev_involutive. reflexivity. Qed.
Lemma step_other ms pv c : OtherCard c -> fstep (mkF ms pv [] false) c = Ok (mkF ms c [] false).
Proof. intros [A B]. unfold fstep. rewrite A, B. reflexivity. Qed.
Lemma fold_others ms cs : forall pv, Forall (fun c => OtherCard c /\ is_comment c = false) cs -> is_comment pv = false ->
  exists pv', foldM fstep (mkF ms pv [] false) cs = Ok (mkF ms pv' [] false) /\ is_comment pv' = false.
Proof.
  induction cs as [|c cs IH]; intros pv H E; cbn [foldM]; [eauto|]. destruct (Forall_inv H) as [H1 H2]. rewrite (step_other ms pv c H1). cbn [bind]. apply IH; [exact (Forall_inv_tail H)|exact H2].
Qed.
Lemma fold_mx ms cs : forall pv x f, Forall MxCard cs -> cs <> [] -> exists pv', foldM fstep (mkF ms pv x f) cs = Ok (mkF ms pv' (x ++ cs) true) /\ is_comment pv' = false.
Proof.
  induction cs as [|c cs IH]; intros pv x f H N; [contradiction|]. cbn [foldM]. destruct (Forall_inv H) as (A & B & C). unfold fstep at 1. cbn [f_mats f_mx]. rewrite A, B. cbn [bind].
  destruct cs as [|d cs]; [exists c; split; [reflexivity|exact C]|]. destruct (IH c (x ++ [c]) true (Forall_inv_tail H) ltac:(discriminate)) as (pv' & E & P). exists pv'. split; [|exact P]. rewrite E, <- app_assoc. reflexivity.
Qed.
(** the materials and the mx cards that wait for the next card *)
Definition waiting (ms : list mat_mx) (b : block) (m : rmat) (st : fstate) : Prop :=
  is_comment (f_prev st) = false /\
  ((b_after b = [] /\ b_mx b <> [] /\ st = mkF (ms ++ [(m, [])]) (f_prev st) (b_mx b) true) \/
   ((b_mx b = [] \/ b_after b <> []) /\ st = mkF (ms ++ [(m, b_runs b)]) (f_prev st) [] false)).
Lemma fold_tail ms m b pv : Block b -> is_comment pv = false ->
  exists st, foldM fstep (mkF (ms ++ [(m, [])]) pv [] false) (b_between b ++ b_mx b ++ b_after b) = Ok st /\ waiting ms b m st.
Proof.
  intros (_ & _ & _ & HB & HX & HA & HN) P. rewrite foldM_app'. destruct (fold_others (ms ++ [(m, [])]) (b_between b) pv HB P) as (pv1 & E1 & P1). rewrite E1. cbn [bind].
  destruct (b_mx b) as [|x xs] eqn:Ex.
  - rewrite (HN eq_refl). cbn [app foldM]. eexists. split; [reflexivity|]. split; [exact P1|]. right. split; [left; exact Ex|]. unfold b_runs. rewrite Ex. reflexivity.
  - rewrite foldM_app'. destruct (fold_mx (ms ++ [(m, [])]) (x :: xs) pv1 [] false HX ltac:(discriminate)) as (pv2 & E2 & P2). rewrite E2. cbn [bind app].
    destruct (b_after b) as [|a aft] eqn:Ea.
    + cbn [foldM]. eexists. split; [reflexivity|]. split; [exact P2|]. left. rewrite Ex. repeat split; [exact Ea|discriminate].
    + cbn [foldM]. destruct (Forall_inv HA) as [[A B] C]. unfold fstep at 1. cbn [f_mats f_mx f_found]. rewrite A, B. cbn [bind]. rewrite add_last_end. cbn [bind app].
      destruct (fold_others (ms ++ [(m, [x :: xs])]) aft a (Forall_inv_tail HA) C) as (pv3 & E3 & P3). rewrite E3. eexists. split; [reflexivity|]. split; [exact P3|]. right. split; [right; rewrite Ea; discriminate|].
      unfold b_runs. rewrite Ex. reflexivity.
Qed.
Lemma mat_step ms pv c m : MatCard c -> mat_from_text (if is_comment pv then pv ++ c else c) = Ok m -> fstep (mkF ms pv [] false) c = Ok (mkF (ms ++ [(m, [])]) c [] false).
Proof. intros [A B] E. unfold fstep. cbn [f_prev f_mats f_found f_mx]. rewrite A, E. cbn [bind]. rewrite B. reflexivity. Qed.
(** a block after a state in which nothing waits *)
Lemma fold_block ms pv b m : Block b -> is_comment pv = false -> mat_from_text (b_text b) = Ok m ->
  exists st, foldM fstep (mkF ms pv [] false) (b_cards b) = Ok st /\ waiting ms b m st.
Proof.
  intros H P E. pose proof H as (HC & HM & HMc & _). unfold b_cards, b_text in *. destruct (b_comment b) as [c|].
  - destruct HC as [HO HCc]. cbn [app foldM]. rewrite (step_other ms pv c HO). cbn [bind]. rewrite (mat_step ms c (b_card b) m HM) by (rewrite HCc; exact E). cbn [bind]. apply fold_tail; assumption.
  - cbn [app foldM]. rewrite (mat_step ms pv (b_card b) m HM) by (rewrite P; exact E). cbn [bind]. apply fold_tail; assumption.
Qed.
(** the same when mx cards wait, if the block starts with a comment *)
Lemma fold_block_waiting ms m0 x pv b m : Block b -> b_comment b <> None -> mat_from_text (b_text b) = Ok m ->
  exists st, foldM fstep (mkF (ms ++ [(m0, [])]) pv x true) (b_cards b) = Ok st /\ waiting (ms ++ [(m0, [x])]) b m st.
Proof.
  intros H N E. pose proof H as (HC & HM & HMc & _). unfold b_cards, b_text in *. destruct (b_comment b) as [c|]; [|contradiction]. destruct HC as [[A B] HCc]. cbn [app foldM].
  unfold fstep at 1. cbn [f_mats f_mx f_found]. rewrite A, B. cbn [bind]. rewrite add_last_end. cbn [bind app]. rewrite (mat_step _ c (b_card b) m HM) by (rewrite HCc; exact E). cbn [bind]. apply fold_tail; assumption.
Qed.
Lemma fold_blocks bs : forall b ms m st mats, waiting ms b m st -> apart (b :: bs) -> Forall Block bs -> Forall2 (fun b m => mat_from_text (b_text b) = Ok m) bs mats ->
  (do st' <- foldM fstep st (concat (map b_cards bs)); if f_found st' then add_last (f_mats st') (f_mx st') else Ok (f_mats st')) =
  Ok (ms ++ (m, b_runs b) :: combine mats (map b_runs bs)).
Proof.
  induction bs as [|b' bs IH]; intros b ms m st mats [P W] AP HB HF; inversion HF as [|? m' ? mats' E' HF']; subst; cbn [map concat combine].
  - cbn [foldM bind]. destruct W as [(Ea & Ex & ->)|(_ & ->)]; cbn [f_found f_mats f_mx].
    + rewrite add_last_end. unfold b_runs. destruct (b_mx b); [contradiction|]. reflexivity.
    + reflexivity.
  - rewrite foldM_app'. cbn [apart] in AP. destruct AP as [AP1 AP2]. pose proof (Forall_inv HB) as Hb.
    assert (S : exists st', foldM fstep st (b_cards b') = Ok st' /\ waiting (ms ++ [(m, b_runs b)]) b' m' st').
    { destruct W as [(Ea & Ex & ->)|(_ & ->)].
      - destruct (AP1 Ex) as [X|X]; [contradiction|]. destruct (fold_block_waiting ms m (b_mx b) (f_prev st) b' m' Hb X E') as (st' & F & V). exists st'. split; [exact F|].
        assert (R : b_runs b = [b_mx b]) by (unfold b_runs; destruct (b_mx b); [contradiction|reflexivity]). rewrite R. exact V.
      - apply fold_block; assumption. }
    destruct S as (st' & F & V). rewrite F. cbn [bind]. rewrite (IH b' (ms ++ [(m, b_runs b)]) m' st' mats' V AP2 (Forall_inv_tail HB) HF'), <- app_assoc. reflexivity.
Qed.
Lemma input_read pre bs mats : Forall (fun c => OtherCard c /\ is_comment c = false) pre -> Forall Block bs -> apart bs -> Forall2 (fun b m => mat_from_text (b_text b) = Ok m) bs mats ->
  from_input (pre ++ concat (map b_cards bs)) = Ok (combine mats (map b_runs bs)).
Proof.
  intros HP HB HA HF. unfold from_input. rewrite foldM_app'. destruct (fold_others [] pre [[]] HP eq_refl) as (pv & E & P). rewrite E. cbn [bind]. destruct HF as [|b m bs mats Em HF]; [reflexivity|].
  cbn [map concat combine]. rewrite foldM_app'. destruct (fold_block [] pv b m (Forall_inv HB) P Em) as (st & F & W). rewrite F. cbn [bind]. exact (fold_blocks bs b [] m st mats W HA (Forall_inv_tail HB) HF).
Qed.
(** whatever the mx cards: the materials *)
Lemma add_last_fst ms mx ms' : add_last ms mx = Ok ms' -> map fst ms' = map fst ms.
Proof.
  unfold add_last. destruct (rev ms) as [|[m x] r] eqn:E; [discriminate|]. intros [= <-]. rewrite <- (rev_involutive ms), E. cbn [rev]. rewrite !map_app. reflexivity.
Qed.
Lemma fold_sources cs : forall st st', foldM fstep st cs = Ok st' -> exists ms, Forall2 (fun t m => mat_from_text t = Ok m) (sources (f_prev st) cs) ms /\ map fst (f_mats st') = map fst (f_mats st) ++ ms.
Proof.
  induction cs as [|c cs IH]; intros st st' E; cbn [foldM] in E.
  - injection E as <-. exists []. split; [constructor|now rewrite app_nil_r].
  - destruct (fstep st c) as [s1|e] eqn:F; [|discriminate E]. cbn [bind] in E. destruct (IH s1 st' E) as (ms & H & M). cbn [sources].
    assert (X : exists m1, Forall2 (fun t m => mat_from_text t = Ok m) (if is_mat c then [if is_comment (f_prev st) then f_prev st ++ c else c] else []) m1 /\ map fst (f_mats s1) = map fst (f_mats st) ++ m1 /\ f_prev s1 = c).
    { unfold fstep in F. destruct (is_mat c).
      - destruct (mat_from_text (if is_comment (f_prev st) then f_prev st ++ c else c)) as [m|] eqn:Em; [|discriminate F]. cbn [bind] in F. exists [m]. split; [constructor; [exact Em|constructor]|].
        destruct (is_mx c); [injection F as <-; cbn [f_mats f_prev]; rewrite map_app; auto|]. destruct (f_found st).
        + destruct (add_last (f_mats st ++ [(m, [])]) (f_mx st)) as [ms2|] eqn:Ea; [|discriminate F]. cbn [bind] in F. injection F as <-. cbn [f_mats f_prev]. apply add_last_fst in Ea. rewrite Ea, map_app. auto.
        + injection F as <-. cbn [f_mats f_prev]. rewrite map_app. auto.
      - cbn [bind] in F. exists []. split; [constructor|]. rewrite app_nil_r. destruct (is_mx c); [injection F as <-; auto|]. destruct (f_found st).
        + destruct (add_last (f_mats st) (f_mx st)) as [ms2|] eqn:Ea; [|discriminate F]. cbn [bind] in F. injection F as <-. cbn [f_mats f_prev]. apply add_last_fst in Ea. auto.
        + injection F as <-. auto. }
    destruct X as (m1 & H1 & M1 & P1). rewrite P1 in H. exists (m1 ++ ms). split; [apply Forall2_app; assumption|]. rewrite M, M1, <- app_assoc. reflexivity.
Qed.
Lemma input_materials cs ms : from_input cs = Ok ms -> Forall2 (fun t m => mat_from_text t = Ok m) (sources [[]] cs) (map fst ms).
Proof.
  unfold from_input. destruct (foldM fstep (mkF [] [[]] [] false) cs) as [st|] eqn:E; [|discriminate]. cbn [bind]. intros H. destruct (fold_sources cs _ _ E) as (m1 & F & M). cbn [f_prev f_mats map app] in F, M.
  assert (X : map fst ms = map fst (f_mats st)). { destruct (f_found st); [exact (add_last_fst _ _ _ H)|injection H as <-; reflexivity]. } rewrite X, M. exact F.
Qed.

(** ** kinds of cards *)
Lemma lower_x c : Ascii.eqb (lower c) "x"%char = true <-> c = "x"%char \/ c = "X"%char.
Proof.
  split; [|intros [-> | ->]; reflexivity]. destruct c as [b0 b1 b2 b3 b4 b5 b6 b7]. destruct b0, b1, b2, b3, b4, b5, b6, b7; vm_compute; intros H; first [discriminate H|left; reflexivity|right; reflexivity].
Qed.
Lemma span_digits_some r : (exists d t, r = d :: t /\ is_digit d = true) <-> fst (span_digits r) <> [].
Proof.
  destruct r as [|d t]; cbn [span_digits]; [split; [intros (d & t & E & _); discriminate E|intros H; destruct (H eq_refl)]|].
  destruct (is_digit d) eqn:D.
  - split; [|intros _; exists d, t; auto]. intros _. destruct (span_digits t); discriminate.
  - split; [intros (d' & t' & E & D'); injection E as <- <-; congruence|intros H; destruct (H eq_refl)].
Qed.
Lemma ws_not_m c : c = "m"%char \/ c = "M"%char -> is_ws c = false. Proof. intros [-> | ->]; reflexivity. Qed.
Lemma mat_start l : (match pat_mat l with Some _ => true | None => false end) = true <-> MatStart l.
Proof.
  unfold pat_mat, MatStart, MatWord. destruct (span_ws_spec l) as (w & r & E & -> & W & N). rewrite E. split.
  - destruct r as [|c r]; [discriminate|]. destruct (Ascii.eqb (lower c) "m"%char) eqn:M; [|discriminate]. intros H. apply lower_m in M.
    assert (X : fst (span_digits r) <> []) by (destruct (span_digits r) as [[|x ds] t]; [discriminate H|discriminate]). apply span_digits_some in X. destruct X as (d & t & -> & D).
    exists w, (c :: d :: t). split; [reflexivity|]. split; [exact W|]. exists c, d, t. auto.
  - intros (w' & r' & E' & W' & c & d & t & -> & C & D). assert (S1 := E). rewrite E' in S1. rewrite (span_ws_ok w' (c :: d :: t) W') in S1 by (intros x y Q; injection Q as <- _; exact (ws_not_m _ C)).
    apply pair_equal_spec in S1. destruct S1 as [_ <-]. rewrite (proj2 (lower_m c) C). pose proof (proj1 (span_digits_some (d :: t)) (ex_intro _ d (ex_intro _ t (conj eq_refl D)))) as X.
    destruct (span_digits (d :: t)) as [[|x ds] y]; [destruct (X eq_refl)|reflexivity].
Qed.
Lemma mx_start l : pat_mx l = true <-> MxStart l.
Proof.
  unfold pat_mx, MxStart. destruct (span_ws_spec l) as (w & r & E & -> & W & N). rewrite E. cbn [snd]. split.
  - destruct r as [|c [|x r]]; [discriminate|discriminate|]. intros H. apply andb_prop in H. destruct H as [H D]. apply andb_prop in H. destruct H as [C X]. apply lower_m in C. apply lower_x in X.
    assert (Y : fst (span_digits r) <> []) by (destruct (fst (span_digits r)); [discriminate D|discriminate]). apply span_digits_some in Y. destruct Y as (d & t & -> & Y).
    exists w, c, x, d, t. auto.
  - intros (w' & c & x & d & t & E' & W' & C & X & D). assert (S1 := E). rewrite E' in S1. rewrite (span_ws_ok w' (c :: x :: d :: t) W') in S1 by (intros a b Q; injection Q as <- _; exact (ws_not_m _ C)).
    apply pair_equal_spec in S1. destruct S1 as [_ <-]. rewrite (proj2 (lower_m c) C), (proj2 (lower_x x) X). cbn [andb]. pose proof (proj1 (span_digits_some (d :: t)) (ex_intro _ d (ex_intro _ t (conj eq_refl D)))) as Y.
    destruct (fst (span_digits (d :: t))); [destruct (Y eq_refl)|reflexivity].
Qed.
Lemma comment_start l : pat_comment l = true <-> CommentLine l.
Proof.
  unfold pat_comment, CommentLine. split.
  - destruct l as [|c [|d r]]; [discriminate|discriminate|]. intros H. apply andb_prop in H. destruct H as [C D]. exists c, d, r. split; [reflexivity|]. split; [|exact D]. unfold is_c in C. apply orb_prop in C. destruct C as [C|C]; apply Ascii.eqb_eq in C; auto.
  - intros (c & d & r & -> & C & D). rewrite D. destruct C as [-> | ->]; reflexivity.
Qed.
