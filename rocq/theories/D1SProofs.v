(** Proofs about the D1S-UNED files. *)
From Coq Require Import NArith Nnat.
From Verif Require Import PyBase PyLemmas PyStr PyStrLemmas WWTextModel WWTextProofs WWTextProofs2 PyText D1SModel D1SSpec.
Open Scope nat_scope.

Lemma token_no_ws s : token s -> no_ws s. Proof. intros [_ H]; exact H. Qed.

(** ** lines *)
Lemma lines_aux_line cur body rest : ~ In nl body -> lines_aux cur (body ++ nl :: rest) = (rev cur ++ body ++ [nl]) :: lines_of rest.
Proof. revert cur; induction body as [|c body IH]; intros cur H; simpl.
  - reflexivity.
  - destruct (Ascii.eqb_spec c nl) as [->|N]; [exfalso; apply H; left; reflexivity|].
    rewrite IH by (intros X; apply H; right; exact X). simpl. rewrite <- app_assoc. reflexivity. Qed.
Lemma lines_line body rest : ~ In nl body -> lines_of (body ++ nl :: rest) = (body ++ [nl]) :: lines_of rest.
Proof. intros H. unfold lines_of. rewrite lines_aux_line by exact H. reflexivity. Qed.
Lemma lines_concat ls rest : Forall (fun l => exists b, l = b ++ [nl] /\ ~ In nl b) ls -> lines_of (concat ls ++ rest) = ls ++ lines_of rest.
Proof. induction 1 as [|l ls [b [-> Hb]] HF IH]; [reflexivity|]. simpl. rewrite <- !app_assoc. simpl. rewrite lines_line by exact Hb. now rewrite IH. Qed.

Lemma no_ws_nl s : no_ws s -> ~ In nl s.
Proof. intros H X. unfold no_ws in H. rewrite Forall_forall in H. specialize (H _ X). discriminate. Qed.
Lemma rjust_nl w s : ~ In nl s -> ~ In nl (rjust w s).
Proof. intros H X. unfold rjust in X. apply in_app_or in X. destruct X as [X|X]; [|contradiction]. apply repeat_spec in X. discriminate. Qed.
Lemma join_nl ws : Forall token ws -> ~ In nl (join_sp ws).
Proof. induction 1 as [|w ws Hw HF IH]; [intros []|]. destruct ws as [|w' ws]; [apply no_ws_nl, Hw|].
  intros X. change (join_sp (w :: w' :: ws)) with (w ++ sp :: join_sp (w' :: ws)) in X. apply in_app_or in X. destruct X as [X|[X|X]].
  - revert X. apply no_ws_nl, Hw.
  - discriminate.
  - contradiction. Qed.

(** ** split with a tail *)
Definition ws_start (x : str) : Prop := match x with c :: _ => is_ws c = true | [] => True end.
Lemma split_tok_then tok x : no_ws tok -> tok <> [] -> ws_start x -> split (tok ++ x) = tok :: split x.
Proof. intros H Hn Hx. destruct x as [|c x].
  - rewrite app_nil_r. now apply split_tok_end.
  - simpl in Hx. rewrite split_tok_ws by assumption. f_equal. change (c :: x) with ([c] ++ x). rewrite split_ws; [reflexivity|]. constructor; [exact Hx|constructor]. Qed.
Lemma split_rjust w s x : split (rjust w s ++ x) = split (s ++ x).
Proof. unfold rjust. rewrite <- app_assoc. apply split_ws, all_ws_repeat. Qed.
Lemma rjust_ws w s x : length s < w -> ws_start (rjust w s ++ x).
Proof. intros H. unfold rjust. destruct (w - length s) as [|k] eqn:E; [lia|]. reflexivity. Qed.
Lemma split_cols cols x : Forall (fun wt => token (snd wt) /\ length (snd wt) < fst wt) cols -> ws_start x ->
  split (concat (map (fun wt => rjust (fst wt) (snd wt)) cols) ++ x) = map snd cols ++ split x.
Proof. intros H Hx. induction H as [|[w t] cols [[T1 T2] L] HF IH]; [reflexivity|]. simpl. rewrite <- app_assoc, split_rjust.
  rewrite split_tok_then; [now rewrite IH|exact T2|exact T1|].
  destruct HF as [|[w' t'] cols [_ L'] HF]; [exact Hx|]. simpl. rewrite <- app_assoc. now apply rjust_ws. Qed.

Lemma split_join ws x : Forall token ws -> ws_start x -> split (join_sp ws ++ x) = ws ++ split x.
Proof. intros H Hx. induction H as [|w ws [T1 T2] HF IH]; [reflexivity|]. destruct ws as [|w' ws].
  - simpl. rewrite split_tok_then; auto.
  - change (join_sp (w :: w' :: ws)) with (w ++ sp :: join_sp (w' :: ws)). rewrite <- app_assoc. change ((sp :: join_sp (w' :: ws)) ++ x) with (sp :: (join_sp (w' :: ws) ++ x)). rewrite split_tok_ws by (auto; reflexivity).
    rewrite IH. reflexivity. Qed.

(** ** strip *)
Lemma lstrip_ws p s : all_ws p -> lstrip (p ++ s) = lstrip s.
Proof. induction 1 as [|c p Hc Hp IH]; [reflexivity|]. simpl. now rewrite Hc. Qed.
Definition tight (s : str) : Prop := s = [] \/ (exists a m, s = a :: m /\ is_ws a = false) /\ (exists b m, s = m ++ [b] /\ is_ws b = false).
Lemma lstrip_tight s x : tight s -> s <> [] -> lstrip (s ++ x) = s ++ x.
Proof. intros [->|[[a [m [-> Ha]]] _]] N; [contradiction|]. simpl. now rewrite Ha. Qed.
Lemma tight_rev s : tight s -> tight (rev s).
Proof. intros [->|[[a [m [E1 Ha]]] [b [m' [E2 Hb]]]]]; [left; reflexivity|]. right. split.
  - exists b, (rev m'). rewrite E2, rev_app_distr. auto.
  - exists a, (rev m). rewrite E1. auto. Qed.
Lemma strip_tight p s q : all_ws p -> all_ws q -> tight s -> strip (p ++ s ++ q) = s.
Proof. intros Hp Hq Ht. unfold strip. rewrite lstrip_ws by exact Hp. destruct s as [|c s].
  - simpl. assert (E : lstrip q = []) by (rewrite <- (app_nil_r q); now rewrite lstrip_ws). rewrite E. reflexivity.
  - rewrite lstrip_tight by (auto; discriminate). rewrite rev_app_distr.
    rewrite lstrip_ws by (apply Forall_rev; exact Hq).
    rewrite <- (app_nil_r (rev (c :: s))). rewrite lstrip_tight; [rewrite app_nil_r; apply rev_involutive|now apply tight_rev|].
    simpl. destruct (rev s); discriminate. Qed.
Lemma token_tight s : token s -> tight s.
Proof. intros [N H]. right. split.
  - destruct s as [|a m]; [contradiction|]. exists a, m. inversion H; auto.
  - destruct (exists_last N) as [m [b ->]]. exists b, m. split; [reflexivity|]. apply Forall_app in H. destruct H as [_ H]. inversion H; auto. Qed.
Lemma join_tight ws : Forall token ws -> tight (join_sp ws).
Proof. induction 1 as [|w ws Hw HF IH]; [left; reflexivity|]. destruct ws as [|w' ws]; [now apply token_tight|].
  change (join_sp (w :: w' :: ws)) with (w ++ sp :: join_sp (w' :: ws)). right. destruct (token_tight w Hw) as [E|[[a [m [-> Ha]]] _]].
  - destruct Hw; contradiction.
  - split; [exists a, (m ++ sp :: join_sp (w' :: ws)); auto|].
    destruct IH as [E|[_ [b [m' [E Hb]]]]].
    + exfalso. inversion HF as [|? ? [N _] _]; subst. destruct w'; [contradiction|]. destruct ws; discriminate.
    + exists b, ((a :: m) ++ sp :: m'). rewrite E, <- app_assoc. auto. Qed.
Lemma concat_sp_join ws : ws <> [] -> concat (map (fun p => sp :: p) ws) = sp :: join_sp ws.
Proof. induction ws as [|w ws IH]; intros N; [contradiction|]. destruct ws as [|w' ws]; [simpl; now rewrite app_nil_r|].
  change (concat (map (fun p => sp :: p) (w :: w' :: ws))) with ((sp :: w) ++ concat (map (fun p => sp :: p) (w' :: ws))).
  rewrite IH by discriminate. reflexivity. Qed.
Lemma strip_comment ws : Forall token ws -> strip (concat (map (fun p => sp :: p) ws)) = join_sp ws.
Proof. intros H. destruct ws as [|w ws]; [reflexivity|]. rewrite concat_sp_join by discriminate.
  change (sp :: join_sp (w :: ws)) with ([sp] ++ join_sp (w :: ws)). rewrite <- (app_nil_r (join_sp (w :: ws))) at 1.
  apply strip_tight; [repeat constructor|constructor|now apply join_tight]. Qed.
Lemma strip_comment_sp ws : Forall token ws -> strip (concat (map (fun p => sp :: p) (ws ++ [[]]))) = join_sp ws.
Proof. intros H. rewrite map_app, concat_app. simpl. destruct ws as [|w ws]; [reflexivity|]. rewrite concat_sp_join by discriminate.
  change (sp :: join_sp (w :: ws)) with ([sp] ++ join_sp (w :: ws)). rewrite <- app_assoc.
  apply strip_tight; [repeat constructor|repeat constructor|now apply join_tight]. Qed.

(** ** take_n *)
Lemma take_n_app {A} n (a b : list A) : length a = n -> take_n n (a ++ b) = Ok (a, b).
Proof. revert a; induction n as [|n IH]; intros [|x a] H; simpl in *; try discriminate; [reflexivity|]. rewrite IH by lia. reflexivity. Qed.

(** ** rows *)
Lemma format_row_cols cols rest args : format_row (map fst cols ++ rest) (map (fun wt => Some (snd wt)) cols ++ args) =
  (do r <- format_row rest args; Ok (concat (map (fun wt => rjust (fst wt) (snd wt)) cols) ++ r)).
Proof. induction cols as [|[w t] cols IH]; simpl; [destruct (format_row rest args); reflexivity|]. rewrite IH. destruct (format_row rest args); simpl; [|reflexivity].
  now rewrite app_assoc. Qed.

Definition row_cols (fmt : nat * nat * nat * nat) (i : irr) : list (nat * str) :=
  match fmt with (w1, w2, w3, w4) => [(w1, i_daughter i); (w2, i_lambda i)] ++ map (fun t => (w3, t)) (i_times i) end.
Definition w4_of (fmt : nat * nat * nat * nat) : nat := match fmt with (_, _, _, w4) => w4 end.
Definition row_text (fmt : nat * nat * nat * nat) (i : irr) (c : str) : str :=
  concat (map (fun wt => rjust (fst wt) (snd wt)) (row_cols fmt i)) ++ rjust (w4_of fmt) c.

Lemma row_format f i c : Z.of_nat (length (i_times i)) = f_nsc f -> i_comment i = Some c ->
  format_row (col_widths f) (row_args i) = Ok (row_text (f_fmt f) i c).
Proof. intros L E. unfold col_widths, row_args, row_text. destruct (f_fmt f) as [[[w1 w2] w3] w4]. rewrite <- L, Nat2Z.id, E.
  pose proof (format_row_cols (row_cols (w1, w2, w3, w4) i) [w4] [Some c]) as F.
  assert (E1 : map fst (row_cols (w1, w2, w3, w4) i) = [w1; w2] ++ repeat w3 (length (i_times i))).
  { simpl. f_equal. f_equal. clear. induction (i_times i) as [|t l IHl]; simpl; [reflexivity|now rewrite IHl]. }
  assert (E2 : map (fun wt => Some (snd wt)) (row_cols (w1, w2, w3, w4) i) = [Some (i_daughter i); Some (i_lambda i)] ++ map Some (i_times i)).
  { simpl. f_equal. f_equal. now rewrite map_map. }
  rewrite E1, E2, <- !app_assoc in F. rewrite F. simpl. rewrite app_nil_r. reflexivity. Qed.

Lemma pat_blank_false s c : In c s -> is_ws c = false -> is_c c = false -> ~ In nl (removelast s) -> pat_blank s = false.
Proof. intros Hin Hw Hc Hn. induction s as [|a s IH]; [reflexivity|]. simpl.
  destruct Hin as [->|Hin].
  - rewrite Hw, Hc. simpl. destruct (Ascii.eqb_spec c nl) as [->|]; [discriminate|reflexivity].
  - destruct s as [|b s]; [destruct Hin|]. rewrite IH; [|exact Hin|intros X; apply Hn; right; exact X].
    destruct (Ascii.eqb_spec a nl) as [->|]; [exfalso; apply Hn; left; reflexivity|]. simpl. now rewrite andb_false_r. Qed.
Lemma removelast_snoc {A} (l : list A) x : removelast (l ++ [x]) = l.
Proof. rewrite removelast_app by discriminate. simpl. apply app_nil_r. Qed.

Lemma split_nl x : split (x ++ [nl]) = split x.
Proof. unfold split. assert (G : forall x cur, split_aux cur (x ++ [nl]) = split_aux cur x); [|apply G].
  clear. induction x as [|c x IH]; intros cur; simpl.
  - destruct cur; reflexivity.
  - destruct (is_ws c); [|apply IH]. destruct cur; rewrite IH; reflexivity. Qed.

Lemma ends_ws_nl s : ends_ws (s ++ [nl]) = true.
Proof. unfold ends_ws. rewrite rev_app_distr. reflexivity. Qed.

Lemma concat_nl ss : Forall (fun s => ~ In nl s) ss -> ~ In nl (concat ss).
Proof. induction 1; simpl; [intros []|]. intros X. apply in_app_or in X. tauto. Qed.

Lemma row_facts fmt i c w1 w2 w3 w4 : fmt = (w1, w2, w3, w4) ->
  token (i_daughter i) -> real_tag (i_daughter i) -> length (i_daughter i) < w1 ->
  token (i_lambda i) -> length (i_lambda i) < w2 -> Forall (fun t => token t /\ length t < w3) (i_times i) ->
  words_text c -> length c < w4 ->
  ~ In nl (row_text fmt i c) /\ pat_nsc (row_text fmt i c ++ [nl]) = false /\ pat_comment (row_text fmt i c ++ [nl]) = false /\
  pat_blank (row_text fmt i c ++ [nl]) = false /\
  irr_from_text (row_text fmt i c ++ [nl]) (Z.of_nat (length (i_times i))) = Ok (mkirr (i_daughter i) (i_lambda i) (i_times i) (Some c)).
Proof. intros Ef TD RD LD TL LL HT [ws [Hws Ec]] LC. subst fmt.
  assert (HC : Forall (fun wt => token (snd wt) /\ length (snd wt) < fst wt) (row_cols (w1, w2, w3, w4) i)).
  { constructor; [auto|]. constructor; [auto|]. apply Forall_map. exact HT. }
  assert (NL : ~ In nl (row_text (w1, w2, w3, w4) i c)).
  { unfold row_text. intros X. apply in_app_or in X. destruct X as [X|X].
    - revert X. apply concat_nl. apply Forall_map. eapply Forall_impl; [|exact HC]. intros wt [T _]. apply rjust_nl, no_ws_nl, T.
    - revert X. apply rjust_nl. rewrite Ec. now apply join_nl. }
  assert (ST : exists r, row_text (w1, w2, w3, w4) i c = sp :: r).
  { unfold row_text. simpl. unfold rjust at 1. destruct (w1 - length (i_daughter i)) as [|k] eqn:E; [lia|]. simpl. eauto. }
  destruct ST as [r ST].
  split; [exact NL|]. split; [|split; [|split]].
  - rewrite ST. simpl. destruct (r ++ [nl]) as [|? [|? ?]]; reflexivity.
  - rewrite ST. simpl. destruct (r ++ [nl]) as [|? [|? ?]]; reflexivity.
  - destruct RD as [ch [Hin [N1 N2]]]. apply (pat_blank_false _ ch).
    + apply in_or_app. left. unfold row_text. apply in_or_app. left. simpl. apply in_or_app. left. unfold rjust. apply in_or_app. right. exact Hin.
    + destruct TD as [_ TD]. rewrite Forall_forall in TD. now apply TD.
    + unfold is_c. destruct (Ascii.eqb_spec ch "C"); [contradiction|]. destruct (Ascii.eqb_spec ch "c"); [contradiction|]. reflexivity.
    + rewrite removelast_snoc. exact NL.
  - assert (SP : split (row_text (w1, w2, w3, w4) i c ++ [nl]) = map snd (row_cols (w1, w2, w3, w4) i) ++ ws).
    { unfold row_text. rewrite <- app_assoc. rewrite split_cols; [|exact HC|now apply rjust_ws]. f_equal. rewrite split_rjust, split_nl, Ec.
      rewrite <- (app_nil_r (join_sp ws)). rewrite split_join; [apply app_nil_r|exact Hws|exact I]. }
    unfold irr_from_text.
    assert (RS : resplit (row_text (w1, w2, w3, w4) i c ++ [nl]) = [] :: (i_daughter i :: i_lambda i :: i_times i) ++ ws ++ [[]]).
    { unfold resplit. rewrite SP, ends_ws_nl. rewrite ST. change (starts_ws ((sp :: r) ++ [nl])) with true. simpl. f_equal.
      rewrite map_map. simpl. rewrite map_id. now rewrite <- app_assoc. }
    rewrite RS. cbn [app take_n bind]. rewrite Nat2Z.id. rewrite take_n_app by reflexivity. cbn [bind]. simpl concat. rewrite !app_nil_r.
    rewrite strip_comment_sp by exact Hws. rewrite <- Ec.
    destruct (concat (map (fun p => sp :: p) (ws ++ [[]]))) eqn:E; [|reflexivity].
    exfalso. destruct ws; discriminate. Qed.

Lemma write_rows_ok f l : Forall (fun i => Z.of_nat (length (i_times i)) = f_nsc f /\ i_comment i <> None) l ->
  write_rows (col_widths f) l = (concat (map (fun i => row_text (f_fmt f) i (match i_comment i with Some c => c | None => [] end) ++ [nl]) l), None).
Proof. induction 1 as [|i l [H1 H2] HF IH]; [reflexivity|]. simpl. destruct (i_comment i) as [c|] eqn:E; [|contradiction].
  rewrite (row_format f i c H1 E). rewrite IH. f_equal. rewrite <- app_assoc. reflexivity. Qed.

Lemma title_format f : exists t, format_row (col_widths f) (title_args (Z.to_nat (f_nsc f))) = Ok t /\ ~ In nl t.
Proof. unfold col_widths, title_args. destruct (f_fmt f) as [[[w1 w2] w3] w4]. set (n := Z.to_nat (f_nsc f)).
  set (name := fun k => s2l "time_fact_" ++ str_of_N (N.of_nat (k + 1))).
  pose (cols := [(w1, s2l "Daught."); (w2, s2l "lambda(1/s)")] ++ map (fun k => (w3, name k)) (seq 0 n)).
  pose proof (format_row_cols cols [w4] [Some (s2l "comments")]) as F.
  assert (E1 : map fst cols ++ [w4] = [w1; w2] ++ repeat w3 n ++ [w4]).
  { unfold cols. rewrite map_app, map_map. simpl. do 3 f_equal. rewrite <- (seq_length n 0) at 2. clear. induction (seq 0 n) as [|t l IHl]; simpl; [reflexivity|now rewrite IHl]. }
  assert (E2 : map (fun wt => Some (snd wt)) cols ++ [Some (s2l "comments")] = [Some (s2l "Daught."); Some (s2l "lambda(1/s)")] ++ map (fun k => Some (name k)) (seq 0 n) ++ [Some (s2l "comments")]).
  { unfold cols. rewrite map_app, map_map. simpl. reflexivity. }
  rewrite E1, E2 in F. eexists. split; [exact F|]. simpl bind. intros X. apply in_app_or in X. destruct X as [X|X].
  - revert X. apply concat_nl. apply Forall_map. unfold cols. apply Forall_app. split.
    + repeat constructor; apply rjust_nl; simpl; intros Y; repeat (destruct Y as [Y|Y]; [discriminate|]); exact Y.
    + apply Forall_map. apply Forall_forall. intros k _. apply rjust_nl. unfold name. cbn [snd]. intros Y. apply in_app_or in Y. destruct Y as [Y|Y].
      * simpl in Y. repeat (destruct Y as [Y|Y]; [discriminate|]). exact Y.
      * revert Y. apply no_ws_nl, digits_no_ws, str_of_N_digits.
  - revert X. simpl. rewrite app_nil_r. apply rjust_nl. simpl. intros Y. repeat (destruct Y as [Y|Y]; [discriminate|]). exact Y. Qed.

Lemma foldM_app {A B} (g : A -> B -> res A) a l1 l2 : foldM g a (l1 ++ l2) = (do a' <- foldM g a l1; foldM g a' l2).
Proof. revert a; induction l1 as [|x l1 IH]; intros a; simpl; [reflexivity|]. destruct (g a x); simpl; [apply IH|reflexivity]. Qed.

Lemma read_header_lines ls h : Forall (fun l => exists b, l = b ++ [nl] /\ ~ In nl b /\ pat_nsc l = false) ls ->
  foldM read_line (mkr None h []) ls = Ok (mkr None (h ++ concat ls) []).
Proof. intros H. revert h; induction H as [|l ls [b [E [Hb Hn]]] HF IH]; intros h; simpl; [now rewrite app_nil_r|].
  unfold read_line at 1. rewrite Hn. simpl. rewrite IH. now rewrite <- app_assoc. Qed.

Lemma nsc_digits n : first_digits (s2l "nsc " ++ str_of_N n ++ [nl]) = Some (str_of_N n).
Proof. change (first_digits (s2l "nsc " ++ str_of_N n ++ [nl])) with (first_digits (str_of_N n ++ [nl])).
  pose proof (str_of_N_digits n) as D. pose proof (str_of_N_ne n) as N. destruct (str_of_N n) as [|c s]; [contradiction|].
  inversion D as [|? ? Hc Hs]; subst. cbn [app first_digits]. rewrite Hc. f_equal. change (c :: s ++ [nl]) with ((c :: s) ++ [nl]).
  rewrite span_digits_app; [reflexivity|exact D|reflexivity]. Qed.

Lemma iread_iwrite f : carryable f -> exists t, iwrite f = (t, None) /\
  iread t = Ok (mkifile (f_nsc f) (f_scheds f) (Some (match f_header f with Some h => h | None => [] end)) default_fmt).
Proof. unfold carryable. destruct (f_fmt f) as [[[w1 w2] w3] w4] eqn:Ef. intros (Hn & Hh & HF).
  destruct (title_format f) as [title [Ht Nt]].
  set (h := match f_header f with Some h => h | None => [] end).
  assert (HT : header_text h) by (unfold h; destruct (f_header f); [exact Hh|exists []; split; [reflexivity|constructor]]).
  destruct HT as [ls [Eh Hls]].
  pose (rows := map (fun i => row_text (f_fmt f) i (match i_comment i with Some c => c | None => [] end) ++ [nl]) (f_scheds f)).
  assert (HW : write_rows (col_widths f) (f_scheds f) = (concat rows, None)).
  { apply write_rows_ok. eapply Forall_impl; [|exact HF]. intros i (_ & _ & _ & _ & _ & L & _ & c & E & _). split; [exact L|congruence]. }
  unfold iwrite. fold h. rewrite Ht, HW. eexists. split; [reflexivity|].
  assert (EZ : str_of_Z (f_nsc f) = str_of_N (Z.to_N (f_nsc f))) by (destruct (f_nsc f); [reflexivity|reflexivity|lia]).
  assert (LL : lines_of (h ++ (s2l "nsc " ++ str_of_Z (f_nsc f) ++ [nl]) ++ s2l "C " ++ title ++ nl :: concat rows) =
     ls ++ (s2l "nsc " ++ str_of_N (Z.to_N (f_nsc f)) ++ [nl]) :: ((s2l "C " ++ title) ++ [nl]) :: rows).
  { rewrite Eh, lines_concat by (eapply Forall_impl; [|exact Hls]; intros l (b & E & Hb & _); eauto). f_equal. rewrite EZ.
    rewrite <- !app_assoc. change ([nl] ++ s2l "C " ++ title ++ nl :: concat rows) with (nl :: s2l "C " ++ title ++ nl :: concat rows).
    rewrite (app_assoc (s2l "nsc ")). rewrite lines_line.
    2:{ intros X. apply in_app_or in X. destruct X as [X|X].
        - simpl in X. repeat (destruct X as [X|X]; [discriminate|]). exact X.
        - revert X. apply no_ws_nl, digits_no_ws, str_of_N_digits. }
    rewrite <- app_assoc. f_equal. rewrite (app_assoc (s2l "C ")). rewrite lines_line.
    2:{ intros X. apply in_app_or in X. destruct X as [X|X]; [|contradiction]. simpl in X. repeat (destruct X as [X|X]; [discriminate|]). exact X. }
    f_equal. rewrite <- (app_nil_r (concat rows)). rewrite lines_concat; [apply app_nil_r|].
    unfold rows. apply Forall_map. eapply Forall_impl; [|exact HF]. intros i (TD & RD & LD & TL & LLa & L & HTi & c & E & Wc & Lc). rewrite E.
    exists (row_text (f_fmt f) i c). split; [reflexivity|]. apply (row_facts (f_fmt f) i c w1 w2 w3 w4); auto. }
  unfold iread. rewrite LL. rewrite foldM_app, (read_header_lines ls [] Hls). cbn [bind app foldM]. rewrite <- Eh.
  unfold read_line at 1. change (pat_nsc (s2l "nsc " ++ str_of_N (Z.to_N (f_nsc f)) ++ [nl])) with true. cbv iota.
  rewrite nsc_digits, num_of_str. cbn [bind r_header r_scheds]. rewrite Z2N.id by exact Hn.
  unfold read_line at 1. assert (PN : pat_nsc ((s2l "C " ++ title) ++ [nl]) = false) by (rewrite <- app_assoc; destruct (title ++ [nl]); reflexivity).
  rewrite PN. cbn [r_nsc].
  change (pat_comment ((s2l "C " ++ title) ++ [nl])) with true. rewrite orb_true_r. cbv iota. cbn [bind].
  assert (G : forall acc, foldM read_line (mkr (Some (f_nsc f)) h acc) rows = Ok (mkr (Some (f_nsc f)) h (acc ++ f_scheds f))).
  { unfold rows. clear HW LL rows. revert HF. generalize (f_scheds f) as sc. intros sc HF. induction HF as [|i l (TD & RD & LD & TL & LLa & L & HTi & c & E & Wc & Lc) HF IH]; intros acc.
    - cbn. now rewrite app_nil_r.
    - cbn [map foldM]. rewrite E. destruct (row_facts (f_fmt f) i c w1 w2 w3 w4 Ef TD RD LD TL LLa HTi Wc Lc) as (_ & P1 & P2 & P3 & P4).
      unfold read_line at 1. rewrite P1. cbv iota. cbn [r_nsc]. rewrite P2, P3. cbn [orb]. rewrite <- L at 1. rewrite P4. cbn [bind r_header r_scheds].
      replace (mkirr (i_daughter i) (i_lambda i) (i_times i) (Some c)) with i by (destruct i; simpl in *; congruence).
      rewrite IH. now rewrite <- app_assoc. }
  rewrite G. reflexivity. Qed.
