From Coq Require Import Lia.
From Verif Require Import PyBase PyLemmas PyStr PyStrLemmas PyText CliModel CliSpec D1SProofs2 CliProofs.
Open Scope nat_scope.

Lemma isdigit_digits s : digits s -> s <> [] -> isdigit s = true.
Proof. intros D N. destruct s as [|c s]; [contradiction|]. unfold isdigit. apply forallb_forall. now apply Forall_forall. Qed.

Lemma ask_number_nth E (ws : wins E) n k rest : nth_error (dkeys ws) n = Some k ->
  ask_number E ws (str_of_N (N.of_nat (S n)) :: rest) = HOk k ws rest.
Proof. intros H. cbn [ask_number]. rewrite isdigit_digits by (try apply str_of_N_digits; apply str_of_N_ne). rewrite num_of_str.
  destruct (N.of_nat (S n)) as [|p] eqn:Ep; [lia|]. replace (Pos.to_nat p - 1) with n by lia. now rewrite H. Qed.

Definition op_of_word (w : str) (o : opcmd) : Prop := opcmd_of w = Some o.

Lemma derive_typed E (ws : wins E) n k w suffix ar op args qs rest w' :
  NoDup (dkeys ws) -> 2 <= length ws -> nth_error ws n = Some (k, w) ->
  length args = ar -> mapM parse_float args = Ok qs -> op qs (l_win w) = Ok w' -> l_name w <> [] ->
  derive E ar op suffix ws (str_of_N (N.of_nat (S n)) :: args ++ rest) =
    HOk tt (put E (stem_of_name (k ++ suffix)) (mklw (k ++ suffix) w') ws) rest.
Proof. intros ND L Hn Ha Hq Ho Hl. unfold derive.
  assert (S : select_key E ws (str_of_N (N.of_nat (S n)) :: args ++ rest) = HOk (Some k) ws (args ++ rest)).
  { unfold select_key. destruct ws as [|[k1 w1] [|x ws]]; cbn [length] in L; try lia. rewrite (ask_number_nth E _ n k); [reflexivity|].
    unfold dkeys. rewrite nth_error_map, Hn. reflexivity. }
  rewrite S. cbn [hbind]. 
  assert (G : dget str_eqb k ws = Some w). { apply (in_dget str_eqb str_eqb_eq); [exact ND|]. now apply nth_error_In in Hn. }
  rewrite G.
  assert (F : forall ar args qs, length args = ar -> mapM parse_float args = Ok qs -> ask_floats E ar ws (args ++ rest) = HOk qs ws rest).
  { clear. induction ar as [|ar IH]; intros args qs Ha Hq; destruct args as [|a args]; cbn [length] in Ha; try lia.
    - cbn in Hq. injection Hq as <-. reflexivity.
    - cbn [ask_floats app hinput hbind]. cbn [mapM] in Hq. destruct (parse_float a) as [q|]; cbn [bind] in Hq; [|discriminate].
      destruct (mapM parse_float args) as [qs'|] eqn:E'; cbn [bind] in Hq; [|discriminate]. injection Hq as <-. cbn [hlift hbind].
      rewrite (IH args qs' ltac:(lia) E'). reflexivity. }
  rewrite (F ar args qs Ha Hq). cbn [hbind]. rewrite Ho. cbn [hlift hbind]. destruct (l_name w) eqn:En; [contradiction|reflexivity]. Qed.

Lemma operate_typed E (ws : wins E) n k w word args suffix rest w' :
  NoDup (dkeys ws) -> 2 <= length ws -> nth_error ws n = Some (k, w) -> l_name w <> [] ->
  typed_op E word args suffix (l_win w) w' ->
  main_command E (s2l "operate") ws (word :: str_of_N (N.of_nat (S n)) :: args ++ rest) =
    HOk tt (dset str_eqb (stem_of_name (k ++ suffix)) (mklw (k ++ suffix) w') ws) rest.
Proof. intros ND L Hn Hl T.
  assert (M : forall inp, main_command E (s2l "operate") ws inp = operate_loop E (length inp) ws inp) by reflexivity.
  rewrite M. cbn [length operate_loop].
  remember (l_win w) as wx eqn:Ew. destruct T as [t s w0 w' P O|t1 q1 t2 q2 w0 w' P1 P2 O|w0 w' O|t r w0 w' P O].
  - change (lower_str (s2l "soft")) with (s2l "soft"). cbn [str_eqb s2l list_ascii_of_string Ascii.eqb Bool.eqb andb opcmd_of].
    unfold handle_op. rewrite (derive_typed E ws n k w _ _ (op_run E OSoft) [t] [s] rest w' ND L Hn); try (rewrite <- Ew; exact O); auto. cbn [mapM]. now rewrite P.
  - change (lower_str (s2l "add")) with (s2l "add"). cbn [str_eqb s2l list_ascii_of_string Ascii.eqb Bool.eqb andb opcmd_of].
    unfold handle_op. rewrite (derive_typed E ws n k w _ _ (op_run E OAdd) [t1; t2] [q1; q2] rest w' ND L Hn); try (rewrite <- Ew; exact O); auto. cbn [mapM]. rewrite P1. cbn [bind]. now rewrite P2.
  - change (lower_str (s2l "remove")) with (s2l "remove"). cbn [str_eqb s2l list_ascii_of_string Ascii.eqb Bool.eqb andb opcmd_of].
    unfold handle_op. rewrite (derive_typed E ws n k w _ _ (op_run E ORemove) [] [] rest w' ND L Hn); try (rewrite <- Ew; exact O); auto.
  - change (lower_str (s2l "mitigate")) with (s2l "mitigate"). cbn [str_eqb s2l list_ascii_of_string Ascii.eqb Bool.eqb andb opcmd_of].
    unfold handle_op. rewrite (derive_typed E ws n k w _ _ (op_run E OMitigate) [t] [r] rest w' ND L Hn); try (rewrite <- Ew; exact O); auto. cbn [mapM]. now rewrite P. Qed.

(** file names *)
Lemma path_name_dir dir p : ~ In slash p -> path_name (dir ++ slash :: p) = p.
Proof. intros H. unfold path_name. assert (G : forall p cur, ~ In slash p -> path_name_aux cur p = rev cur ++ p).
  { clear. induction p as [|c p IH]; intros cur H; cbn [path_name_aux]; [now rewrite app_nil_r|].
    destruct (Ascii.eqb_spec c slash) as [->|_]; [exfalso; apply H; left; reflexivity|]. rewrite IH by (intros Q; apply H; right; exact Q).
    cbn [rev]. now rewrite <- app_assoc. }
  assert (K : forall cur, path_name_aux cur (dir ++ slash :: p) = p).
  { induction dir as [|c dir IH]; intros cur; cbn [app path_name_aux]; [rewrite Ascii.eqb_refl; now rewrite G|]. destruct (Ascii.eqb c slash); apply IH. }
  apply K. Qed.
Lemma path_name_plain p : ~ In slash p -> path_name p = p.
Proof. intros H. unfold path_name. assert (G : forall p cur, ~ In slash p -> path_name_aux cur p = rev cur ++ p).
  { clear. induction p as [|c p IH]; intros cur H; cbn [path_name_aux]; [now rewrite app_nil_r|].
    destruct (Ascii.eqb_spec c slash) as [->|_]; [exfalso; apply H; left; reflexivity|]. rewrite IH by (intros Q; apply H; right; exact Q).
    cbn [rev]. now rewrite <- app_assoc. } now rewrite G. Qed.
Lemma rfind_app a : forall b i best, rfind_dot (a ++ b) i best = rfind_dot b (i + length a) (rfind_dot a i best).
Proof. induction a as [|c a IH]; intros b i best; cbn [app rfind_dot length]; [now rewrite Nat.add_0_r|]. rewrite IH. f_equal. lia. Qed.
Lemma rfind_none s : ~ In dot s -> forall i best, rfind_dot s i best = best.
Proof. induction s as [|c s IH]; intros H i best; cbn [rfind_dot]; [reflexivity|]. rewrite IH by (intros Q; apply H; right; exact Q).
  destruct (Ascii.eqb_spec c dot) as [->|_]; [exfalso; apply H; left; reflexivity|reflexivity]. Qed.
Lemma stem_ext name ext : name <> [] -> ext <> [] -> ~ In dot ext -> stem_of_name (name ++ dot :: ext) = name.
Proof. intros Hn He Hd. unfold stem_of_name. rewrite rfind_app. cbn [rfind_dot]. rewrite Ascii.eqb_refl. rewrite rfind_none by exact Hd. cbn [Nat.add].
  assert (Nat.ltb 0 (length name) = true) as -> by (apply Nat.ltb_lt; destruct name; [contradiction|cbn [length]; lia]).
  assert (Nat.ltb (S (length name)) (length (name ++ dot :: ext)) = true) as ->.
  { apply Nat.ltb_lt. rewrite app_length. cbn [length]. destruct ext; [contradiction|cbn [length]; lia]. }
  cbn [andb]. rewrite firstn_app, Nat.sub_diag, firstn_O, app_nil_r, firstn_all. reflexivity. Qed.
Lemma stem_edge s : ~ In dot s -> stem_of_name (dot :: s) = dot :: s /\ stem_of_name (s ++ [dot]) = s ++ [dot].
Proof. intros H. split; unfold stem_of_name.
  - cbn [rfind_dot]. rewrite Ascii.eqb_refl, rfind_none by exact H. reflexivity.
  - rewrite rfind_app. cbn [rfind_dot Nat.add]. rewrite Ascii.eqb_refl. rewrite app_length. cbn [length].
    replace (Nat.ltb (S (length s)) (length s + 1)) with false by (symmetry; apply Nat.ltb_ge; lia). now rewrite andb_false_r. Qed.
Lemma open_loads E (ws : wins E) p w rest : dget str_eqb (stem_of_name (path_name p)) ws = None -> e_load E p = Ok w ->
  main_command E (s2l "open") ws (p :: rest) = HOk tt (dset str_eqb (stem_of_name (path_name p)) (mklw (path_name p) w) ws) rest.
Proof. intros D L. assert (M : forall inp, main_command E (s2l "open") ws inp = handle_open E (length inp) ws inp) by reflexivity. rewrite M.
  cbn [length handle_open]. unfold dmem. rewrite D. unfold load_under. now rewrite L. Qed.
