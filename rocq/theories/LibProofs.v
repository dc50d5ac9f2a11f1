From Coq Require Import Lia.
From Verif Require Import PyBase PyLemmas PyStr PyStrLemmas PyText WWTextProofs D1SProofs2 LibModel LibSpec.
Open Scope nat_scope.

Lemma available_dget x zaid :
  dget str_eqb zaid (available_libraries x) =
  match map snd (filter (fun t => str_eqb zaid (fst t)) x) with [] => None | l => Some l end.
Proof.
  unfold available_libraries.
  assert (G : forall (x : xsdir) (d : list (str * list str)), dget str_eqb zaid (fold_left (fun d t => dset str_eqb (fst t)
     (match dget str_eqb (fst t) d with Some l => l ++ [snd t] | None => [snd t] end) d) x d)
     = match dget str_eqb zaid d with
       | Some l => Some (l ++ map snd (filter (fun t => str_eqb zaid (fst t)) x))
       | None => match map snd (filter (fun t => str_eqb zaid (fst t)) x) with [] => None | l => Some l end
       end).
  { clear x. induction x as [|[z l] x IH]; intros d; cbn [fold_left fst snd filter map].
    - destruct (dget str_eqb zaid d); [now rewrite app_nil_r|reflexivity].
    - rewrite IH. destruct (str_eqb zaid z) eqn:E.
      + apply str_eqb_eq in E. subst z. rewrite (dget_dset_same str_eqb str_eqb_eq).
        cbn [map snd]. destruct (dget str_eqb zaid d) as [l0|]; [now rewrite <- app_assoc|reflexivity].
      + rewrite (dget_dset_other str_eqb str_eqb_eq); [reflexivity|]. intros ->.
        assert (str_eqb z z = true) by now apply str_eqb_eq. congruence. }
  rewrite G. reflexivity.
Qed.

Lemma zaid_has_table_iff x zaid lib : zaid_has_table x zaid lib = true <-> In (zaid, lib) x.
Proof.
  unfold zaid_has_table. rewrite available_dget.
  assert (G : In lib (map snd (filter (fun t => str_eqb zaid (fst t)) x)) <-> In (zaid, lib) x).
  { rewrite in_map_iff. split.
    - intros [[z l] [E H]]. apply filter_In in H. destruct H as [H1 H2]. simpl in *. apply str_eqb_eq in H2. congruence.
    - intros H. exists (zaid, lib). split; [reflexivity|]. apply filter_In. split; [exact H|]. now apply str_eqb_eq. }
  destruct (map snd _) as [|a l] eqn:E.
  - split; [discriminate|]. intros H. apply G in H. destruct H.
  - rewrite memb_str. exact G.
Qed.

Lemma check4zaid_iff m zaid lib : In lib (check4zaid m zaid) <-> carries m lib zaid.
Proof.
  unfold check4zaid, carries. rewrite in_map_iff. split.
  - intros [[l x] [E H]]. apply filter_In in H. simpl in *. destruct H as [H1 H2]. subst. apply zaid_has_table_iff in H2. eauto.
  - intros [x [H1 H2]]. exists (lib, x). split; [reflexivity|]. apply filter_In. split; [exact H1|]. now apply zaid_has_table_iff.
Qed.

Definition distinct_libs (m : libman) := NoDup (map fst (l_data m)).

Lemma dget_loaded m l x : distinct_libs m -> (dget str_eqb l (l_data m) = Some x <-> In (l, x) (l_data m)).
Proof. intros D. split; intros H.
  - apply (dget_some_in str_eqb str_eqb_eq) in H. exact H.
  - apply (in_dget str_eqb str_eqb_eq); assumption. Qed.
Lemma carries_x m l x z : distinct_libs m -> dget str_eqb l (l_data m) = Some x -> (zaid_has_table x z l = true <-> carries m l z).
Proof. intros D H. rewrite zaid_has_table_iff. apply dget_loaded in H; [|exact D]. split.
  - intros H'. exists x. auto.
  - intros [x' [H1 H2]]. apply (dget_loaded m l) in H1; [|exact D]. apply (dget_loaded m l) in H; [|exact D]. congruence. Qed.

Lemma default_has_ok m z b : distinct_libs m -> default_has m z = Ok b -> (b = true <-> carries m (l_default m) z).
Proof. intros D. unfold default_has. destruct (dget _ _ _) as [x|] eqn:E; cbn [of_opt bind]; [|discriminate].
  intros H. injection H as <-. now apply carries_x. Qed.
Lemma default_has_loaded m z : distinct_libs m -> loaded m (l_default m) -> exists b, default_has m z = Ok b.
Proof. intros D [x H]. apply (dget_loaded m _ _ D) in H. unfold default_has. rewrite H. cbn [of_opt bind]. eauto. Qed.
Lemma default_has_unloaded m z : distinct_libs m -> ~ loaded m (l_default m) -> default_has m z = Err KeyError.
Proof. intros D H. unfold default_has. destruct (dget _ _ _) as [x|] eqn:E; [|reflexivity]. exfalso. apply H. exists x. now apply dget_loaded. Qed.

Lemma last_char_spec s c : last_char s = Some c <-> exists p, s = p ++ [c].
Proof. unfold last_char. destruct (rev s) as [|d r] eqn:E.
  - split; [discriminate|]. intros [p ->]. rewrite rev_app_distr in E. discriminate.
  - assert (s = rev r ++ [d]) as -> by (rewrite <- (rev_involutive s), E; reflexivity).
    split; [intros H; injection H as ->; eauto|]. intros [p H]. apply app_inj_tail in H. destruct H; congruence. Qed.
Lemma same_type_iff a b : same_type a b = true <-> same_particle a b.
Proof. unfold same_type, same_particle. split.
  - destruct (last_char a) as [x|] eqn:Ea; [|discriminate]. destruct (last_char b) as [y|] eqn:Eb; [|discriminate].
    intros H. apply Ascii.eqb_eq in H. subst y. apply last_char_spec in Ea, Eb. destruct Ea as [p ->], Eb as [q ->]. eauto.
  - intros [p [q [c [-> ->]]]]. rewrite (proj2 (last_char_spec (p ++ [c]) c)), (proj2 (last_char_spec (q ++ [c]) c)) by eauto. apply Ascii.eqb_refl. Qed.

Lemma but3_app s t : length t = 3 -> but3 (s ++ t) = s /\ last3 (s ++ t) = t.
Proof. intros H. unfold but3, last3. rewrite app_length, H. replace (length s + 3 - 3) with (length s) by lia.
  split; [rewrite firstn_app, Nat.sub_diag, firstn_O, app_nil_r, firstn_all; reflexivity|].
  rewrite skipn_app, skipn_all, Nat.sub_diag. reflexivity. Qed.
Lemma but3_last3 s : but3 s ++ last3 s = s.
Proof. apply firstn_skipn. Qed.
Lemma natural_iff z : str_eqb (last3 z) zeros3 = true <-> natural z.
Proof. rewrite str_eqb_eq. split.
  - intros H. exists (but3 z). change (s2l "000") with zeros3. rewrite <- H. symmetry. apply but3_last3.
  - intros [e ->]. change (s2l "000") with zeros3. apply but3_app. reflexivity. Qed.

(** the expansion loop *)
Lemma expand_ok m x lib rows : forall tr0 tr, distinct_libs m -> dget str_eqb lib (l_data m) = Some x ->
  NoDup (map fst tr0 ++ map r_idx rows) ->
  foldM (expand_step m x lib) tr0 rows = Ok tr ->
  exists tl, tr = tr0 ++ tl /\
    map (fun e => (fst e, snd (fst (snd e)), snd (snd e))) tl = map (fun r => (r_idx r, r_abund r, r_mass r)) rows /\
    Forall (fun e => exists l, fst (fst (snd e)) = Some l /\ carries m l (fst e) /\ (l = lib \/ (l = l_default m /\ ~ carries m lib (fst e)))) tl.
Proof.
  induction rows as [|r rows IH]; intros tr0 tr D E N H; cbn [foldM] in H.
  - injection H as <-. exists []. rewrite app_nil_r. repeat split; constructor.
  - unfold expand_step at 1 in H.
    assert (Fr : forall v, dset str_eqb (r_idx r) v tr0 = tr0 ++ [(r_idx r, v)]).
    { intros v. cbn [map] in N. apply NoDup_remove in N. destruct N as [_ N]. 
      assert (Hn : ~ In (r_idx r) (map fst tr0)) by (intros Q; apply N, in_or_app; auto).
      clear - Hn. induction tr0 as [|[k w] t IH]; cbn [dset app]; [reflexivity|].
      destruct (str_eqb (r_idx r) k) eqn:Ek; [apply str_eqb_eq in Ek; subst; exfalso; apply Hn; left; reflexivity|].
      rewrite IH; [reflexivity|]. intros Q. apply Hn. right. exact Q. }
    assert (Step : forall nl, (carries m nl (r_idx r) /\ (nl = lib \/ (nl = l_default m /\ ~ carries m lib (r_idx r)))) ->
      foldM (expand_step m x lib) (dset str_eqb (r_idx r) (Some nl, r_abund r, r_mass r) tr0) rows = Ok tr ->
      exists tl, tr = tr0 ++ tl /\
       map (fun e => (fst e, snd (fst (snd e)), snd (snd e))) tl = map (fun r => (r_idx r, r_abund r, r_mass r)) (r :: rows) /\
       Forall (fun e => exists l, fst (fst (snd e)) = Some l /\ carries m l (fst e) /\ (l = lib \/ (l = l_default m /\ ~ carries m lib (fst e)))) tl).
    { intros nl Hc H'. rewrite Fr in H'. apply IH in H'; [|exact D|exact E|].
      - destruct H' as [tl [-> [Hm Hf]]]. exists ((r_idx r, (Some nl, r_abund r, r_mass r)) :: tl). repeat split.
        + rewrite <- app_assoc. reflexivity.
        + cbn [map fst snd]. f_equal. exact Hm.
        + constructor; [|exact Hf]. exists nl. auto.
      - cbn [map] in N. rewrite map_app. cbn [map fst]. rewrite <- app_assoc. exact N. }
    destruct (zaid_has_table x (r_idx r) lib) eqn:Ex.
    + cbn [bind] in H. apply Step in H; [exact H|]. split; [|left; reflexivity]. now apply (carries_x m lib x).
    + destruct (default_has m (r_idx r)) as [b|] eqn:Ed; cbn [bind] in H; [|discriminate].
      destruct b; cbn [bind] in H; [|discriminate]. apply Step in H; [exact H|].
      apply (default_has_ok m _ _ D) in Ed. split; [now apply Ed|]. right. split; [reflexivity|].
      intros Q. apply (carries_x m lib x) in Q; [congruence|exact D|exact E].
Qed.

Lemma expand_err m x lib rows : forall tr0 e, distinct_libs m -> dget str_eqb lib (l_data m) = Some x ->
  foldM (expand_step m x lib) tr0 rows = Err e ->
  exists r, In r rows /\ ~ carries m lib (r_idx r) /\
    ((e = ValueError /\ loaded m (l_default m) /\ ~ carries m (l_default m) (r_idx r)) \/ (e = KeyError /\ ~ loaded m (l_default m))).
Proof.
  induction rows as [|r rows IH]; intros tr0 e D E H; cbn [foldM] in H; [discriminate|].
  unfold expand_step at 1 in H. destruct (zaid_has_table x (r_idx r) lib) eqn:Ex.
  - cbn [bind] in H. apply IH in H; [|exact D|exact E]. destruct H as [r' [H1 H2]]. exists r'. split; [right; exact H1|exact H2].
  - assert (NC : ~ carries m lib (r_idx r)). { intros Q. apply (carries_x m lib x) in Q; [congruence|exact D|exact E]. }
    destruct (default_has m (r_idx r)) as [b|ee] eqn:Ed; cbn [bind] in H.
    + destruct b; cbn [bind] in H.
      * apply IH in H; [|exact D|exact E]. destruct H as [r' [H1 H2]]. exists r'. split; [right; exact H1|exact H2].
      * injection H as <-. exists r. split; [left; reflexivity|]. split; [exact NC|]. left.
        split; [reflexivity|]. split.
        { unfold default_has in Ed. destruct (dget str_eqb (l_default m) (l_data m)) as [x'|] eqn:E'; [|discriminate]. exists x'. apply (dget_loaded m _ _ D). exact E'. }
        apply (default_has_ok m _ _ D) in Ed. intros Q. apply Ed in Q. discriminate.
    + injection H as <-. exists r. split; [left; reflexivity|]. split; [exact NC|]. right.
      unfold default_has in Ed. destruct (dget str_eqb (l_default m) (l_data m)) as [x'|] eqn:E'; [discriminate|]. injection Ed as <-.
      split; [reflexivity|]. intros [x' Hx]. apply (dget_loaded m _ _ D) in Hx. congruence.
Qed.

Lemma elem_rows_eq m zaid z : parse_int (but3 zaid) = Ok (Z.of_N z) ->
  filter (fun r => Z.eqb (Z.of_N (r_Z r)) (Z.of_N z)) (l_iso m) = filter (fun r => N.eqb (r_Z r) z) (l_iso m).
Proof. intros _. apply filter_ext. intros r. destruct (N.eqb_spec (r_Z r) z) as [->|H]; [apply Z.eqb_refl|]. apply Z.eqb_neq. lia. Qed.

(** master characterisation of convertZaid *)
Inductive conv_case (m : libman) (zaid lib : str) : list (str * transl) -> Prop :=
| CC_one : carries m lib zaid -> conv_case m zaid lib [(zaid, (Some lib, 1%Q, 1%Q))]
| CC_nat : ~ natural zaid -> ~ carries m lib zaid -> carries m lib (but3 zaid ++ s2l "000") ->
    conv_case m zaid lib [(but3 zaid ++ s2l "000", (Some lib, 1%Q, 1%Q))]
| CC_def : ~ natural zaid -> ~ carries m lib zaid -> ~ carries m lib (but3 zaid ++ s2l "000") -> carries m (l_default m) zaid ->
    conv_case m zaid lib [(zaid, (Some (l_default m), 1%Q, 1%Q))]
| CC_none l : ~ natural zaid -> ~ carries m lib zaid -> ~ carries m lib (but3 zaid ++ s2l "000") -> ~ carries m (l_default m) zaid ->
    carries m l zaid -> same_particle l lib -> conv_case m zaid lib [(zaid, (None, 1%Q, 1%Q))]
| CC_exp z tr : natural zaid -> ~ carries m lib zaid -> parse_int (but3 zaid) = Ok z ->
    map (fun e => (fst e, snd (fst (snd e)), snd (snd e))) tr =
      map (fun r => (r_idx r, r_abund r, r_mass r)) (filter (fun r => Z.eqb (Z.of_N (r_Z r)) z) (l_iso m)) ->
    Forall (fun e => exists l, fst (fst (snd e)) = Some l /\ carries m l (fst e) /\ (l = lib \/ (l = l_default m /\ ~ carries m lib (fst e)))) tr ->
    conv_case m zaid lib tr.

Lemma nodup_map_filter {A B} (f : A -> B) p (l : list A) : NoDup (map f l) -> NoDup (map f (filter p l)).
Proof. induction l as [|x l IH]; intros H; [constructor|]. cbn [map filter] in *. inversion H; subst.
  destruct (p x); [|auto]. cbn [map]. constructor; [|auto]. intros Q. apply H2. apply in_map_iff in Q. destruct Q as [y [E Q]].
  apply filter_In in Q. apply in_map_iff. exists y. tauto. Qed.

Lemma conv_ok m zaid lib tr : distinct_libs m -> NoDup (map r_idx (l_iso m)) -> convertZaid m zaid lib = Ok tr -> conv_case m zaid lib tr.
Proof.
  intros D N. unfold convertZaid. destruct (dget str_eqb lib (l_data m)) as [x|] eqn:E; [|discriminate].
  pose proof (fun z => carries_x m lib x z D E) as CX.
  destruct (str_eqb (last3 zaid) zeros3) eqn:En.
  - apply natural_iff in En. destruct (zaid_has_table x zaid lib) eqn:Ex.
    + intros H. injection H as <-. apply CC_one. now apply CX.
    + destruct (parse_int (but3 zaid)) as [z|] eqn:Ep; cbn [bind]; [|discriminate]. intros H.
      apply expand_ok in H; [|exact D|exact E|cbn [map app]; now apply nodup_map_filter].
      destruct H as [tl [-> [Hm Hf]]]. cbn [app]. eapply CC_exp; eauto. rewrite <- CX. congruence.
  - assert (NN : ~ natural zaid). { intros Q. apply natural_iff in Q. congruence. }
    destruct (memb str_eqb lib (check4zaid m zaid)) eqn:Em.
    + intros H. injection H as <-. apply CC_one. apply check4zaid_iff. now apply memb_str.
    + assert (NC : ~ carries m lib zaid). { intros Q. apply check4zaid_iff in Q. apply memb_str in Q. congruence. }
      change zeros3 with (s2l "000"). destruct (zaid_has_table x (but3 zaid ++ s2l "000") lib) eqn:Ex.
      * intros H. injection H as <-. apply CC_nat; auto. now apply CX.
      * assert (NCn : ~ carries m lib (but3 zaid ++ s2l "000")) by (intros Q; apply CX in Q; congruence).
        destruct (default_has m zaid) as [b|] eqn:Ed; cbn [bind]; [|discriminate].
        pose proof (default_has_ok m _ _ D Ed) as Hd. destruct b.
        { intros H. injection H as <-. apply CC_def; auto. now apply Hd. }
        destruct (existsb _ _) eqn:Ee; [|discriminate]. intros H. injection H as <-.
        apply existsb_exists in Ee. destruct Ee as [l [H1 H2]]. apply check4zaid_iff in H1. apply same_type_iff in H2.
        eapply CC_none; eauto. intros Q. apply Hd in Q. discriminate.
Qed.

Lemma conv_loaded m lib x : distinct_libs m -> In (lib, x) (l_data m) -> dget str_eqb lib (l_data m) = Some x.
Proof. intros D H. now apply dget_loaded. Qed.

Lemma conv_one m zaid lib : distinct_libs m -> carries m lib zaid -> convertZaid m zaid lib = Ok [(zaid, (Some lib, 1%Q, 1%Q))].
Proof. intros D C. pose proof C as [x [H1 H2]]. unfold convertZaid. rewrite (conv_loaded m lib x D H1).
  rewrite (proj2 (zaid_has_table_iff x zaid lib) H2).
  rewrite (proj2 (memb_str lib (check4zaid m zaid)) (proj2 (check4zaid_iff m zaid lib) C)). destruct (str_eqb _ _); reflexivity. Qed.

Lemma conv_err m zaid lib e : distinct_libs m -> NoDup (map r_idx (l_iso m)) -> convertZaid m zaid lib = Err e ->
  (e = ValueError /\ ~ loaded m lib) \/
  (e = ValueError /\ natural zaid /\ (forall z, parse_int (but3 zaid) <> Ok z)) \/
  (e = KeyError /\ ~ loaded m (l_default m) /\ ~ carries m lib zaid) \/
  (e = ValueError /\ natural zaid /\ ~ carries m lib zaid /\ exists z r, parse_int (but3 zaid) = Ok z /\ In r (l_iso m) /\ Z.of_N (r_Z r) = z /\
       ~ carries m lib (r_idx r) /\ ~ carries m (l_default m) (r_idx r)) \/
  (e = ValueError /\ ~ natural zaid /\ (forall l, same_particle l lib -> ~ carries m l zaid)).
Proof.
  intros D N. unfold convertZaid. destruct (dget str_eqb lib (l_data m)) as [x|] eqn:E.
  2: { intros H. injection H as <-. left. split; [reflexivity|]. intros [x Hx]. apply (dget_loaded m _ _ D) in Hx. congruence. }
  intros H. right. pose proof (fun z => carries_x m lib x z D E) as CX.
  destruct (str_eqb (last3 zaid) zeros3) eqn:En.
  - apply natural_iff in En. destruct (zaid_has_table x zaid lib) eqn:Ex; [discriminate|].
    assert (NC : ~ carries m lib zaid) by (intros Q; apply CX in Q; congruence).
    destruct (parse_int (but3 zaid)) as [z|e0] eqn:Ep; cbn [bind] in *.
    + apply expand_err in H; [|exact D|exact E]. destruct H as [r [Hr [Hc [[-> [Hl Hd]]|[-> Hl]]]]].
      * right. right. left. split; [reflexivity|]. split; [exact En|]. split; [exact NC|]. exists z, r. apply filter_In in Hr. destruct Hr as [Hr1 Hr2].
        apply Z.eqb_eq in Hr2. auto.
      * right. left. auto.
    + left. injection H as <-. split; [|split; [exact En|intros z; congruence]].
      unfold parse_int in Ep. destruct (take_sign _) as [ng s1]. destruct (span_digits s1) as [ds r]. destruct ds; [congruence|destruct r; congruence].
  - assert (NN : ~ natural zaid). { intros Q. apply natural_iff in Q. congruence. }
    destruct (memb str_eqb lib (check4zaid m zaid)) eqn:Em; [discriminate|].
    assert (NC : ~ carries m lib zaid). { intros Q. apply check4zaid_iff in Q. apply memb_str in Q. congruence. }
    destruct (zaid_has_table x (but3 zaid ++ zeros3) lib) eqn:Ex; [discriminate|].
    destruct (default_has m zaid) as [b|e0] eqn:Ed; cbn [bind] in *.
    + destruct b; [discriminate|]. destruct (existsb _ _) eqn:Ee; [discriminate|]. injection H as <-.
      right. right. right. split; [reflexivity|]. split; [exact NN|]. intros l Hs Hc.
      assert (existsb (fun l => same_type l lib) (check4zaid m zaid) = true).
      { apply existsb_exists. exists l. split; [now apply check4zaid_iff|now apply same_type_iff]. } congruence.
    + injection H as <-. unfold default_has in Ed. destruct (dget str_eqb (l_default m) (l_data m)) as [x'|] eqn:E'; [discriminate|]. injection Ed as <-.
      right. left. split; [reflexivity|]. split; [|exact NC]. intros [x' Hx]. apply (dget_loaded m _ _ D) in Hx. congruence.
Qed.
