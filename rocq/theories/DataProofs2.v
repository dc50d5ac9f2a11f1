(** Proofs about reading the data section. *)
From Coq Require Import Lia ZArith QArith Qabs.
From Verif Require Import PyBase PyLemmas PyStr PyStrLemmas PyText D1SModel D1SProofs2 LibModel MatModel MatProofs InpModel InpGeomSpec DataModel DataSpec DataProofs.
Open Scope nat_scope.

Lemma strip_prefix_spec p : forall s r, strip_prefix p s = Some r <-> s = p ++ r.
Proof. induction p as [|c p IH]; intros s r; cbn [strip_prefix app].
  - split; congruence.
  - destruct s as [|d s]; [split; discriminate|]. destruct (Ascii.eqb_spec c d) as [->|N].
    + rewrite IH. split; congruence.
    + split; [discriminate|]. intros E. injection E as -> _. now elim N. Qed.
Lemma span_digits_spec s : let (a, b) := span_digits s in s = a ++ b /\ digits a /\ match b with c :: _ => is_digit c = false | [] => True end.
Proof. induction s as [|c s IH]; cbn [span_digits]; [repeat split; constructor|]. destruct (is_digit c) eqn:E.
  - destruct (span_digits s) as [a b]. destruct IH as [-> [D B]]. repeat split; [now constructor|exact B].
  - repeat split; [constructor|exact E]. Qed.
Definition follows (m b : str) : Prop := exists p ds, In p [s2l "FMESH"; s2l "TR"; s2l "F"] /\ m = p ++ ds /\ digits ds /\ ds <> [] /\ match b with c :: _ => is_digit c = false | [] => True end.
Lemma match_alt_some p s m : match_alt p s = Some m -> exists ds b, s = m ++ b /\ m = p ++ ds /\ digits ds /\ ds <> [] /\ match b with c :: _ => is_digit c = false | [] => True end.
Proof. unfold match_alt. destruct (strip_prefix p s) as [r|] eqn:P; [|discriminate]. apply strip_prefix_spec in P. pose proof (span_digits_spec r) as S. destruct (span_digits r) as [a b]. cbn [fst]. destruct S as [-> [D B]]. destruct a as [|c a]; [discriminate|].
  intros E. injection E as <-. exists (c :: a), b. rewrite P, <- app_assoc. repeat split; auto. discriminate. Qed.
Lemma match_alt_none p s : match_alt p s = None -> forall d b, is_digit d = true -> s <> p ++ d :: b.
Proof. unfold match_alt. intros H d b D E. assert (X : strip_prefix p s = Some (d :: b)) by now apply strip_prefix_spec. rewrite X in H. cbn [span_digits] in H. rewrite D in H. destruct (span_digits b) as [x y]. discriminate. Qed.
Lemma match_key_some s m : match_key s = Some m -> exists b, s = m ++ b /\ follows m b.
Proof. unfold match_key, follows. destruct (match_alt (s2l "FMESH") s) as [x|] eqn:A; [|destruct (match_alt (s2l "TR") s) as [x|] eqn:B; [|destruct (match_alt (s2l "F") s) as [x|] eqn:C; [|discriminate]]]; intros E; injection E as <-.
  - apply match_alt_some in A as [ds [b [? [? [? [? ?]]]]]]. exists b. split; [assumption|]. exists (s2l "FMESH"), ds. repeat split; auto. now left.
  - apply match_alt_some in B as [ds [b [? [? [? [? ?]]]]]]. exists b. split; [assumption|]. exists (s2l "TR"), ds. repeat split; auto. right; now left.
  - apply match_alt_some in C as [ds [b [? [? [? [? ?]]]]]]. exists b. split; [assumption|]. exists (s2l "F"), ds. repeat split; auto. right; right; now left. Qed.
Lemma match_key_none s : match_key s = None -> forall p d b, In p [s2l "FMESH"; s2l "TR"; s2l "F"] -> is_digit d = true -> s <> p ++ d :: b.
Proof. unfold match_key. destruct (match_alt (s2l "FMESH") s) as [x|] eqn:A; [discriminate|]. destruct (match_alt (s2l "TR") s) as [x|] eqn:B; [discriminate|]. intros C p d b [<-|[<-|[<-|[]]]] D; eapply match_alt_none; eauto. Qed.
Lemma search_none s : search_key s = None <-> ~ rewritten s.
Proof. induction s as [|c s IH].
  - split; [|reflexivity]. intros _ [a [p [d [b [P [_ E]]]]]]. apply (f_equal (@length _)) in E. rewrite !app_length in E. cbn in E. lia.
  - cbn [search_key]. destruct (match_key (c :: s)) as [m|] eqn:M.
    + split; [discriminate|]. intros N. elim N. apply match_key_some in M as [b [E [p [ds [P [-> [D [NE _]]]]]]]]. destruct ds as [|d ds]; [now elim NE|]. exists [], p, d, (ds ++ b). split; [exact P|]. split; [now inversion D|]. cbn [app]. rewrite E, <- app_assoc. reflexivity.
    + rewrite IH. split; intros N [a [p [d [b [P [D E]]]]]].
      * destruct a as [|x a]; cbn [app] in E; [eapply match_key_none; eauto|]. injection E as _ E. apply N. exists a, p, d, b. auto.
      * apply N. exists (c :: a), p, d, b. split; [exact P|]. split; [exact D|]. now rewrite E. Qed.
Lemma search_some s m : search_key s = Some m -> exists a b, s = a ++ m ++ b /\ follows m b /\ forall a1 p d b1, In p [s2l "FMESH"; s2l "TR"; s2l "F"] -> is_digit d = true -> s = a1 ++ p ++ d :: b1 -> length a <= length a1.
Proof. induction s as [|c s IH]; cbn [search_key].
  - destruct (match_key []) eqn:M; [|discriminate]. vm_compute in M. discriminate.
  - destruct (match_key (c :: s)) as [x|] eqn:M.
    + intros E. injection E as <-. apply match_key_some in M as [b [E F]]. exists [], b. split; [exact E|]. split; [exact F|]. intros; cbn; lia.
    + intros E. destruct (IH E) as [a [b [E2 [F L]]]]. exists (c :: a), b. split; [cbn [app]; now rewrite E2|]. split; [exact F|].
      intros a1 p d b1 P D X. destruct a1 as [|y a1]; [exfalso; cbn [app] in X; eapply match_key_none; eauto|]. injection X as _ X. cbn [length]. specialize (L a1 p d b1 P D X). lia. Qed.
Lemma contains_spec p s : contains p s = true <-> exists a b, s = a ++ p ++ b.
Proof. induction s as [|c s IH]; cbn [contains].
  - destruct (strip_prefix p []) as [r|] eqn:E.
    + apply strip_prefix_spec in E. split; [|reflexivity]. intros _. exists [], r. exact E.
    + split; [discriminate|]. intros [a [b E2]]. symmetry in E2. apply app_eq_nil in E2 as [-> E2]. symmetry in E2. apply strip_prefix_spec in E2. congruence.
  - destruct (strip_prefix p (c :: s)) as [r|] eqn:E.
    + apply strip_prefix_spec in E. split; [|reflexivity]. intros _. exists [], r. exact E.
    + rewrite IH. split; intros [a [b X]].
      * exists (c :: a), b. cbn [app]. now rewrite X.
      * destruct a as [|y a]; [cbn [app] in X; apply strip_prefix_spec in X; congruence|]. injection X as _ X. exists a, b. exact X. Qed.
Lemma upper_app a b : upper (a ++ b) = upper a ++ upper b. Proof. apply map_app. Qed.
Lemma upper_digits s : digits s -> upper s = s.
Proof. intros D. induction D as [|c s H _ IH]; [reflexivity|]. cbn [upper map]. unfold upper in IH. rewrite IH. f_equal. unfold upper_c. unfold is_digit in H. apply andb_true_iff in H as [A B]. apply N.leb_le in A, B. replace (97 <=? N_of_ascii c)%N with false by (symmetry; apply N.leb_gt; lia). reflexivity. Qed.

(** *** the sections *)
Section Parse.
  Context {M : Type} (from_text : list str -> res M).
  Notation sections := (sections M).
  Definition keys_of (s : sections) : list str := dkeys (sec_other s) ++ dkeys (sec_tr s).
  Lemma dset_absent {V} (k : str) (v : V) d : ~ In k (dkeys d) -> length (dset str_eqb k v d) = S (length d) /\ dget str_eqb k (dset str_eqb k v d) = Some v /\ (forall k' v', dget str_eqb k' d = Some v' -> dget str_eqb k' (dset str_eqb k v d) = Some v') /\ (forall k', In k' (dkeys (dset str_eqb k v d)) -> k' = k \/ In k' (dkeys d)).
  Proof. intros N. assert (G : dget str_eqb k d = None) by now apply (dget_none_iff str_eqb str_eqb_eq). rewrite (dset_new str_eqb) by exact G. rewrite app_length. cbn [length]. split; [lia|].
    split; [|split].
    - rewrite <- (dset_new str_eqb) by exact G. apply (dget_dset_same str_eqb str_eqb_eq).
    - intros k' v' H. rewrite <- (dset_new str_eqb) by exact G. rewrite (dget_dset_other str_eqb str_eqb_eq); [exact H|]. intros E. subst k'. congruence.
    - intros k' H. unfold dkeys in H. rewrite map_app in H. apply in_app_or in H as [H|[<-|[]]]; [right; exact H|left; reflexivity]. Qed.
  Lemma held_other s key c x : ~ In key (keys_of s) -> held from_text s x -> held from_text (to_other s key c) x.
  Proof. intros N H. assert (N1 : ~ In key (dkeys (sec_other s))) by (intros Q; apply N, in_or_app; now left). destruct (dset_absent key c (sec_other s) N1) as [_ [_ [K _]]].
    destruct H as [[k H]|H]; [left|right; exact H]. exists k. cbn [to_other sec_other]. apply K, H. Qed.
  Lemma count_app (a b : list (M * list dcard)) : fold_right (fun m n => S (length (snd m)) + n) 0 (a ++ b) = fold_right (fun m n => S (length (snd m)) + n) 0 a + fold_right (fun m n => S (length (snd m)) + n) 0 b.
  Proof. induction a as [|m a IH]; [reflexivity|]. cbn [app fold_right]. rewrite IH. lia. Qed.
  Lemma parse_step s kc s' : parse_card from_text s kc = Ok s' -> ~ In (clean_card_name (fst kc)) (keys_of s) ->
    held from_text s' (snd kc) /\ (forall x, held from_text s x -> held from_text s' x) /\ cards_held s' = S (cards_held s) /\
    forall k, In k (keys_of s') -> k = clean_card_name (fst kc) \/ In k (keys_of s).
  Proof. intros H N. set (key := clean_card_name (fst kc)) in *. set (c := snd kc) in *.
    assert (N1 : ~ In key (dkeys (sec_other s))) by (intros Q; apply N, in_or_app; now left). assert (N2 : ~ In key (dkeys (sec_tr s))) by (intros Q; apply N, in_or_app; now right).
    assert (O : forall s2, Ok s2 = Ok s' -> s2 = to_other s key c -> held from_text s' c /\ (forall x, held from_text s x -> held from_text s' x) /\ cards_held s' = S (cards_held s) /\ forall k, In k (keys_of s') -> k = key \/ In k (keys_of s)).
    { intros s2 E ->. injection E as <-. destruct (dset_absent key c (sec_other s) N1) as [L [G [K A]]]. split; [left; exists key; exact G|]. split; [intros x; now apply held_other|].
      split; [unfold cards_held, to_other; cbn [sec_other sec_tr sec_mats]; rewrite L; lia|]. intros k Q. unfold keys_of, to_other in *. cbn [sec_other sec_tr] in Q. apply in_app_or in Q as [Q|Q]; [|right; apply in_or_app; now right]. apply A in Q as [->|Q]; [now left|right; apply in_or_app; now left]. }
    assert (T : forall s2, Ok s2 = Ok s' -> s2 = mkSec (sec_mats s) (dset str_eqb key c (sec_tr s)) (sec_other s) -> held from_text s' c /\ (forall x, held from_text s x -> held from_text s' x) /\ cards_held s' = S (cards_held s) /\ forall k, In k (keys_of s') -> k = key \/ In k (keys_of s)).
    { intros s2 E ->. injection E as <-. destruct (dset_absent key c (sec_tr s) N2) as [L [G [K A]]]. split; [right; left; exists key; exact G|]. split; [intros x [Hx|[[k Hx]|Hx]]; [left; exact Hx|right; left; exists k; apply K, Hx|right; right; exact Hx]|].
      split; [unfold cards_held; cbn [sec_other sec_tr sec_mats]; rewrite L; lia|]. intros k Q. unfold keys_of in *. cbn [sec_other sec_tr] in Q. apply in_app_or in Q as [Q|Q]; [right; apply in_or_app; now left|]. apply A in Q as [->|Q]; [now left|right; apply in_or_app; now right]. }
    unfold parse_card in H. fold key in H. fold c in H. destruct (dc_first c) as [k|] eqn:D; [|now apply (O _ H)].
    assert (Mat : (if pat_mt (hd [] (dc_lines c)) || pat_mt (last_line (dc_lines c))
        then match rev (sec_mats s) with
             | [] => Ok (to_other s key c)
             | (m, mx) :: r => Ok (mkSec (rev ((m, mx ++ [c]) :: r)) (sec_tr s) (sec_other s))
             end
        else match from_text (dc_lines c) with
             | Ok m => Ok (mkSec (sec_mats s ++ [(m, [])]) (sec_tr s) (sec_other s))
             | Err IndexError => Ok (to_other s key c)
             | Err e => Err e
             end) = Ok s' -> held from_text s' c /\ (forall x, held from_text s x -> held from_text s' x) /\ cards_held s' = S (cards_held s) /\ forall k, In k (keys_of s') -> k = key \/ In k (keys_of s)).
    { clear H. intros H. destruct (pat_mt (hd [] (dc_lines c)) || pat_mt (last_line (dc_lines c))).
      - destruct (rev (sec_mats s)) as [|[m mx] r] eqn:R; [now apply (O _ H)|]. injection H as <-. assert (E : sec_mats s = rev r ++ [(m, mx)]) by (rewrite <- (rev_involutive (sec_mats s)), R; reflexivity).
        split; [|split; [|split]].
        + right. right. exists m, (mx ++ [c]). cbn [sec_mats rev]. split; [apply in_or_app; right; now left|]. right. apply in_or_app. right. now left.
        + intros x [Hx|[Hx|[m1 [mx1 [I1 I2]]]]]; [left; exact Hx|right; left; exact Hx|]. right. right. cbn [sec_mats rev]. rewrite E in I1. apply in_app_or in I1 as [I1|[I1|[]]].
          * exists m1, mx1. split; [apply in_or_app; now left|exact I2].
          * injection I1 as <- <-. exists m, (mx ++ [c]). split; [apply in_or_app; right; now left|]. destruct I2 as [I2|I2]; [now left|right; apply in_or_app; now left].
        + unfold cards_held. cbn [sec_mats sec_other sec_tr rev]. rewrite E, !count_app. cbn [fold_right snd]. rewrite app_length. cbn [length]. lia.
        + intros k2 Q. now right.
      - destruct (from_text (dc_lines c)) as [m|[]] eqn:F; try discriminate; [|now apply (O _ H)]. injection H as <-. split; [|split; [|split]].
        + right. right. exists m, []. cbn [sec_mats]. split; [apply in_or_app; right; now left|]. now left.
        + intros x [Hx|[Hx|[m1 [mx1 [I1 I2]]]]]; [left; exact Hx|right; left; exact Hx|]. right. right. exists m1, mx1. split; [apply in_or_app; now left|exact I2].
        + unfold cards_held. cbn [sec_mats sec_other sec_tr]. rewrite count_app. cbn [fold_right snd length]. lia.
        + intros k2 Q. now right. }
    destruct k; try (now apply Mat); destruct (dc_tr c); first [now apply (T _ H)|now apply (O _ H)]. Qed.
  Lemma parse_all cards : forall s s', foldM (parse_card from_text) s cards = Ok s' -> NoDup (map (fun kc => clean_card_name (fst kc)) cards) ->
    (forall kc, In kc cards -> ~ In (clean_card_name (fst kc)) (keys_of s)) ->
    (forall kc, In kc cards -> held from_text s' (snd kc)) /\ (forall x, held from_text s x -> held from_text s' x) /\ cards_held s' = cards_held s + length cards.
  Proof. induction cards as [|kc cards IH]; intros s s' H ND FR; cbn [foldM] in H.
    - injection H as <-. split; [intros ? []|]. split; [auto|]. cbn. lia.
    - destruct (parse_card from_text s kc) as [s1|] eqn:P; cbn [bind] in H; [|discriminate]. cbn [map] in ND. inversion ND as [|? ? NI ND']; subst.
      destruct (parse_step s kc s1 P (FR kc (or_introl eq_refl))) as [A [B [C D]]]. destruct (IH s1 s' H ND') as [I1 [I2 I3]].
      + intros kc2 Q2 Q3. apply D in Q3 as [Q3|Q3].
        * apply NI. rewrite <- Q3. change (clean_card_name (fst kc2)) with ((fun kc => clean_card_name (fst kc)) kc2). now apply in_map.
        * now apply (FR kc2 (or_intror Q2)).
      + split; [intros kc2 [<-|Q]; [now apply I2|now apply I1]|]. split; [auto|]. cbn [length]. lia. Qed.
End Parse.
