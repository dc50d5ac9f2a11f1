(** Proofs about the placement of meshes *)
From Coq Require Import Lia Lqa Qabs.
From Verif Require Import PyBase PyLemmas PyStr PyStrLemmas PyText DataModel DataProofs2 MeshModel MeshSpec MeshProofs MeshProofs2 EeoutProofs MeshCuvModel MeshCuvSpec TrsfModel TrsfSpec.
Open Scope nat_scope.

Definition numch (c : ascii) : Prop := is_digit c = true \/ In c ["+"%char; "-"%char; "."%char; "e"%char; "E"%char].
Lemma span_digits_spec s : s = fst (span_digits s) ++ snd (span_digits s) /\ forall c, In c (fst (span_digits s)) -> is_digit c = true.
Proof.
  induction s as [|c s IH]; [cbn; split; [reflexivity|intros ? []]|]. cbn [span_digits]. destruct (is_digit c) eqn:E.
  - destruct (span_digits s) as [a b]. cbn [fst snd] in *. destruct IH as [IH1 IH2]. split; [cbn; congruence|].
    intros x [<-|H]; auto.
  - cbn. split; [reflexivity|intros ? []].
Qed.
Lemma sign_chars s c : In c s -> numch c \/ In c (snd (take_sign s)).
Proof.
  destruct s as [|x s]; [intros []|]. cbn [take_sign]. intros H.
  destruct (Ascii.eqb x minus) eqn:E; [apply Ascii.eqb_eq in E; subst x; destruct H as [<-|H]; [left; right; cbn; tauto|right; exact H]|].
  destruct (Ascii.eqb x plus) eqn:E2; [apply Ascii.eqb_eq in E2; subst x; destruct H as [<-|H]; [left; right; cbn; tauto|right; exact H]|].
  right. exact H.
Qed.
Lemma int_chars s z : parse_int s = Ok z -> forall c, In c s -> numch c.
Proof.
  unfold parse_int. intros H c Hc. apply sign_chars in Hc as [Hc|Hc]; [exact Hc|].
  destruct (take_sign s) as [n s1]. cbn [snd] in Hc. destruct (span_digits_spec s1) as [E D]. destruct (span_digits s1) as [ds r]. cbn [fst snd] in *.
  destruct ds; [discriminate|]. destruct r; [|discriminate]. rewrite E, app_nil_r in Hc. left. apply D. exact Hc.
Qed.
Lemma numeral_chars w q : numeral w q -> forall c, In c w -> numch c.
Proof.
  unfold numeral, parse_float. intros H c Hc. apply sign_chars in Hc as [Hc|Hc]; [exact Hc|].
  destruct (take_sign w) as [n s1]. cbn [snd] in Hc. destruct (span_digits_spec s1) as [E1 D1]. destruct (span_digits s1) as [ip r1]. cbn [fst snd] in *.
  set (P := match r1 with [] => ([], []) | c :: r' => if Ascii.eqb c PyStr.dot then span_digits r' else ([], r1) end) in H.
  assert (HP : forall c, In c r1 -> c = PyStr.dot \/ is_digit c = true \/ In c (snd P)).
  { intros x Hx. subst P. destruct r1 as [|y r1]; [destruct Hx|]. destruct (Ascii.eqb y PyStr.dot) eqn:E; [|right; right; exact Hx].
    apply Ascii.eqb_eq in E; subst y. destruct Hx as [<-|Hx]; [left; reflexivity|right].
    destruct (span_digits_spec r1) as [E D]. destruct (span_digits r1) as [u v]. cbn [fst snd] in *. rewrite E in Hx. apply in_app_or in Hx as [Hx|Hx]; auto. }
  destruct P as [fp r2]. cbn [snd] in HP. rewrite E1 in Hc. apply in_app_or in Hc as [Hc|Hc]; [left; auto|].
  apply HP in Hc as [->|[Hc|Hc]]; [right; cbn; tauto|left; exact Hc|].
  assert (He : exists e, parse_exp r2 = Ok e).
  { destruct (parse_exp r2); [eauto|]. destruct (ip ++ fp); discriminate H. }
  destruct He as [e He]. clear H. destruct r2 as [|x r2]; [destruct Hc|]. cbn [parse_exp] in He.
  destruct (Ascii.eqb x "e"%char) eqn:Ex; [apply Ascii.eqb_eq in Ex; subst x|].
  - destruct Hc as [<-|Hc]; [right; cbn; tauto|]. exact (int_chars _ _ He _ Hc).
  - destruct (Ascii.eqb x "E"%char) eqn:Ey; [apply Ascii.eqb_eq in Ey; subst x|discriminate].
    destruct Hc as [<-|Hc]; [right; cbn; tauto|]. exact (int_chars _ _ He _ Hc).
Qed.
Lemma f2_in_l {A B} (R : A -> B -> Prop) (l : list A) (l' : list B) x : Forall2 R l l' -> In x l -> exists y, In y l' /\ R x y.
Proof. induction 1 as [|a b l l' Hab H IH]; [intros []|]. intros [<-|Hx]; [exists b; split; [left; reflexivity|exact Hab]|]. destruct (IH Hx) as (y & H1 & H2). exists y. split; [right; exact H1|exact H2]. Qed.
Lemma coords_chars t v : Coords t v -> forall c, In c t -> is_ws c = true \/ numch c.
Proof.
  destruct v as [[a b] d]. intros H c Hc. destruct (is_ws c) eqn:E; [left; reflexivity|right].
  destruct (split_chars t c Hc E) as (w & Hw & Hcw). destruct (f2_in_l _ _ _ _ H Hw) as (q & _ & Hq). exact (numeral_chars _ _ Hq _ Hcw).
Qed.
Definition safe (c : ascii) (t : str) : Prop := ~ In c t.
Lemma coords_safe t v : Coords t v -> ~ In "a"%char t /\ ~ In "d"%char t /\ ~ In "V"%char t /\ ~ In ","%char t.
Proof.
  intros H. repeat split; intros Hin; destruct (coords_chars t v H _ Hin) as [E|[E|E]]; try discriminate E; cbn in E; intuition discriminate.
Qed.
Lemma blanks_safe t : blanks t -> ~ In "a"%char t /\ ~ In "d"%char t /\ ~ In "V"%char t /\ ~ In ","%char t.
Proof. intros H. repeat split; intros Hin; apply H in Hin; discriminate Hin. Qed.

Lemma index_skip c p u s : ~ In c u -> index_of (c :: p) (u ++ s) = option_map (Nat.add (length u)) (index_of (c :: p) s).
Proof.
  induction u as [|x u IH]; intros H; [cbn [app length]; destruct (index_of (c :: p) s); reflexivity|].
  cbn [app index_of strip_prefix]. destruct (Ascii.eqb c x) eqn:E; [apply Ascii.eqb_eq in E; subst x; destruct H; left; reflexivity|].
  rewrite IH; [|intros Hin; apply H; right; exact Hin]. destruct (index_of (c :: p) s); reflexivity.
Qed.
Lemma index_skip' c p u s : hd_error p = Some c -> ~ In c u -> index_of p (u ++ s) = option_map (Nat.add (length u)) (index_of p s).
Proof. destruct p as [|x p]; [discriminate|]. intros H. injection H as ->. apply index_skip. Qed.
Lemma strip_self p s : strip_prefix p (p ++ s) = Some s.
Proof. induction p as [|c p IH]; [reflexivity|]. cbn [app strip_prefix]. rewrite Ascii.eqb_refl. exact IH. Qed.
Lemma index_here p s : index_of p (p ++ s) = Some 0.
Proof. destruct p as [|c p]; [destruct s; reflexivity|]. cbn [app index_of]. change (c :: p ++ s) with ((c :: p) ++ s). rewrite strip_self. reflexivity. Qed.
Lemma slice_mid u t s : slice (length u) (length u + length t) (u ++ t ++ s) = t.
Proof.
  unfold slice. rewrite skipn_app, skipn_all, Nat.sub_diag. cbn [skipn app].
  replace (length u + length t - length u) with (length t) by lia. rewrite firstn_app, firstn_all, Nat.sub_diag. cbn [firstn]. apply app_nil_r.
Qed.
Lemma nums_ok ws qs : Forall2 numeral ws qs -> mapM parse_float ws = Ok qs.
Proof. induction 1 as [|w q ws qs Hw H IH]; [reflexivity|]. cbn [mapM]. rewrite Hw, IH. reflexivity. Qed.
Lemma read_vec_ok t v : Coords t v -> read_vec t = Ok v.
Proof. destruct v as [[a b] c]. intros H. unfold read_vec. rewrite (nums_ok _ [a; b; c] H). reflexivity. Qed.
Lemma safe_app (c : ascii) (a b : str) : ~ In c a -> ~ In c b -> ~ In c (a ++ b).
Proof. intros H H2 H3. apply in_app_or in H3; tauto. Qed.
Lemma mentions_skip p q r u : mentions p (u ++ q ++ s2l p ++ r).
Proof. exists (u ++ q), r. rewrite <- app_assoc. reflexivity. Qed.

Ltac nochar := let H := fresh in intros H; cbn in H; intuition discriminate.
Lemma line6 o a v l : PlaceLine o a (Some v) l ->
  has "VEC direction" l = true /\ exists o0 o1 a0 a1 w0, index "at" l = Ok o0 /\ index "axis" l = Ok o1 /\ index "axis in" l = Ok a0 /\ index "direction" l = Ok a1
  /\ index_from "direction" (a1 + 1) l = Ok w0 /\ read_vec (slice (o0 + 2) o1 l) = Ok o /\ read_vec (slice (a0 + 7) a1 l) = Ok a /\ read_vec (skipn (w0 + 9) l) = Ok v.
Proof.
  intros (pre & t1 & t2 & Hp & H1 & H2 & t3 & H3 & ->).
  destruct (blanks_safe _ Hp) as (P1 & P2 & P3 & P4). destruct (coords_safe _ _ H1) as (A1 & A2 & A3 & A4). destruct (coords_safe _ _ H2) as (B1 & B2 & B3 & B4).
  set (l := pre ++ _). split.
  { apply has_iff. exists (pre ++ s2l "origin at" ++ t1 ++ s2l "axis in" ++ t2 ++ s2l "direction, "), t3. subst l. rewrite <- !app_assoc. reflexivity. }
  assert (E1 : index "at" l = Ok (length pre + 7)).
  { unfold index, index_from. cbn [skipn]. subst l. change (s2l "origin at") with (s2l "origin " ++ s2l "at"). rewrite <- (app_assoc (s2l "origin ")), (app_assoc pre).
    rewrite (index_skip' "a"%char) by (first [reflexivity|apply safe_app; [exact P1|nochar]]). rewrite index_here. cbn [option_map]. rewrite app_length. cbn [length s2l]. f_equal. cbn. lia. }
  assert (EX : forall r, index_of (s2l "axis" ++ r) (s2l "at" ++ t1 ++ (s2l "axis" ++ r) ++ (skipn (length r) (s2l " in")) ++ t2 ++ s2l "direction, VEC direction" ++ t3) = Some (2 + length t1)).
  { intros r. set (S0 := (s2l "axis" ++ r) ++ _).
    change (s2l "at" ++ t1 ++ S0) with ("a"%char :: (["t"%char] ++ t1 ++ S0)).
    cbn [index_of]. match goal with |- context [strip_prefix ?p ?s] => change (strip_prefix p s) with (@None str) end. cbv iota.
    rewrite (app_assoc _ t1). rewrite (index_skip' "a"%char) by (first [reflexivity|repeat apply safe_app; auto; nochar]).
    subst S0. rewrite index_here. cbn [option_map]. rewrite app_length. f_equal. cbn. lia. }
  assert (E2 : forall r, r = [] \/ r = s2l " in" -> index_of (s2l "axis" ++ r) l = Some (length pre + 9 + length t1)).
  { intros r Hr. subst l. change (s2l "origin at") with (s2l "origin " ++ s2l "at"). rewrite <- (app_assoc (s2l "origin ")), (app_assoc pre).
    rewrite (index_skip' "a"%char) by (first [reflexivity|apply safe_app; [exact P1|nochar]]).
    assert (Es : s2l "axis in" = (s2l "axis" ++ r) ++ skipn (length r) (s2l " in")) by (destruct Hr as [Hr|Hr]; rewrite Hr; reflexivity).
    rewrite Es, <- (app_assoc (s2l "axis" ++ r)), EX. cbn [option_map]. rewrite app_length. f_equal. cbn [length s2l]. cbn. lia. }
  assert (E3 : index "direction" l = Ok (length (pre ++ s2l "origin at" ++ t1 ++ s2l "axis in" ++ t2))).
  { unfold index, index_from. cbn [skipn]. set (u := pre ++ s2l "origin at" ++ t1 ++ s2l "axis in" ++ t2). replace l with (u ++ s2l "direction, VEC direction" ++ t3) by (subst l u; rewrite <- !app_assoc; reflexivity).
    rewrite (index_skip' "d"%char) by (first [reflexivity|subst u; repeat apply safe_app; auto; nochar]). change (s2l "direction, VEC direction") with (s2l "direction" ++ s2l ", VEC direction"). rewrite <- (app_assoc (s2l "direction")), index_here. cbn [option_map]. rewrite Nat.add_0_r. reflexivity. }
  set (u := pre ++ s2l "origin at" ++ t1 ++ s2l "axis in" ++ t2) in *.
  assert (El : l = u ++ s2l "direction, VEC direction" ++ t3) by (subst l u; rewrite <- !app_assoc; reflexivity).
  assert (E4 : index_from "direction" (length u + 1) l = Ok (length u + 15)).
  { unfold index_from. rewrite El. change (s2l "direction, VEC direction") with (["d"%char] ++ s2l "irection, VEC " ++ s2l "direction").
    rewrite <- (app_assoc ["d"%char]), <- (app_assoc (s2l "irection, VEC ")), (app_assoc u), skipn_app.
    replace (length u + 1) with (length (u ++ ["d"%char])) by (rewrite app_length; reflexivity). rewrite skipn_all, Nat.sub_diag. cbn [skipn app].
    rewrite (index_skip' "d"%char) by (first [reflexivity|nochar]). rewrite index_here. cbn [option_map]. rewrite app_length. f_equal. cbn. lia. }
  exists (length pre + 7), (length pre + 9 + length t1), (length pre + 9 + length t1), (length u), (length u + 15).
  split; [exact E1|]. split; [unfold index, index_from; cbn [skipn]; change (s2l "axis") with (s2l "axis" ++ []); rewrite E2 by auto; reflexivity|].
  split; [unfold index, index_from; cbn [skipn]; change (s2l "axis in") with (s2l "axis" ++ s2l " in"); rewrite E2 by auto; reflexivity|].
  split; [exact E3|]. split; [exact E4|]. repeat split.
  - assert (Es : slice (length pre + 7 + 2) (length pre + 9 + length t1) l = t1).
    { subst l. rewrite (app_assoc pre). replace (length pre + 7 + 2) with (length (pre ++ s2l "origin at")) by (rewrite app_length; cbn; lia).
      replace (length pre + 9 + length t1) with (length (pre ++ s2l "origin at") + length t1) by (rewrite app_length; cbn; lia). apply slice_mid. }
    rewrite Es. apply read_vec_ok. exact H1.
  - assert (Es : slice (length pre + 9 + length t1 + 7) (length u) l = t2).
    { rewrite El. subst u. replace (pre ++ s2l "origin at" ++ t1 ++ s2l "axis in" ++ t2) with ((pre ++ s2l "origin at" ++ t1 ++ s2l "axis in") ++ t2) by (rewrite <- !app_assoc; reflexivity).
      set (w := pre ++ s2l "origin at" ++ t1 ++ s2l "axis in"). replace (length pre + 9 + length t1 + 7) with (length w) by (subst w; rewrite !app_length; cbn; lia).
      rewrite app_length, <- app_assoc. apply slice_mid. }
    rewrite Es. apply read_vec_ok. exact H2.
  - assert (Es : skipn (length u + 15 + 9) l = t3).
    { rewrite El, app_assoc. replace (length u + 15 + 9) with (length (u ++ s2l "direction, VEC direction")) by (rewrite app_length; cbn; lia). rewrite skipn_app, skipn_all, Nat.sub_diag. reflexivity. }
    rewrite Es. apply read_vec_ok. exact H3.
Qed.
Lemma line5 o a l : PlaceLine o a None l ->
  has "VEC direction" l = false /\ exists o0 o1 a0 a1, index "at" l = Ok o0 /\ index "," l = Ok o1 /\ index "axis in" l = Ok a0 /\ index "direction" l = Ok a1
  /\ read_vec (slice (o0 + 2) o1 l) = Ok o /\ read_vec (slice (a0 + 7) a1 l) = Ok a.
Proof.
  intros (pre & t1 & t2 & Hp & H1 & H2 & t3 & H3 & ->).
  destruct (blanks_safe _ Hp) as (P1 & P2 & P3 & P4). destruct (coords_safe _ _ H1) as (A1 & A2 & A3 & A4). destruct (coords_safe _ _ H2) as (B1 & B2 & B3 & B4). destruct (blanks_safe _ H3) as (C1 & C2 & C3 & C4).
  set (l := pre ++ _). split.
  { apply has_not. intros (x & y & E). assert (Hin : In "V"%char l) by (rewrite E; apply in_or_app; right; left; reflexivity).
    revert Hin. subst l. repeat apply safe_app; auto; nochar. }
  assert (E1 : index "at" l = Ok (length pre + 7)).
  { unfold index, index_from. cbn [skipn]. subst l. change (s2l "origin at") with (s2l "origin " ++ s2l "at"). rewrite <- (app_assoc (s2l "origin ")), (app_assoc pre).
    rewrite (index_skip' "a"%char) by (first [reflexivity|apply safe_app; [exact P1|nochar]]). rewrite index_here. cbn [option_map]. rewrite app_length. f_equal. cbn. lia. }
  assert (E2 : index "," l = Ok (length pre + 9 + length t1)).
  { unfold index, index_from. cbn [skipn]. subst l. change (s2l ", axis in") with (s2l "," ++ s2l " axis in"). rewrite <- (app_assoc (s2l ",")), (app_assoc pre), (app_assoc _ t1).
    rewrite (index_skip' ","%char) by (first [reflexivity|repeat apply safe_app; auto; nochar]). rewrite index_here. cbn [option_map]. rewrite !app_length. f_equal. cbn. lia. }
  assert (E3 : index "axis in" l = Ok (length pre + 11 + length t1)).
  { unfold index, index_from. cbn [skipn]. subst l. change (s2l "origin at") with (s2l "origin " ++ s2l "at"). rewrite <- (app_assoc (s2l "origin ")), (app_assoc pre).
    rewrite (index_skip' "a"%char) by (first [reflexivity|apply safe_app; [exact P1|nochar]]).
    change (s2l "at" ++ t1 ++ s2l ", axis in" ++ t2 ++ s2l "direction" ++ t3) with ("a"%char :: (["t"%char] ++ t1 ++ s2l ", " ++ s2l "axis in" ++ t2 ++ s2l "direction" ++ t3)).
    cbn [index_of]. match goal with |- context [strip_prefix ?p ?s] => change (strip_prefix p s) with (@None str) end. cbv iota.
    rewrite (app_assoc _ t1), (app_assoc _ (s2l ", ")). rewrite (index_skip' "a"%char) by (first [reflexivity|repeat apply safe_app; auto; nochar]). rewrite index_here. cbn [option_map]. rewrite !app_length. f_equal. cbn. lia. }
  assert (E4 : index "direction" l = Ok (length (pre ++ s2l "origin at" ++ t1 ++ s2l ", axis in" ++ t2))).
  { unfold index, index_from. cbn [skipn]. set (u := pre ++ s2l "origin at" ++ t1 ++ s2l ", axis in" ++ t2). replace l with (u ++ s2l "direction" ++ t3) by (subst l u; rewrite <- !app_assoc; reflexivity).
    rewrite (index_skip' "d"%char) by (first [reflexivity|subst u; repeat apply safe_app; auto; nochar]). rewrite index_here. cbn [option_map]. f_equal. cbn. lia. }
  eexists _, _, _, _. split; [exact E1|]. split; [exact E2|]. split; [exact E3|]. split; [exact E4|]. split.
  - assert (Es : slice (length pre + 7 + 2) (length pre + 9 + length t1) l = t1).
    { subst l. rewrite (app_assoc pre). replace (length pre + 7 + 2) with (length (pre ++ s2l "origin at")) by (rewrite app_length; cbn; lia).
      replace (length pre + 9 + length t1) with (length (pre ++ s2l "origin at") + length t1) by (rewrite app_length; cbn; lia). apply slice_mid. }
    rewrite Es. apply read_vec_ok. exact H1.
  - match goal with |- read_vec ?s = _ => assert (Es : s = t2) end.
    { subst l. set (w := pre ++ s2l "origin at" ++ t1 ++ s2l ", axis in"). replace (length pre + 11 + length t1 + 7) with (length w) by (subst w; rewrite !app_length; cbn; lia).
      replace (pre ++ s2l "origin at" ++ t1 ++ s2l ", axis in" ++ t2) with (w ++ t2) by (subst w; rewrite <- !app_assoc; reflexivity).
      replace (pre ++ s2l "origin at" ++ t1 ++ s2l ", axis in" ++ t2 ++ s2l "direction" ++ t3) with (w ++ t2 ++ s2l "direction" ++ t3) by (subst w; rewrite <- !app_assoc; reflexivity).
      rewrite app_length. apply slice_mid. }
    rewrite Es. apply read_vec_ok. exact H2.
Qed.
