(** Proofs for C116. *)
From Coq Require Import Lia ZArith QArith Qabs Lqa.
From Verif Require Import PyBase PyLemmas PyStr PyStrLemmas PyFmtLemmas PySci PySciLemmas WWTextModel WWTextSpec PyText D1SModel D1SSpec D1SProofs D1SProofs2 EqModel EqSpec.
Open Scope nat_scope.

Lemma pf_err s e : parse_float s = Err e -> e = ValueError.
Proof. unfold parse_float. destruct (take_sign s) as [n s1]. destruct (span_digits s1) as [ip r1].
  set (W := match r1 with [] => _ | _ => _ end). destruct W as [fp r2]. clearbody W || idtac.
  destruct (ip ++ fp) as [|c l]; [congruence|]. cbn [bind]. unfold parse_exp. destruct r2 as [|d r]; [discriminate|]. destruct (_ || _); [|cbn [bind]; congruence].
  unfold parse_int. destruct (take_sign r) as [n' s']. destruct (span_digits s') as [[|x y] [|z w]]; cbn [bind]; congruence. Qed.
Lemma pf_cases s : (exists q, parse_float s = Ok q) \/ parse_float s = Err ValueError.
Proof. destruct (parse_float s) as [q|e] eqn:E; [left; eauto|right]. now rewrite (pf_err s e E). Qed.
Lemma numeric_dec s : numeric s \/ (~ numeric s /\ parse_float s = Err ValueError).
Proof. destruct (pf_cases s) as [H|H]; [now left|right]. split; [intros [q Hq]; congruence|exact H]. Qed.

Lemma times_spec : forall a b, length a = length b -> forall eq,
  (Forall numeric a -> Forall numeric b -> exists r, foldM time_eq eq (combine a b) = Ok r /\ (r = true <-> eq = true /\ Forall2 same_number a b)) /\
  (~ (Forall numeric a /\ Forall numeric b) -> foldM time_eq eq (combine a b) = Err ValueError).
Proof. induction a as [|x a IH]; intros [|y b] L eq; try discriminate L.
  - split; [|intros H; exfalso; apply H; auto]. intros _ _. exists eq. split; [reflexivity|]. split; [auto|tauto].
  - injection L as L. cbn [combine foldM]. unfold time_eq at 1 3. cbn [fst snd].
    destruct (numeric_dec x) as [[p Hp]|[Nx Ex]]; [|rewrite Ex; cbn [bind]; split; [intros H _; inversion H; contradiction|reflexivity]].
    rewrite Hp. cbn [bind].
    destruct (numeric_dec y) as [[q Hq]|[Ny Ey]]; [|rewrite Ey; cbn [bind]; split; [intros _ H; inversion H; contradiction|reflexivity]].
    rewrite Hq. cbn [bind]. destruct (IH b L (if negb (Qeq_bool p q) then false else eq)) as [A B]. split.
    + intros HA HB. inversion HA; inversion HB; subst. destruct A as (r & E & I); auto. exists r. split; [exact E|]. rewrite I.
      assert (EQ : same_number x y <-> Qeq_bool p q = true).
      { rewrite Qeq_bool_iff. split; [intros (p' & q' & G1 & G2 & G3)|intros G; exists p, q; auto]. rewrite Hp in G1. rewrite Hq in G2. injection G1 as <-. injection G2 as <-. exact G3. }
      split.
      * intros [C D]. destruct (Qeq_bool p q) eqn:Eb; cbn [negb] in C; [|discriminate]. split; [exact C|]. constructor; [now apply EQ|exact D].
      * intros [C D]. inversion D; subst. rewrite (proj1 EQ) by assumption. cbn [negb]. auto.
    + intros N. apply B. intros [C D]. apply N. split; constructor; auto; [exists p|exists q]; assumption. Qed.

Lemma eq_numeric a b : numeric_irr a -> numeric_irr b -> exists r, irr_eq a b = Ok r /\
  (r = true <-> i_daughter a = i_daughter b /\ same_number (i_lambda a) (i_lambda b) /\ Forall2 same_number (i_times a) (i_times b)).
Proof. intros [[p Hp] Ta] [[q Hq] Tb]. unfold irr_eq. rewrite Hp, Hq. cbn [bind].
  assert (SN : same_number (i_lambda a) (i_lambda b) <-> Qeq_bool p q = true).
  { rewrite Qeq_bool_iff. split; [intros (p' & q' & G1 & G2 & G3)|intros G; exists p, q; auto]. rewrite Hp in G1. rewrite Hq in G2. injection G1 as <-. injection G2 as <-. exact G3. }
  destruct (Nat.eqb_spec (length (i_times a)) (length (i_times b))) as [L|L].
  - destruct (times_spec _ _ L true) as [A _]. destruct (A Ta Tb) as (r & E & I). rewrite E. cbn [bind]. eexists. split; [reflexivity|].
    rewrite !andb_true_iff, I, SN, str_eqb_eq. tauto.
  - cbn [bind]. eexists. split; [reflexivity|]. rewrite andb_false_r. split; [discriminate|]. intros (_ & _ & F). exfalso. apply L. clear - F. induction F; cbn [length]; congruence. Qed.

Lemma eq_raises a b e : irr_eq a b = Err e <-> e = ValueError /\
  (~ numeric (i_lambda a) \/ ~ numeric (i_lambda b) \/
   (length (i_times a) = length (i_times b) /\ exists t, In t (i_times a ++ i_times b) /\ ~ numeric t)).
Proof.
  assert (D : forall l, Forall numeric l \/ exists t, In t l /\ ~ numeric t).
  { induction l as [|x l [IH|(t & I & N)]]; [left; constructor| |right; exists t; split; [now right|exact N]].
    destruct (numeric_dec x) as [N|[N _]]; [left; now constructor|right; exists x; split; [now left|exact N]]. }
  unfold irr_eq. destruct (numeric_dec (i_lambda a)) as [Na|[Na Ea]]; [|rewrite Ea; cbn [bind]; split; [intros H; injection H as <-; auto|intros [-> _]; reflexivity]].
  destruct (numeric_dec (i_lambda b)) as [Nb|[Nb Eb]].
  2:{ destruct Na as [p Hp]. rewrite Hp, Eb. cbn [bind]. split; [intros H; injection H as <-; auto|intros [-> _]; reflexivity]. }
  pose proof Na as [p Hp]. pose proof Nb as [q Hq]. rewrite Hp, Hq. cbn [bind].
  destruct (Nat.eqb_spec (length (i_times a)) (length (i_times b))) as [L|L].
  - destruct (times_spec _ _ L true) as [A B]. destruct (D (i_times a ++ i_times b)) as [F|(t & I & N)].
    + pose proof F as F'. apply Forall_app in F'. destruct F' as [Fa Fb]. destruct (A Fa Fb) as (r & E & _). rewrite E. cbn [bind]. split; [discriminate|].
      intros [_ [H|[H|(_ & t & I & N)]]]; [contradiction|contradiction|]. rewrite Forall_forall in F. exfalso. apply N, F, I.
    + rewrite B; [cbn [bind]; split; [intros H; injection H as <-; split; [reflexivity|]; right; right; split; [exact L|exists t; auto]|intros [-> _]; reflexivity]|].
      intros [Fa Fb]. apply N. assert (F : Forall numeric (i_times a ++ i_times b)) by (apply Forall_app; auto). rewrite Forall_forall in F. apply F, I.
  - cbn [bind]. split; [discriminate|]. intros [_ [H|[H|(H & _)]]]; contradiction. Qed.

Lemma sn_sym s t : same_number s t -> same_number t s.
Proof. intros (p & q & A & B & C). exists q, p. repeat (split; [assumption|]). now symmetry. Qed.
Lemma sn_trans s t u : same_number s t -> same_number t u -> same_number s u.
Proof. intros (p & q & A & B & C) (q' & r & D & E & F). rewrite B in D. injection D as <-. exists p, r. repeat (split; [assumption|]). now rewrite C. Qed.
Lemma sn_refl s : numeric s -> same_number s s.
Proof. intros [q H]. exists q, q. repeat (split; [assumption|]). reflexivity. Qed.
Lemma F2_sym {A} (R : A -> A -> Prop) (S : forall x y, R x y -> R y x) : forall l m, Forall2 R l m -> Forall2 R m l.
Proof. induction 1; constructor; auto. Qed.
Lemma F2_trans {A} (R : A -> A -> Prop) (T : forall x y z, R x y -> R y z -> R x z) : forall l m n, Forall2 R l m -> Forall2 R m n -> Forall2 R l n.
Proof. intros l m n H. revert n. induction H; intros n K; inversion K; subst; constructor; eauto. Qed.
Lemma F2_refl {A} (R : A -> A -> Prop) l : Forall (fun x => R x x) l -> Forall2 R l l.
Proof. induction 1; constructor; auto. Qed.

Lemma eq_true_numeric a b : irr_eq a b = Ok true -> numeric_irr a /\ numeric_irr b.
Proof. intros H. unfold irr_eq in H. destruct (numeric_dec (i_lambda a)) as [Na|[_ Ea]]; [|rewrite Ea in H; discriminate].
  destruct (numeric_dec (i_lambda b)) as [Nb|[_ Eb]]; [|destruct Na as [p Hp]; rewrite Hp, Eb in H; discriminate].
  pose proof Na as [p Hp]. pose proof Nb as [q Hq]. rewrite Hp, Hq in H. cbn [bind] in H.
  destruct (Nat.eqb_spec (length (i_times a)) (length (i_times b))) as [L|L]; [|cbn [bind] in H; rewrite andb_false_r in H; discriminate].
  assert (D : forall l, Forall numeric l \/ ~ Forall numeric l).
  { induction l as [|x l [IH|IH]]; [left; constructor| |right; intros F; inversion F; contradiction].
    destruct (numeric_dec x) as [N|[N _]]; [left; now constructor|right; intros F; inversion F; contradiction]. }
  destruct (times_spec _ _ L true) as [_ B].
  destruct (D (i_times a)) as [Fa|Fa]; [|rewrite B in H by tauto; discriminate]. destruct (D (i_times b)) as [Fb|Fb]; [|rewrite B in H by tauto; discriminate].
  repeat split; assumption. Qed.
Lemma eq_sym a b : irr_eq a b = irr_eq b a.
Proof. destruct (irr_eq a b) as [r|e] eqn:E.
  - destruct (irr_eq b a) as [r'|e'] eqn:E'.
    + assert (G : forall a b r, irr_eq a b = Ok r -> r = true -> irr_eq b a = Ok true).
      { clear. intros a b r E ->. destruct (eq_true_numeric _ _ E) as [Na Nb]. destruct (eq_numeric a b Na Nb) as (x & X & I). rewrite E in X. injection X as <-.
        destruct (proj1 I eq_refl) as (A & B & C). destruct (eq_numeric b a Nb Na) as (y & Y & J). rewrite Y. f_equal. apply J. split; [congruence|]. split; [now apply sn_sym|].
        revert C. apply F2_sym. exact sn_sym. }
      f_equal. destruct r; [rewrite (G a b true E eq_refl) in E'; congruence|]. destruct r'; [|reflexivity]. rewrite (G b a true E' eq_refl) in E. congruence.
    + exfalso. apply eq_raises in E'. destruct E' as [_ H]. assert (X : irr_eq a b = Err ValueError); [|congruence]. apply eq_raises. split; [reflexivity|].
      destruct H as [H|[H|(H & t & I & N)]]; [auto|auto|]. right. right. split; [congruence|]. exists t. split; [apply in_app_iff in I; apply in_app_iff; tauto|exact N].
  - symmetry. apply eq_raises in E. destruct E as [-> H]. apply eq_raises. split; [reflexivity|].
    destruct H as [H|[H|(H & t & I & N)]]; [auto|auto|]. right. right. split; [congruence|]. exists t. split; [apply in_app_iff in I; apply in_app_iff; tauto|exact N]. Qed.
Lemma eq_refl_num a : numeric_irr a -> irr_eq a a = Ok true.
Proof. intros N. destruct (eq_numeric a a N N) as (r & E & I). rewrite E. f_equal. apply I. destruct N as [N1 N2]. split; [reflexivity|]. split; [now apply sn_refl|].
  apply F2_refl. eapply Forall_impl; [|exact N2]. exact sn_refl. Qed.
Lemma eq_trans a b c : irr_eq a b = Ok true -> irr_eq b c = Ok true -> irr_eq a c = Ok true.
Proof. intros H K. destruct (eq_true_numeric _ _ H) as [Na Nb]. destruct (eq_true_numeric _ _ K) as [_ Nc].
  destruct (eq_numeric a b Na Nb) as (x & X & I). rewrite H in X. injection X as <-. destruct (eq_numeric b c Nb Nc) as (y & Y & J). rewrite K in Y. injection Y as <-.
  destruct (proj1 I Logic.eq_refl) as (A & B & C). destruct (proj1 J Logic.eq_refl) as (D & E & F). destruct (eq_numeric a c Na Nc) as (z & Zz & M). rewrite Zz. f_equal. apply M.
  split; [congruence|]. split; [exact (sn_trans _ _ _ B E)|exact (F2_trans _ sn_trans _ _ _ C F)]. Qed.

(** *** the text of a modified time *)
Lemma time_len v : in_range v -> length (time_text v) <= 11.
Proof.
  assert (S : forall d x, (Z.abs x < 1000)%Z -> length (scin Two "e"%char 3 d x) <= 10).
  { intros d x H. unfold scin. pose proof (ndig_length 4 (Z.to_N d)) as L. destruct (ndig 4 (Z.to_N d)) as [|c cs]; [cbn [length]; lia|]. cbn [length] in L |- *. rewrite app_length. cbn [length exp_text].
    pose proof (exp_digits_len x H). lia. }
  assert (X : forall q d x, (0 < q)%Q -> (p10 (-999) <= q < p10 998)%Q -> decn 3 q = (d, x) -> (Z.abs x < 1000)%Z).
  { intros q d x Hq HR E. destruct (decn_spec 3 q d x Hq E) as (_ & B & _). destruct (ilog10_spec q Hq) as [A1 A2].
    assert (-999 < ilog10 q + 1)%Z by (apply p10_lt_inv; lra). assert (ilog10 q < 998)%Z by (apply p10_lt_inv; lra). lia. }
  intros HR. unfold time_text, fmt_sci. destruct (Qcase v) as [[-> _]|[[-> [-> H]]|[-> [-> H]]]].
  - pose proof (S 0%Z 0%Z ltac:(lia)). lia.
  - destruct HR as [HR|HR]; [lra|]. rewrite Qabs_pos in HR by lra. destruct (decn 3 v) as [d x] eqn:E. pose proof (S d x (X v d x H HR E)). lia.
  - destruct HR as [HR|HR]; [lra|]. rewrite Qabs_neg in HR by lra. destruct (decn 3 (-v)) as [d x] eqn:E. pose proof (S d x (X (-v)%Q d x H HR E)). cbn [length]. lia. Qed.
Lemma time_token v : token (time_text v).
Proof. destruct (fmt_sci_no_ws Two "e"%char 3 v Logic.eq_refl) as [A B]. split; [exact B|exact A]. Qed.
Lemma time_number v : exists q, parse_float (time_text v) = Ok q /\ (Qabs (q - v) * 2000 <= Qabs v)%Q.
Proof. exists (roundn Two 3 v). split; [apply parse_fmt_sci; now left|]. pose proof (roundn_acc Two 3 v) as H. exact H. Qed.

Lemma nth_set_at {A} : forall (l : list A) k x j, nth_error (set_at k x l) j = if Nat.eqb j k then match nth_error l k with Some _ => Some x | None => None end else nth_error l j.
Proof. induction l as [|y l IH]; intros k x j; [destruct k, j; cbn; try reflexivity; destruct (Nat.eqb j k); reflexivity|].
  destruct k, j; cbn [set_at nth_error Nat.eqb]; auto. Qed.

Lemma modified f k ix v i : carryable f -> match f_fmt f with (_, _, w3, _) => 11 < w3 end -> in_range v ->
  nth_error (f_scheds f) k = Some i -> (0 <= ix < Z.of_nat (length (i_times i)))%Z ->
  let f' := modify_time_val f k ix v in carryable f' /\
  exists i', nth_error (f_scheds f') k = Some i' /\ i_daughter i' = i_daughter i /\ i_lambda i' = i_lambda i /\ i_comment i' = i_comment i /\
    (forall j, j <> Z.to_nat ix -> nth_error (i_times i') j = nth_error (i_times i) j) /\
    (exists t q, nth_error (i_times i') (Z.to_nat ix) = Some t /\ parse_float t = Ok q /\ (Qabs (q - v) * 2000 <= Qabs v)%Q) /\
    (forall j, j <> k -> nth_error (f_scheds f') j = nth_error (f_scheds f) j).
Proof. intros C W R Hi Hx f'. unfold f', modify_time_val. cbn [istep]. rewrite Hi. unfold modify_time.
  assert (G : ((ix <? 0)%Z || (Z.of_nat (length (i_times i)) <=? ix)%Z) = false) by (apply orb_false_iff; split; [apply Z.ltb_ge|apply Z.leb_gt]; lia). rewrite G. cbn [fst]. split.
  - unfold carryable in *. cbn [f_fmt f_nsc f_header f_scheds]. destruct (f_fmt f) as [[[w1 w2] w3] w4]. destruct C as (C1 & C2 & C3). split; [exact C1|]. split; [exact C2|].
    apply Forall_set_at; [exact C3|]. rewrite Forall_forall in C3. specialize (C3 i (nth_error_In _ _ Hi)). cbn [i_daughter i_lambda i_times i_comment].
    destruct C3 as (A1 & A2 & A3 & A4 & A5 & A6 & A7 & A8). repeat (split; [assumption|]). split; [rewrite set_at_length; exact A6|]. split; [|exact A8].
    apply Forall_set_at; [exact A7|]. split; [apply time_token|]. pose proof (time_len v R). lia.
  - cbn [f_scheds]. eexists. split; [rewrite nth_set_at, Nat.eqb_refl, Hi; reflexivity|]. cbn [i_daughter i_lambda i_times i_comment]. repeat (split; [reflexivity|]).
    split; [intros j Hj; rewrite nth_set_at; apply Nat.eqb_neq in Hj; now rewrite Hj|]. split; [|intros j Hj; rewrite nth_set_at; apply Nat.eqb_neq in Hj; now rewrite Hj].
    destruct (time_number v) as (q & Q1 & Q2). exists (time_text v), q. split; [|split; assumption]. rewrite nth_set_at, Nat.eqb_refl.
    destruct (nth_error (i_times i) (Z.to_nat ix)) eqn:E; [reflexivity|]. apply nth_error_None in E. lia. Qed.

(** *** vectors *)
Lemma almost_iff : forall a b, almost_equal a b = true <-> close_points a b.
Proof. unfold almost_equal, close_points. induction a as [|x a IH]; intros [|y b]; cbn [length Nat.eqb combine forallb andb fst snd].
  - split; [constructor|reflexivity].
  - split; [discriminate|intros H; inversion H].
  - split; [discriminate|intros H; inversion H].
  - specialize (IH b). rewrite andb_true_iff in IH |- *. rewrite andb_true_iff, negb_true_iff. split.
    + intros (L & C & F). constructor; [|apply IH; auto]. apply Qnot_le_lt. intros K. apply Qle_bool_iff in K. congruence.
    + intros H. inversion H; subst. destruct (proj2 IH) as [A B]; [assumption|]. split; [exact A|]. split; [|exact B].
      destruct (Qle_bool (3 # 2000000) (Qabs (x - y))) eqn:E; [|reflexivity]. apply Qle_bool_iff in E. lra. Qed.
Lemma close_sym a b : close_points a b -> close_points b a.
Proof. apply F2_sym. intros x y H. rewrite Qabs_Qminus. exact H. Qed.
Lemma close_refl a : close_points a a.
Proof. apply F2_refl. apply Forall_forall. intros x _. setoid_replace (x - x)%Q with 0%Q by ring. reflexivity. Qed.
Lemma almost_sym a b : almost_equal a b = almost_equal b a.
Proof. destruct (almost_equal a b) eqn:E, (almost_equal b a) eqn:F; try reflexivity.
  - apply almost_iff, close_sym, almost_iff in E. congruence.
  - apply almost_iff, close_sym, almost_iff in F. congruence. Qed.
