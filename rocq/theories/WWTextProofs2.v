(** Whole-file round trip, truncated files, termination (proofs). *)
From Coq Require Import Lqa NArith Nnat Qabs.
From Verif Require Import PyBase PyLemmas PyStr PyStrLemmas WWTextModel WWTextSpec PyFmtLemmas WWTextProofs.
Open Scope nat_scope.

Lemma skipn_cons_nth {A} (l : list A) pi x r : skipn pi l = x :: r -> nth_error l pi = Some x /\ skipn (S pi) l = r.
Proof. revert l; induction pi as [|pi IH]; intros [|y l] H; simpl in *; try discriminate.
  - injection H as -> ->. auto.
  - destruct (IH l H) as [A1 A2]. auto. Qed.

(** ** block 3 *)
Definition b3_ok (h : header) (es vs : list (list Q)) : Prop :=
  Forall2 (fun es vs => Z.of_nat (length vs) = h_nfx h * h_nfy h * h_nfz h * Z.of_nat (length es))%Z es vs /\
  Forall (Forall in_range) es /\ Forall (Forall in_range) vs.

Lemma b3_full h : forall es vs pi, b3_ok h es vs ->
  skipn pi (h_ne h) = map (fun e => Z.of_nat (length e)) es ->
  exists r, write_b3 es vs = Ok r /\ forall fuel rest,
   (length r <= fuel -> read_b3 fuel h pi (length es) (r ++ rest) = Done (Ok (map (map round5) es, map (map round5) vs, rest))) /\
   (read_b3 fuel h pi (length es) (r ++ rest) = Running \/ read_b3 fuel h pi (length es) (r ++ rest) = Done (Ok (map (map round5) es, map (map round5) vs, rest))).
Proof.
  induction es as [|e es IH]; intros vs pi [H1 [H2 H3]] Hs; inversion H1 as [|? v ? vs' Hev HF]; subst.
  - exists []. split; [reflexivity|]. intros. simpl. auto.
  - inversion H2 as [|? ? H5 H6]; subst. inversion H3 as [|? ? H7 H8]; subst.
    destruct (skipn_cons_nth _ _ _ _ Hs) as [Hnth Hs'].
    destruct (IH vs' (S pi)) as [r [Wr Hr]]; [split; [exact HF|split; assumption]|exact Hs'|].
    exists (write_vec e ++ write_vals v ++ r). split; [simpl; rewrite Wr; reflexivity|]. intros fuel rest.
    cbn [length read_b3]. rewrite Hnth. cbn [of_opt obind].
    destruct (block_read (write_vec e) (map round5 e) fuel ((write_vals v ++ r) ++ rest) (Z.of_nat (length e)) (block_vec e H5)) as [A1 A2]; [now rewrite map_length|].
    destruct (block_read (write_vals v) (map round5 v) fuel (r ++ rest) (h_nfx h * h_nfy h * h_nfz h * Z.of_nat (length e)) (block_vals v H7)) as [B1 B2]; [now rewrite map_length|].
    destruct (Hr fuel rest) as [C1 C2].
    rewrite app_assoc_reverse. rewrite app_assoc_reverse in A1, A2 |- *.
    split.
    + rewrite !app_length. intros Hl. rewrite A1 by lia. cbn [obind]. rewrite B1 by lia. cbn [obind]. rewrite C1 by lia. reflexivity.
    + destruct A2 as [->| ->]; [left; reflexivity|]. cbn [obind]. destruct B2 as [->| ->]; [left; reflexivity|]. cbn [obind].
      destruct C2 as [->| ->]; [left; reflexivity|right; reflexivity]. Qed.

Lemma b3_trunc h : forall es vs pi r, b3_ok h es vs ->
  skipn pi (h_ne h) = map (fun e => Z.of_nat (length e)) es -> write_b3 es vs = Ok r ->
  forall fuel n, n < length r -> read_b3 fuel h pi (length es) (firstn n r) = Running.
Proof.
  induction es as [|e es IH]; intros vs pi r [H1 [H2 H3]] Hs W fuel n Hn; inversion H1 as [|? v ? vs' Hev HF]; subst.
  - injection W as <-. simpl in Hn. lia.
  - inversion H2 as [|? ? H5 H6]; subst. inversion H3 as [|? ? H7 H8]; subst.
    destruct (skipn_cons_nth _ _ _ _ Hs) as [Hnth Hs'].
    simpl in W. destruct (write_b3 es vs') as [r'|] eqn:W'; [|discriminate]. injection W as <-.
    cbn [length read_b3]. rewrite Hnth. cbn [of_opt obind].
    destruct (le_lt_dec (length (write_vec e)) n) as [L1|L1].
    2:{ rewrite firstn_app. replace (n - length (write_vec e)) with 0 by lia. rewrite firstn_O, app_nil_r.
        rewrite (block_trunc (write_vec e) (map round5 e) fuel n _ (block_vec e H5)); [reflexivity|now rewrite map_length|exact L1]. }
    rewrite firstn_app, firstn_all2 by exact L1. set (n1 := n - length (write_vec e)).
    destruct (block_read (write_vec e) (map round5 e) fuel (firstn n1 (write_vals v ++ r')) (Z.of_nat (length e)) (block_vec e H5)) as [_ A2]; [now rewrite map_length|].
    destruct A2 as [->| ->]; [reflexivity|]. cbn [obind].
    rewrite !app_length in Hn.
    destruct (le_lt_dec (length (write_vals v)) n1) as [L2|L2].
    2:{ rewrite firstn_app. replace (n1 - length (write_vals v)) with 0 by lia. rewrite firstn_O, app_nil_r.
        rewrite (block_trunc (write_vals v) (map round5 v) fuel n1 _ (block_vals v H7)); [reflexivity|now rewrite map_length|exact L2]. }
    rewrite firstn_app, firstn_all2 by exact L2. set (n2 := n1 - length (write_vals v)).
    destruct (block_read (write_vals v) (map round5 v) fuel (firstn n2 r') (h_nfx h * h_nfy h * h_nfz h * Z.of_nat (length e)) (block_vals v H7)) as [_ B2]; [now rewrite map_length|].
    destruct B2 as [->| ->]; [reflexivity|]. cbn [obind].
    rewrite (IH vs' (S pi) r' (conj HF (conj H6 H8)) Hs' W' fuel n2); [reflexivity|]. unfold n2, n1. lia. Qed.

(** the same, reading with the rounded header *)
Lemma b3_ok_round p : saveable p -> b3_ok (round_header (p_header p)) (p_energies p) (p_values p) /\
  skipn 0 (h_ne (round_header (p_header p))) = map (fun e => Z.of_nat (length e)) (p_energies p) /\
  Z.to_nat (h_ni (round_header (p_header p))) = length (p_energies p).
Proof. unfold saveable, b3_ok, round_header. simpl. intros H. decompose [and] H. repeat split; auto.
  match goal with E : h_ni _ = _ |- _ => rewrite E end. apply Nat2Z.id. Qed.

Lemma saveable_vecs p : saveable p ->
  block (write_vec (p_b2i p)) (map round5 (p_b2i p)) /\ block (write_vec (p_b2j p)) (map round5 (p_b2j p)) /\ block (write_vec (p_b2k p)) (map round5 (p_b2k p)) /\
  (3 * h_ncx (round_header (p_header p)) + 1 = Z.of_nat (length (map round5 (p_b2i p))))%Z /\
  (3 * h_ncy (round_header (p_header p)) + 1 = Z.of_nat (length (map round5 (p_b2j p))))%Z /\
  (3 * h_ncz (round_header (p_header p)) + 1 = Z.of_nat (length (map round5 (p_b2k p))))%Z.
Proof. unfold saveable. cbv zeta. intros H. decompose [and] H. rewrite !map_length. cbn [round_header h_ncx h_ncy h_ncz]. repeat split; try (now apply block_vec); symmetry; assumption. Qed.

Lemma file_roundtrip p : saveable p -> exists lines, write p = Ok lines /\ header_lines (p_header p) <= length lines /\
  (forall fuel, length lines <= fuel -> parse fuel lines = Done (Ok (round_parsed p))) /\
  (forall fuel n, header_lines (p_header p) <= n -> n < length lines -> parse fuel (firstn n lines) = Running).
Proof. intros S. pose proof (saveable_vecs p S) as (Vi & Vj & Vk & Ei & Ej & Ek).
  destruct (b3_ok_round p S) as (B & Hs & Hn).
  destruct (b3_full _ _ _ 0 B Hs) as [r [Wr Hr]].
  destruct (header_roundtrip p [] S) as [hl [Wh [Lh _]]].
  exists (hl ++ write_vec (p_b2i p) ++ write_vec (p_b2j p) ++ write_vec (p_b2k p) ++ r).
  assert (PH : forall rest, parse_header (hl ++ rest) = Ok (round_header (p_header p), rest)).
  { intros rest. destruct (header_roundtrip p rest S) as [hl' [Wh' [_ P]]]. rewrite Wh in Wh'. injection Wh' as <-. exact P. }
  split; [unfold write; rewrite Wh; simpl; rewrite Wr; reflexivity|].
  split; [rewrite app_length; lia|].
  set (li := write_vec (p_b2i p)) in *. set (lj := write_vec (p_b2j p)) in *. set (lk := write_vec (p_b2k p)) in *.
  split.
  - intros fuel Hf. rewrite !app_length in Hf. unfold parse. rewrite PH. cbn [obind]. unfold read_b2.
    rewrite (proj1 (block_read _ _ fuel (lj ++ lk ++ r) _ Vi Ei)) by lia. cbn [obind].
    rewrite (proj1 (block_read _ _ fuel (lk ++ r) _ Vj Ej)) by lia. cbn [obind].
    rewrite (proj1 (block_read _ _ fuel r _ Vk Ek)) by lia. cbn [obind].
    rewrite Hn. destruct (Hr fuel []) as [R _]. rewrite app_nil_r in R. rewrite R by lia. reflexivity.
  - intros fuel n H1 H2. rewrite <- Lh in H1. rewrite firstn_app, (firstn_all2 hl) by exact H1.
    set (m := n - length hl). rewrite !app_length in H2. unfold parse. rewrite PH. cbn [obind]. unfold read_b2.
    destruct (le_lt_dec (length li) m) as [L1|L1].
    2:{ rewrite firstn_app. replace (m - length li) with 0 by lia. rewrite firstn_O, app_nil_r.
        rewrite (block_trunc _ _ fuel m _ Vi Ei L1). reflexivity. }
    rewrite firstn_app, firstn_all2 by exact L1. set (m1 := m - length li).
    destruct (proj2 (block_read _ _ fuel (firstn m1 (lj ++ lk ++ r)) _ Vi Ei)) as [E|E]; rewrite E; [reflexivity|]. cbn [obind].
    destruct (le_lt_dec (length lj) m1) as [L2|L2].
    2:{ rewrite firstn_app. replace (m1 - length lj) with 0 by lia. rewrite firstn_O, app_nil_r.
        rewrite (block_trunc _ _ fuel m1 _ Vj Ej L2). reflexivity. }
    rewrite firstn_app, firstn_all2 by exact L2. set (m2 := m1 - length lj).
    destruct (proj2 (block_read _ _ fuel (firstn m2 (lk ++ r)) _ Vj Ej)) as [E2|E2]; rewrite E2; [reflexivity|]. cbn [obind].
    destruct (le_lt_dec (length lk) m2) as [L3|L3].
    2:{ rewrite firstn_app. replace (m2 - length lk) with 0 by lia. rewrite firstn_O, app_nil_r.
        rewrite (block_trunc _ _ fuel m2 _ Vk Ek L3). reflexivity. }
    rewrite firstn_app, firstn_all2 by exact L3. set (m3 := m2 - length lk).
    destruct (proj2 (block_read _ _ fuel (firstn m3 r) _ Vk Ek)) as [E3|E3]; rewrite E3; [reflexivity|]. cbn [obind].
    rewrite Hn. rewrite (b3_trunc _ _ _ 0 r B Hs Wr fuel m3); [reflexivity|]. unfold m3, m2, m1, m. lia. Qed.

(** ** rounding twice changes nothing *)
Lemma rjust_g9_round q : g9 (round5 q) = g9 q. Proof. unfold g9. now rewrite fmt_g_round5. Qed.
Lemma rjust_g13_round q : g13 (round5 q) = g13 q. Proof. unfold g13. now rewrite fmt_g_round5. Qed.
Lemma rjust_e13_round q : e13 (round5 q) = e13 q. Proof. unfold e13. now rewrite fmt_E_round5. Qed.
Lemma packs_map {A B} (f : A -> B) n l : 0 < n -> packs n (map f l) = map (map f) (packs n l).
Proof. intros Hn. apply (packs_ind (fun l ps => packs n (map f l) = map (map f) ps) n Hn); [reflexivity|].
  intros x Hx IH. rewrite packs_cons; [|exact Hn|destruct x; [contradiction|discriminate]]. cbn [map]. rewrite firstn_map, skipn_map, IH. reflexivity. Qed.
Lemma line_g_round pack : line_g (map round5 pack) = line_g pack.
Proof. destruct pack as [|q qs]; [reflexivity|]. simpl. rewrite rjust_g9_round. f_equal. rewrite map_map. f_equal. apply map_ext. apply rjust_g13_round. Qed.
Lemma write_vec_round v : write_vec (map round5 v) = write_vec v.
Proof. unfold write_vec. rewrite packs_map, map_map by lia. apply map_ext. apply line_g_round. Qed.
Lemma write_vals_round v : write_vals (map round5 v) = write_vals v.
Proof. unfold write_vals. rewrite packs_map, map_map by lia. apply map_ext. intros. rewrite map_map. f_equal. apply map_ext. apply rjust_e13_round. Qed.
Lemma write_b3_round es vs : write_b3 (map (map round5) es) (map (map round5) vs) = write_b3 es vs.
Proof. revert vs; induction es as [|e es IH]; intros [|v vs]; simpl; try reflexivity. rewrite IH, write_vec_round, write_vals_round. reflexivity. Qed.
Lemma three_map f l : three (map f l) = (do '(a, b, c) <- three l; Ok (f a, f b, f c)).
Proof. destruct l as [|a [|b [|c l]]]; reflexivity. Qed.
Lemma write_round p : write (round_parsed p) = write p.
Proof. unfold write, round_parsed. simpl. rewrite write_b3_round, !write_vec_round.
  assert (E : write_header (round_header (p_header p)) = write_header (p_header p)); [|now rewrite E].
  unfold write_header, round_header. cbn [h_origin h_if h_iv h_ni h_nr h_probid h_ne h_nfx h_nfy h_nfz h_ncx h_ncy h_ncz h_dirs].
  rewrite three_map. destruct (three (h_origin (p_header p))) as [[[a b] c]|]; [|reflexivity]. cbn [bind]. rewrite !rjust_g13_round.
  destruct (h_dirs (p_header p)) as [[d1 d2]|]; [|reflexivity]. cbn [round_dirs]. rewrite !three_map.
  destruct (three d1) as [[[a1 b1] c1]|]; [|reflexivity]. cbn [bind]. destruct (three d2) as [[[a2 b2] c2]|]; [|reflexivity]. cbn [bind].
  now rewrite !rjust_g13_round, !rjust_g9_round. Qed.

Lemma close_round l : Forall2 close5 l (map round5 l).
Proof. induction l; constructor; auto. apply round5_acc. Qed.
Lemma close_rounds l : Forall2 (Forall2 close5) l (map (map round5) l).
Proof. induction l; constructor; auto. apply close_round. Qed.
Lemma same5_round p : same5 p (round_parsed p).
Proof. unfold same5, round_parsed, round_header. simpl. repeat split; try apply close_round; try apply close_rounds.
  destruct (h_dirs (p_header p)) as [[a b]|]; [|exact I]. simpl. split; apply close_round. Qed.

Lemma saved_file_loads p : saveable p -> exists lines p', write p = Ok lines /\
  (forall fuel, length lines <= fuel -> parse fuel lines = Done (Ok p')) /\ same5 p p' /\ write p' = Ok lines.
Proof. intros S. destruct (file_roundtrip p S) as [lines [W [_ [P _]]]]. exists lines, (round_parsed p).
  split; [exact W|]. split; [exact P|]. split; [apply same5_round|]. rewrite write_round. exact W. Qed.

(** ** termination *)
Lemma readwords_len f : length (snd (readwords f)) <= length f.
Proof. destruct f; simpl; lia. Qed.

(** more fuel never changes a finished run *)
Lemma read_mono fuel fuel' e vec f : fuel <= fuel' -> read_floats fuel e vec f <> Running -> read_floats fuel' e vec f = read_floats fuel e vec f.
Proof. revert fuel' vec f; induction fuel as [|fuel IH]; intros fuel' vec f H N.
  - simpl in N. destruct (Z.ltb_spec (Z.of_nat (length vec)) e); [exfalso; apply N; reflexivity|]. rewrite !read_full by lia. reflexivity.
  - destruct fuel' as [|fuel']; [lia|]. cbn [read_floats] in *.
    destruct (Z.ltb_spec (Z.of_nat (length vec)) e); [|reflexivity]. destruct (readwords f) as [ws f'].
    destruct (mapM parse_float ws); [|reflexivity]. apply IH; [lia|exact N]. Qed.
(** a run that needs more iterations than the file has lines never ends *)
Lemma read_stuck fuel fuel' e vec f : length f < fuel -> read_floats fuel e vec f = Running -> read_floats fuel' e vec f = Running.
Proof. revert fuel' vec f; induction fuel as [|fuel IH]; intros fuel' vec f H N; [lia|].
  destruct f as [|l f].
  - apply read_eof. cbn [read_floats] in N. destruct (Z.ltb_spec (Z.of_nat (length vec)) e); [assumption|discriminate].
  - cbn [read_floats readwords] in N. destruct (Z.ltb_spec (Z.of_nat (length vec)) e); [|discriminate].
    destruct (mapM parse_float (split l)) as [qs|] eqn:E; [|discriminate].
    destruct fuel' as [|fuel']; cbn [read_floats readwords]; (destruct (Z.ltb_spec (Z.of_nat (length vec)) e); [|lia]); [reflexivity|].
    rewrite E. apply IH; [simpl in H; lia|exact N]. Qed.
Lemma read_rest_len fuel e vec f r f' : read_floats fuel e vec f = Done (Ok (r, f')) -> length f' <= length f.
Proof. revert vec f; induction fuel as [|fuel IH]; intros vec f H.
  - simpl in H. destruct (_ <? _)%Z; [discriminate|]. injection H as <- <-. lia.
  - cbn [read_floats] in H. destruct (_ <? _)%Z; [|injection H as <- <-; lia].
    pose proof (readwords_len f) as L. destruct (readwords f) as [ws g]. destruct (mapM parse_float ws); [|discriminate].
    apply IH in H. simpl in L. lia. Qed.

(** [F] decides: with more fuel than lines, its answer (or its not answering) is final *)
Definition decides {A} (F : nat -> list str -> outcome A) : Prop := forall f fuel fuel',
  (fuel <= fuel' -> F fuel f <> Running -> F fuel' f = F fuel f) /\
  (length f < fuel -> F fuel f = Running -> F fuel' f = Running).
Definition shrinks {A} (F : nat -> list str -> outcome (A * list str)) : Prop :=
  forall f fuel a f', F fuel f = Done (Ok (a, f')) -> length f' <= length f.

Lemma read_decides e vec : decides (fun fuel f => read_floats fuel e vec f).
Proof. intros f fuel fuel'. split; [apply read_mono|apply read_stuck]. Qed.
Lemma read_shrinks e vec : shrinks (fun fuel f => read_floats fuel e vec f).
Proof. intros f fuel a f'. apply read_rest_len. Qed.

Lemma bind_decides {A B} (F : nat -> list str -> outcome (A * list str)) (G : A -> nat -> list str -> outcome B) :
  decides F -> shrinks F -> (forall a, decides (G a)) ->
  decides (fun fuel f => obind (F fuel f) (fun x => G (fst x) fuel (snd x))).
Proof. intros DF SF DG f fuel fuel'. split.
  - intros H N. destruct (F fuel f) as [[[a f']|e]|] eqn:E; simpl in N.
    + rewrite (proj1 (DF f fuel fuel') H) by congruence. rewrite E. simpl. apply DG; assumption.
    + rewrite (proj1 (DF f fuel fuel') H) by congruence. rewrite E. reflexivity.
    + contradiction.
  - intros H N. destruct (F fuel f) as [[[a f']|e]|] eqn:E; simpl in N; [|discriminate|].
    + pose proof (SF _ _ _ _ E) as L. destruct (F fuel' f) as [r|] eqn:E'; [|reflexivity].
      assert (Er : r = Ok (a, f')).
      { destruct (le_ge_dec fuel fuel') as [Hle|Hle].
        - pose proof (proj1 (DF f fuel fuel') Hle) as M. rewrite E, E' in M. assert (K : Done r = Done (Ok (a, f'))) by (apply M; discriminate). congruence.
        - pose proof (proj1 (DF f fuel' fuel) Hle) as M. rewrite E, E' in M. assert (K : Done (Ok (a, f')) = Done r) by (apply M; discriminate). congruence. }
      subst r. simpl. apply (proj2 (DG a f' fuel fuel')); [simpl in L; lia|exact N].
    + pose proof (proj2 (DF f fuel fuel') H E) as E'. rewrite E'. reflexivity. Qed.

Lemma const_decides {A} (c : list str -> res A) : decides (fun _ f => Done (c f)).
Proof. intros f fuel fuel'. split; [reflexivity|discriminate]. Qed.
Lemma bind_shrinks {A B} (F : nat -> list str -> outcome (A * list str)) (G : A -> nat -> list str -> outcome (B * list str)) :
  shrinks F -> (forall a, shrinks (G a)) -> shrinks (fun fuel f => obind (F fuel f) (fun x => G (fst x) fuel (snd x))).
Proof. intros SF SG f fuel b f' H. destruct (F fuel f) as [[[a g]|e]|] eqn:E; simpl in H; try discriminate.
  apply SF in E. apply SG in H. lia. Qed.

Lemma b3_decides h : forall n pi, decides (fun fuel f => read_b3 fuel h pi n f) /\ shrinks (fun fuel f => read_b3 fuel h pi n f).
Proof. induction n as [|n IH]; intros pi; cbn [read_b3].
  - split; [apply (const_decides (fun f => Ok ([], [], f)))|]. intros f fuel a f' H. injection H as <- <-. lia.
  - destruct (nth_error (h_ne h) pi) as [ne|]; cbn [of_opt obind].
    2:{ split; [apply (const_decides (fun f => Err IndexError))|]. intros f fuel a f' H. discriminate. }
    set (nv := (h_nfx h * h_nfy h * h_nfz h * ne)%Z).
    pose (G3 := fun (es vs : list Q) (r : list (list Q) * list (list Q)) (_ : nat) (f3 : list str) => Done (Ok (es :: fst r, vs :: snd r, f3))).
    pose (G2 := fun (es vs : list Q) (fuel : nat) (f2 : list str) => obind (read_b3 fuel h (Datatypes.S pi) n f2) (fun z => G3 es vs (fst z) fuel (snd z))).
    pose (G1 := fun (es : list Q) (fuel : nat) (f1 : list str) => obind (read_floats fuel nv [] f1) (fun y => G2 es (fst y) fuel (snd y))).
    assert (EQ : forall fuel f, (run '(es, f1) <- read_floats fuel ne [] f;
        run '(vs, f2) <- read_floats fuel nv [] f1;
        run '(r, f3) <- read_b3 fuel h (Datatypes.S pi) n f2; Done (Ok (es :: fst r, vs :: snd r, f3))) =
      obind (read_floats fuel ne [] f) (fun x => G1 (fst x) fuel (snd x))).
    { intros fuel f. destruct (read_floats fuel ne [] f) as [[[es f1]|]|]; simpl; try reflexivity. unfold G1.
      destruct (read_floats fuel _ [] f1) as [[[vs f2]|]|]; simpl; try reflexivity. unfold G2.
      destruct (read_b3 fuel h (Datatypes.S pi) n f2) as [[[r f3]|]|]; reflexivity. }
    destruct (IH (Datatypes.S pi)) as [D SH]. split.
    + intros f fuel fuel'. rewrite !EQ. revert f fuel fuel'.
      apply (bind_decides (fun fuel f => read_floats fuel ne [] f) G1); [apply read_decides|apply read_shrinks|]. intros es.
      apply (bind_decides (fun fuel f => read_floats fuel nv [] f) (G2 es)); [apply read_decides|apply read_shrinks|]. intros vs.
      apply (bind_decides (fun fuel f => read_b3 fuel h (Datatypes.S pi) n f) (G3 es vs)); [exact D|exact SH|]. intros r.
      apply (const_decides (fun f3 => Ok (es :: fst r, vs :: snd r, f3))).
    + intros f fuel a f'. rewrite EQ. revert f fuel a f'.
      apply (bind_shrinks (fun fuel f => read_floats fuel ne [] f) G1); [apply read_shrinks|]. intros es.
      apply (bind_shrinks (fun fuel f => read_floats fuel nv [] f) (G2 es)); [apply read_shrinks|]. intros vs.
      apply (bind_shrinks (fun fuel f => read_b3 fuel h (Datatypes.S pi) n f) (G3 es vs)); [exact SH|]. intros r g fu b g' H. injection H as <- <-. lia. Qed.

Lemma bind_ok {A B} (m : res A) (f : A -> res B) y : bind m f = Ok y -> exists a, m = Ok a /\ f a = Ok y.
Proof. destruct m; simpl; [eauto|discriminate]. Qed.
Ltac bind_ok H := repeat (apply bind_ok in H; destruct H as [? [_ H]]).
Lemma parse_header_shrinks f h f' : parse_header f = Ok (h, f') -> length f' <= length f.
Proof. unfold parse_header. intros H. pose proof (readwords_len f) as L0. destruct (readwords f) as [w1 f1]. simpl in L0. bind_ok H.
  pose proof (readwords_len f1) as L1; destruct (readwords f1) as [w2 f2]; simpl in L1. bind_ok H.
  pose proof (readwords_len f2) as L2; destruct (readwords f2) as [w3 f3]; simpl in L2. bind_ok H.
  pose proof (readwords_len f3) as L3; destruct (readwords f3) as [w4 f4]; simpl in L3. bind_ok H.
  destruct (_ =? 10)%Z.
  - injection H as <- <-. lia.
  - bind_ok H. pose proof (readwords_len f4) as L4; destruct (readwords f4) as [w5 f5]; simpl in L4. bind_ok H. injection H as <- <-. lia. Qed.

Lemma parse_decides : decides parse.
Proof.
  pose (G5 := fun h i j k (ev : list (list Q) * list (list Q)) (_ : nat) (_ : list str) => Done (Ok (mkparsed h i j k (fst ev) (snd ev)))).
  pose (G4 := fun h i j k fuel f => obind (read_b3 fuel h 0 (Z.to_nat (h_ni h)) f) (fun z => G5 h i j k (fst z) fuel (snd z))).
  pose (G3 := fun h i j fuel f => obind (read_floats fuel (3 * h_ncz h + 1) [] f) (fun z => G4 h i j (fst z) fuel (snd z))).
  pose (G2 := fun h i fuel f => obind (read_floats fuel (3 * h_ncy h + 1) [] f) (fun z => G3 h i (fst z) fuel (snd z))).
  pose (G1 := fun h fuel f => obind (read_floats fuel (3 * h_ncx h + 1) [] f) (fun z => G2 h (fst z) fuel (snd z))).
  assert (EQ : forall fuel f, parse fuel f = obind (Done (parse_header f)) (fun x => G1 (fst x) fuel (snd x))).
  { intros fuel f. unfold parse. destruct (parse_header f) as [[h f1]|]; cbn [obind]; [|reflexivity]. cbn [fst snd]. unfold G1, read_b2.
    destruct (read_floats fuel _ [] f1) as [[[i f2]|]|]; cbn [obind]; try reflexivity. cbn [fst snd]. unfold G2.
    destruct (read_floats fuel _ [] f2) as [[[j f3]|]|]; cbn [obind]; try reflexivity. cbn [fst snd]. unfold G3.
    destruct (read_floats fuel _ [] f3) as [[[k f4]|]|]; cbn [obind]; try reflexivity. cbn [fst snd]. unfold G4.
    destruct (read_b3 fuel h 0 _ f4) as [[[ev f5]|]|]; reflexivity. }
  intros f fuel fuel'. rewrite !EQ. revert f fuel fuel'.
  apply (bind_decides (fun fuel f => Done (parse_header f)) G1).
  - apply const_decides.
  - intros f fuel h f' H. injection H as H. eapply parse_header_shrinks; exact H.
  - intros h. apply (bind_decides (fun fuel f => read_floats fuel (3 * h_ncx h + 1) [] f) (G2 h)); [apply read_decides|apply read_shrinks|]. intros i.
    apply (bind_decides (fun fuel f => read_floats fuel (3 * h_ncy h + 1) [] f) (G3 h i)); [apply read_decides|apply read_shrinks|]. intros j.
    apply (bind_decides (fun fuel f => read_floats fuel (3 * h_ncz h + 1) [] f) (G4 h i j)); [apply read_decides|apply read_shrinks|]. intros k.
    apply (bind_decides (fun fuel f => read_b3 fuel h 0 (Z.to_nat (h_ni h)) f) (G5 h i j k)); [apply b3_decides|apply b3_decides|]. intros ev.
    apply (const_decides (fun _ => Ok (mkparsed h i j k (fst ev) (snd ev)))). Qed.

Lemma loading_decided f : (exists r, forall fuel, length f < fuel -> parse fuel f = Done r) \/ (forall fuel, parse fuel f = Running).
Proof. destruct (parse (S (length f)) f) as [r|] eqn:E.
  - left. exists r. intros fuel H. rewrite (proj1 (parse_decides f (S (length f)) fuel)); [exact E|lia|congruence].
  - right. intros fuel. apply (proj2 (parse_decides f (S (length f)) fuel)); [lia|exact E]. Qed.

Lemma truncated_never_loads p lines n : saveable p -> write p = Ok lines -> header_lines (p_header p) <= n < length lines ->
  forall fuel, parse fuel (firstn n lines) = Running.
Proof. intros S W H fuel. destruct (file_roundtrip p S) as [l [W' [_ [_ T]]]]. rewrite W in W'. injection W' as <-. apply T; lia. Qed.
