(** Proofs about the temperature of a table, and the types. *)
From Coq Require Import Lia ZArith Qabs Lqa.
From Verif Require Import PyBase PyLemmas PyStr PyStrLemmas PyFmtLemmas D1SProofs2 MatProofs MatProofs2 OutProofs AceModel AceProofs NucXsModel NucXsSpec NucXsProofs.
Open Scope nat_scope.

Lemma float_digits s : digits s -> s <> [] -> exists q, parse_float s = Ok q /\ (q == inject_Z (Z.of_N (num_of s)))%Q.
Proof.
  intros D N. unfold parse_float. rewrite <- (app_nil_r s), take_sign_digit by assumption. rewrite app_nil_r, span_digits_all by exact D. rewrite app_nil_r.
  destruct s; [congruence|]. cbn [parse_exp bind]. eexists. split; [reflexivity|]. change (p10 (0 - Z.of_nat (length (@nil ascii)))) with 1%Q. ring.
Qed.
Lemma float_Z z : exists q, parse_float (str_of_Z z) = Ok q /\ (q == inject_Z z)%Q.
Proof.
  destruct z as [|p|p]; unfold str_of_Z.
  - exists 0%Q. split; reflexivity.
  - destruct (float_digits _ (str_of_N_digits (Npos p)) (str_of_N_ne _)) as (q & E & V). rewrite num_of_str in V. exists q. split; [exact E|exact V].
  - destruct (float_digits _ (str_of_N_digits (Npos p)) (str_of_N_ne _)) as (q & E & V). rewrite num_of_str in V. unfold parse_float in E |- *. cbn [take_sign]. rewrite Ascii.eqb_refl.
    rewrite <- (app_nil_r (str_of_N (Npos p))), take_sign_digit, app_nil_r in E by (apply str_of_N_digits || apply str_of_N_ne).
    rewrite span_digits_all in * by apply str_of_N_digits. cbn [app] in *. destruct (str_of_N (Npos p) ++ []) eqn:X; [destruct (str_of_N_ne (Npos p)); apply app_eq_nil in X; tauto|].
    cbn [parse_exp bind] in *. injection E as E. eexists. split; [reflexivity|]. rewrite <- E in V. cbn [length] in V |- *. rewrite V. change (Zneg p) with (- Zpos p)%Z. rewrite inject_Z_opp. reflexivity.
Qed.
Lemma kelvin_name z : exists q, kelvin (temp_name z) = Ok q /\ (q == inject_Z z)%Q.
Proof.
  unfold kelvin, temp_name. rewrite filter_app. cbn [filter s2l list_ascii_of_string]. rewrite app_nil_r.
  replace (filter _ (str_of_Z z)) with (str_of_Z z); [apply float_Z|]. symmetry.
  assert (D : forall n, filter (fun c => negb (Ascii.eqb c "K"%char)) (str_of_N n) = str_of_N n).
  { intros n. assert (X : forall l, digits l -> filter (fun c => negb (Ascii.eqb c "K"%char)) l = l). { induction 1 as [|c l C _ IH]; [reflexivity|]. cbn [filter]. destruct (Ascii.eqb c "K"%char) eqn:E; [apply Ascii.eqb_eq in E; subst c; discriminate C|]. cbn [negb]. now rewrite IH. } apply X. apply str_of_N_digits. }
  destruct z as [|p|p]; unfold str_of_Z; [apply D|apply D|]. cbn [filter]. change (negb (Ascii.eqb minus "K"%char)) with true. cbn iota. now rewrite D.
Qed.
Lemma temp_name_inj a b : temp_name a = temp_name b -> a = b.
Proof. intros H. unfold temp_name in H. apply app_inv_tail in H. assert (X : parse_int (str_of_Z a) = parse_int (str_of_Z b)) by now rewrite H. rewrite !parse_str_of_Z in X. congruence. Qed.

Lemma argmin_from_spec L : forall l i a best, skipn i L = l -> nth_error L a = Some best -> (forall q, In q (firstn i L) -> (best <= q)%Q) ->
  exists m, nth_error L (argmin_from best a i l) = Some m /\ forall q, In q L -> (m <= q)%Q.
Proof.
  induction l as [|q l IH]; intros i a best S N B.
  - cbn [argmin_from]. exists best. split; [exact N|]. intros q H. apply B. rewrite <- (firstn_skipn i L), S, app_nil_r in H. exact H.
  - cbn [argmin_from]. assert (Nq : nth_error L i = Some q). { rewrite <- (firstn_skipn i L), S. rewrite nth_error_app2 by apply firstn_le_length. rewrite firstn_length. assert (i < length L) by (destruct (Nat.lt_ge_cases i (length L)); [assumption|]; rewrite skipn_all2 in S by lia; discriminate S). replace (i - Nat.min i (length L)) with 0 by lia. reflexivity. }
    assert (Sk : skipn (Datatypes.S i) L = l). { clear - S. revert i S. induction L as [|x L IH]; intros [|i] S; try discriminate S; cbn [skipn] in *; [injection S as _ S; exact S|apply IH; exact S]. }
    assert (F : firstn (Datatypes.S i) L = firstn i L ++ [q]). { clear - Nq. revert i Nq. induction L as [|x L IH]; intros [|i] Nq; try discriminate Nq; cbn in *; [congruence|]. f_equal. apply IH. exact Nq. }
    destruct (Qle_bool best q) eqn:E.
    + apply Qle_bool_iff in E. apply IH; [exact Sk|exact N|]. intros r R. rewrite F in R. apply in_app_iff in R as [R|[<-|[]]]; [apply B; exact R|exact E].
    + assert (Lt : (q < best)%Q). { destruct (Qlt_le_dec q best) as [X|X]; [exact X|]. apply Qle_bool_iff in X. congruence. }
      apply IH; [exact Sk|exact Nq|]. intros r R. rewrite F in R. apply in_app_iff in R as [R|[<-|[]]]; [|apply Qle_refl]. apply B in R. lra.
Qed.
Lemma argmin_spec L : L <> [] -> exists k m, argmin L = Ok k /\ nth_error L k = Some m /\ forall q, In q L -> (m <= q)%Q.
Proof.
  destruct L as [|q L]; [congruence|]. intros _. unfold argmin. destruct (argmin_from_spec (q :: L) L 1 0 q) as (m & N & B); [reflexivity|reflexivity| |].
  - cbn. intros r [<-|[]]. apply Qle_refl.
  - eexists _, m. split; [reflexivity|]. split; [exact N|exact B].
Qed.
(* rounding gives a nearest integer *)
Lemma round_nearest t z : (Qabs (inject_Z (qround_even t) - t) <= Qabs (inject_Z z - t))%Q.
Proof.
  destruct (qround_even_spec t) as [A B]. destruct (Z.eq_dec z (qround_even t)) as [->|N]; [apply Qle_refl|].
  assert (H : (Qabs (inject_Z (qround_even t) - t) <= 1 # 2)%Q) by (apply Qabs_Qle_condition; split; lra).
  assert (Y : (z <= qround_even t - 1 \/ qround_even t + 1 <= z)%Z) by lia.
  apply Qle_trans with (1 # 2); [exact H|]. destruct Y as [Y|Y]; rewrite Zle_Qle in Y.
  - unfold Z.sub in Y. rewrite inject_Z_plus in Y. change (inject_Z (- (1))) with (-1)%Q in Y. rewrite Qabs_neg by lra. lra.
  - rewrite inject_Z_plus in Y. change (inject_Z 1) with 1%Q in Y. rewrite Qabs_pos by lra. lra.
Qed.
Lemma pick_nearest k t zs : (0 < k)%Q -> zs <> [] -> exists z, pick_temp k t (map temp_name zs) = Ok (temp_name z) /\ Nearest t (map temp_name zs) z.
Proof.
  intros K N. unfold pick_temp.
  assert (M : exists qs, mapM (fun s => do v <- kelvin s; Ok (v * k)%Q) (map temp_name zs) = Ok qs /\ Forall2 (fun z q => (q == inject_Z z * k)%Q) zs qs).
  { clear N. induction zs as [|z zs (qs & E & F)]; [exists []; split; [reflexivity|constructor]|]. destruct (kelvin_name z) as (q & Kq & V). exists ((q * k)%Q :: qs).
    cbn [map mapM]. rewrite Kq. cbn [bind]. rewrite E. cbn [bind]. split; [reflexivity|]. constructor; [now rewrite V|exact F]. }
  destruct M as (qs & -> & F). cbn [bind]. destruct (memb str_eqb (str_temp t) (map temp_name zs)) eqn:B.
  - apply memb_str in B. exists (qround_even t). split; [reflexivity|]. split; [exact B|]. intros z' _. apply round_nearest.
  - destruct (argmin_spec (map (fun v => Qabs (v - t * k)) qs)) as (i & m & -> & Ni & Min); [destruct F; [congruence|discriminate]|]. cbn [bind].
    assert (G : exists z, nth_error zs i = Some z /\ (m == Qabs (inject_Z z - t) * k)%Q).
    { clear - Ni F K. revert i Ni. induction F as [|z q zs qs Q F IH]; intros [|i] Ni; try discriminate Ni; cbn [map nth_error] in *.
      - assert (Em : m = Qabs (q - t * k)) by congruence. rewrite Em. exists z. split; [reflexivity|]. rewrite Q. setoid_replace (inject_Z z * k - t * k)%Q with ((inject_Z z - t) * k)%Q by ring. rewrite Qabs_Qmult, (Qabs_pos k) by lra. reflexivity.
      - apply IH. exact Ni. }
    destruct G as (z & Nz & Ez). exists z. assert (Nm : nth_error (map temp_name zs) i = Some (temp_name z)) by (apply map_nth_error; exact Nz). rewrite Nm. split; [reflexivity|]. split; [apply nth_error_In in Nm; exact Nm|].
    intros z' H. apply in_map_iff in H as (z0 & E & H). apply temp_name_inj in E. subst z0.
    assert (W : exists q, In q qs /\ (q == inject_Z z' * k)%Q). { clear - F H. induction F as [|z q zs qs Q F IH]; [destruct H|]. destruct H as [->|H]; [exists q; split; [now left|exact Q]|]. destruct (IH H) as (q' & I & E). exists q'. split; [now right|exact E]. }
    destruct W as (q & Iq & Eq). specialize (Min (Qabs (q - t * k)) (in_map (fun v => Qabs (v - t * k)) _ _ Iq)). rewrite Ez, Eq in Min.
    assert (R : (Qabs (inject_Z z' * k - t * k) == Qabs (inject_Z z' - t) * k)%Q). { setoid_replace (inject_Z z' * k - t * k)%Q with ((inject_Z z' - t) * k)%Q by ring. rewrite Qabs_Qmult, (Qabs_pos k) by lra. reflexivity. }
    rewrite R in Min. apply (Qmult_le_r _ _ k K). exact Min.
Qed.

(* types *)
Definition ops_of (t : ty) (sum_rules : Z -> list Z) (mts : list Z) : list (Q -> Q -> Q) :=
  match t with TName line => match dget str_eqb line (plot_types sum_rules) with Some _ => if memb Z.eqb XI_MT mts then repeat op_add (length mts - 2) ++ [op_mul] else repeat op_add (length mts - 1) | None => repeat op_add (length mts - 1) end
  | _ => repeat op_add (length mts - 1) end.
Lemma named sum_rules line l : dget str_eqb line (plot_types sum_rules) = Some l -> In (line, l) (plot_types sum_rules) /\ (starts (s2l "nu") line = true <-> line = s2l "nu-fission" \/ line = s2l "nu-scatter").
Proof.
  intros H. apply (dget_some_in str_eqb str_eqb_eq) in H. split; [exact H|]. unfold plot_types in H.
  repeat (destruct H as [H|H]; [injection H as <- _; clear; vm_compute; split; [first [discriminate|auto]|first [intros [X|X]; discriminate X|reflexivity]]|]). destruct H.
Qed.
Lemma plot_keys sum_rules line l : In (line, l) (plot_types sum_rules) -> dget str_eqb line (plot_types sum_rules) = Some l.
Proof. unfold plot_types. intros H. repeat (destruct H as [H|H]; [injection H as <- <-; reflexivity|]). destruct H. Qed.
Lemma parse_ok sum_rules names n t p : parse_type sum_rules names n t = Ok p <-> exists mts nu, Asked sum_rules names n t mts nu /\ p = (mts, ops_of t sum_rules mts, nu).
Proof.
  destruct t as [line|mt|]; cbn [parse_type Asked ops_of].
  - destruct (dget str_eqb line (plot_types sum_rules)) as [l|] eqn:D.
    + destruct (named _ _ _ D) as [I S]. split.
      * intros E. injection E as <-. eexists _, _. split; [left; exists l; split; [exact I|]; split; [reflexivity|exact S]|reflexivity].
      * intros (mts & nu & [(l' & I' & -> & S')|(N & _)] & ->).
        -- apply plot_keys in I'. rewrite D in I'. injection I' as <-. do 2 f_equal. destruct nu, (starts (s2l "nu") line); try reflexivity; [destruct S' as [S' _]; specialize (S' eq_refl); apply S in S'; congruence|destruct S as [S _]; specialize (S eq_refl); apply S' in S; congruence].
        -- destruct N. apply in_map_iff. exists (line, l). auto.
    + assert (NI : ~ In line (map fst (plot_types sum_rules))). { intros H. apply in_map_iff in H as ([a l] & E & H). cbn in E. subst a. apply plot_keys in H. congruence. }
      destruct (names line) as [mt|]; (split; [|intros (mts & nu & [(l' & I' & _)|(_ & -> & mt' & X & ->)] & ->); [apply plot_keys in I'; congruence|congruence]]).
      * intros E. injection E as <-. eexists _, _. split; [right; split; [exact NI|]; split; [reflexivity|]; exists mt; auto|reflexivity].
      * discriminate.
  - split; [intros E; injection E as <-; eexists _, _; split; [split; reflexivity|reflexivity]|]. intros (mts & nu & [-> ->] & ->). reflexivity.
  - split; [discriminate|intros (mts & nu & [] & _)].
Qed.

(* an answer, taken apart *)
Lemma answer sum_rules names k n types t es fs : nuclide_xs sum_rules names k n types t = Ok (es, fs) ->
  exists r1 temp f1, n_rx n 1%Z = Some r1 /\ pick_temp k t (map fst (r_xs r1)) = Ok temp /\ dget str_eqb temp (r_xs r1) = Some (es, f1)
    /\ exists ps, mapM (parse_type sum_rules names n) types = Ok ps /\ mapM (type_fn n temp) ps = Ok fs.
Proof.
  unfold nuclide_xs. destruct (n_rx n 1%Z) as [r1|]; [|discriminate]. cbn [of_opt bind]. destruct (pick_temp k t (map fst (r_xs r1))) as [temp|] eqn:P; [|discriminate]. cbn [bind].
  destruct (dget str_eqb temp (r_xs r1)) as [[es' f1]|] eqn:D; [|discriminate]. cbn [of_opt bind fst]. destruct (mapM (parse_type sum_rules names n) types) as [ps|] eqn:M; [|discriminate]. cbn [bind].
  destruct (mapM (type_fn n temp) ps) as [fs'|] eqn:M'; [|discriminate]. cbn [bind]. intros E. injection E as -> ->. exists r1, temp, f1. repeat split; try assumption. exists ps. auto.
Qed.
Lemma F2nth {A B} (R : A -> B -> Prop) l l' : Forall2 R l l' -> forall i a, nth_error l i = Some a -> exists b, nth_error l' i = Some b /\ R a b.
Proof. induction 1 as [|x y l l' H _ IH]; intros [|i] a E; try discriminate E; cbn [nth_error] in *; [injection E as <-; exists y; auto|apply IH; exact E]. Qed.
Lemma answer_type sum_rules names n types temp ps fs : mapM (parse_type sum_rules names n) types = Ok ps -> mapM (type_fn n temp) ps = Ok fs ->
  length fs = length types /\ forall i t, nth_error types i = Some t -> exists mts nu gs, Asked sum_rules names n t mts nu /\ Forall2 (fun mt g => func_of n temp nu mt = Ok g) mts gs
    /\ nth_error fs i = Some (comb (match gs with [] => [fun _ => Ok 0%Q] | _ => gs end) (ops_of t sum_rules mts)).
Proof.
  intros M M'. apply mapM_Forall2 in M, M'. split; [rewrite <- (F2len _ _ _ M'), <- (F2len _ _ _ M); reflexivity|]. intros i t Ht.
  destruct (F2nth _ _ _ M i t Ht) as (p & Hp & P). apply parse_ok in P as (mts & nu & A & ->). destruct (F2nth _ _ _ M' i _ Hp) as (f & Hf & F). unfold type_fn in F.
  destruct (mapM (func_of n temp nu) mts) as [gs|] eqn:G; [|discriminate F]. cbn [bind] in F. injection F as F. exists mts, nu, gs. split; [exact A|]. split; [apply mapM_Forall2; exact G|]. rewrite Hf. subst f. reflexivity.
Qed.
Lemma asked_fun sum_rules names n t mts nu mts' nu' : Asked sum_rules names n t mts nu -> Asked sum_rules names n t mts' nu' -> mts' = mts /\ nu' = nu.
Proof.
  intros A B. assert (P : parse_type sum_rules names n t = Ok (mts, ops_of t sum_rules mts, nu)) by (apply parse_ok; eauto). assert (P' : parse_type sum_rules names n t = Ok (mts', ops_of t sum_rules mts', nu')) by (apply parse_ok; eauto).
  rewrite P in P'. injection P' as -> _ ->. auto.
Qed.

