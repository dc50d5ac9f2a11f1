From Coq Require Import Lia ZArith Lqa.
From Verif Require Import PyBase PyLemmas PyStr PyStrLemmas PyText LibModel LibSpec LibProofs LibProofs2 LibProofs3 IsoData LibProps MatModel MatSpec MatProofs MatProofs2 MatProofs3 MatProofs4 MatProps MatProps2 MatLifeModel MatLifeSpec.
Open Scope nat_scope.

(** sums over the elements that satisfy [p] *)
Definition pick (p : Z -> bool) (z : zaid) : bool := match parse_int (z_elem z) with Ok k => p k | Err _ => false end.
Definition gsum (E : matenv) (m : material) (p : Z -> bool) : Q := qsum (map (grams E m) (filter (pick p) (all_zaids m))).
Definition proportional (E : matenv) (m m' : material) : Prop := exists k, (0 < k)%Q /\ forall p, (gsum E m' p == k * gsum E m p)%Q.
Lemma filter_all_true {A} (f : A -> bool) l : (forall x, In x l -> f x = true) -> filter f l = l.
Proof. induction l as [|x l IH]; intros H; [reflexivity|]. cbn [filter]. rewrite (H x (or_introl eq_refl)). f_equal. apply IH. intros y Y. apply H. now right. Qed.
Lemma gsum_one E m n : gsum E m (fun k => Z.eqb k n) = mass_of E m n.
Proof. reflexivity. Qed.
Lemma gsum_all E m : of_elements m -> gsum E m (fun _ => true) = qsum (map (grams E m) (all_zaids m)).
Proof. intros H. unfold gsum. rewrite filter_all_true; [reflexivity|]. intros z I. destruct (H z I) as [n P]. unfold pick. now rewrite P. Qed.
Lemma ratio_kept (a b a' b' k : Q) : (0 < k)%Q -> (a' == k * a)%Q -> (b' == k * b)%Q -> (a' / b' == a / b)%Q.
Proof. intros K -> ->. destruct (Qeq_dec b 0) as [Z|N].
  - rewrite Z. unfold Qdiv. setoid_replace (k * 0)%Q with 0%Q by ring. setoid_replace (/ 0)%Q with 0%Q by reflexivity. ring.
  - field. split; [exact N|lra]. Qed.
Lemma proportional_share E m m' n : of_elements m -> of_elements m' -> proportional E m m' -> (mass_share E m' n == mass_share E m n)%Q.
Proof. intros O O' (k & K & H). unfold mass_share. rewrite <- !gsum_one, <- !gsum_all by assumption. now apply (ratio_kept _ _ _ _ k). Qed.
Lemma proportional_refl E m : proportional E m m.
Proof. exists 1%Q. split; [lra|]. intros p. ring. Qed.

(** new fractions, one factor *)
Lemma rebuild_keeps f m : wf_material m -> of_elements m -> wf_material (rebuild f m) /\ of_elements (rebuild f m) /\ (forall n, has_element (rebuild f m) n <-> has_element m n).
Proof. intros W O. split; [|split].
  - unfold wf_material in *. rewrite all_zaids_rebuild, Forall_map. revert W. apply Forall_impl. intros z H. exact H.
  - intros z I. rewrite all_zaids_rebuild in I. apply in_map_iff in I as (z0 & <- & I). exact (O z0 I).
  - intros n. unfold has_element. rewrite all_zaids_rebuild. split.
    + intros (z & I & P). apply in_map_iff in I as (z0 & <- & I). exists z0. auto.
    + intros (z & I & P). exists (with_frac z (f z)). split; [exact (in_map (fun z => with_frac z (f z)) _ _ I)|exact P]. Qed.
Lemma rebuild_gsum E f m k : (0 < k)%Q -> (forall z, In z (all_zaids m) -> (grams E (rebuild f m) (with_frac z (f z)) == k * grams E m z)%Q) -> proportional E m (rebuild f m).
Proof. intros K H. exists k. split; [exact K|]. intros p. unfold gsum. generalize dependent (grams E (rebuild f m)). intros g H. rewrite all_zaids_rebuild.
  induction (all_zaids m) as [|z l IH]; [cbn; ring|]. cbn [map filter]. change (pick p (with_frac z (f z))) with (pick p z). assert (IH' := IH (fun z I => H z (or_intror I))). destruct (pick p z); [|exact IH'].
  cbn [map]. rewrite !qsum_cons, IH', (H z (or_introl eq_refl)). ring. Qed.

Lemma mass_tot m : mass_material m -> (tot_fraction m < 0)%Q. Proof. intros [_ H]. exact H. Qed.
Lemma atom_tot m : atom_material m -> (0 < tot_fraction m)%Q. Proof. intros [_ H]. exact H. Qed.
Lemma grams_mass E m z : mass_material m -> (grams E m z == - z_frac z)%Q.
Proof. intros M. apply mass_tot in M. unfold grams. destruct (Qlt_le_dec (tot_fraction m) 0); [reflexivity|lra]. Qed.
Lemma grams_atom E m z : atom_material m -> (grams E m z == z_frac z * massof E z)%Q.
Proof. intros M. apply atom_tot in M. unfold grams. destruct (Qlt_le_dec (tot_fraction m) 0); [lra|reflexivity]. Qed.

Lemma switch_step t E m m' r : wf_material m -> of_elements m -> pure m -> has_masses E m -> switch_inplace t E m = Ok (m', r) ->
  wf_material m' /\ of_elements m' /\ pure m' /\ (forall n, has_element m' n <-> has_element m n) /\ proportional E m m' /\ (has_masses E m').
Proof. intros W O P H S.
  assert (Same : m' = m -> wf_material m' /\ of_elements m' /\ pure m' /\ (forall n, has_element m' n <-> has_element m n) /\ proportional E m m' /\ has_masses E m').
  { intros ->. split; [exact W|]. split; [exact O|]. split; [exact P|]. split; [tauto|]. split; [apply proportional_refl|exact H]. }
  destruct t, P as [A|A].
  - unfold switch_inplace in S. rewrite no_must_atom in S by (apply Qlt_le_weak; now apply atom_tot). injection S as <- _. now apply Same.
  - rewrite (inplace_atom E m H A) in S. injection S as <- _. destruct (rebuild_keeps (fr Atom E m) m W O) as (W' & O' & HE). split; [exact W'|]. split; [exact O'|].
    pose proof (switched_atom E m H A) as A1. split; [now left|]. split; [exact HE|]. split; [|now apply has_masses_rebuild].
    pose proof (norm_atom_pos E m H A) as N. apply (rebuild_gsum E _ m (/ norm Atom E m)); [now apply Qinv_lt_0_compat|]. intros z I. rewrite (grams_atom E _ _ A1), (grams_mass E m z A). change (massof E (with_frac z (fr Atom E m z))) with (massof E z). cbn [with_frac z_frac]. unfold fr, wt. pose proof (massof_pos E m z H I). field. split; lra.
  - rewrite (inplace_mass E m H A) in S. injection S as <- _. destruct (rebuild_keeps (fr Mass E m) m W O) as (W' & O' & HE). split; [exact W'|]. split; [exact O'|].
    pose proof (switched_mass E m H A) as A1. split; [now right|]. split; [exact HE|]. split; [|now apply has_masses_rebuild].
    pose proof (norm_mass_pos E m H A) as N. apply (rebuild_gsum E _ m (/ norm Mass E m)); [now apply Qinv_lt_0_compat|]. intros z I. rewrite (grams_mass E _ _ A1), (grams_atom E m z A). cbn [with_frac z_frac]. unfold fr, wt. field. lra.
  - unfold switch_inplace in S. rewrite no_must_mass in S by (apply Qlt_le_weak; now apply mass_tot). injection S as <- _. now apply Same. Qed.

Lemma scale_step E m k : (0 < k)%Q -> wf_material m -> of_elements m -> pure m ->
  let m' := rebuild (fun z => (z_frac z * k)%Q) m in wf_material m' /\ of_elements m' /\ pure m' /\ (forall n, has_element m' n <-> has_element m n) /\ proportional E m m'.
Proof. intros K W O P m'. destruct (rebuild_keeps (fun z => (z_frac z * k)%Q) m W O) as (W' & O' & HE). fold m' in W', O', HE.
  assert (T : (tot_fraction m' == tot_fraction m * k)%Q). { unfold m'. rewrite tot_rebuild. apply qsum_scale. }
  assert (P' : (atom_material m -> atom_material m') /\ (mass_material m -> mass_material m')).
  { split; intros [F T0]; (split; [intros z I; unfold m' in I; rewrite all_zaids_rebuild in I; apply in_map_iff in I as (z0 & <- & I); cbn [with_frac z_frac]; specialize (F z0 I); nra|rewrite T; nra]). }
  split; [exact W'|]. split; [exact O'|]. split; [destruct P; [left|right]; now apply P'|]. split; [exact HE|].
  apply (rebuild_gsum E _ m k K). intros z I. fold m'. destruct P as [A|A].
  - rewrite (grams_atom E m' _ (proj1 P' A)), (grams_atom E m z A). change (massof E (with_frac z (z_frac z * k))) with (massof E z). cbn [with_frac z_frac]. ring.
  - rewrite (grams_mass E m' _ (proj2 P' A)), (grams_mass E m z A). cbn [with_frac z_frac]. ring. Qed.

(** translation of mass fractions: the block of a zaid has its fraction and its element *)
Lemma block_mass0 E nl z b : good_env E -> wf_newlib nl -> (z_frac z <= 0)%Q -> translatable E nl z -> translated E nl z b ->
  (total b == z_frac z)%Q /\ (forall y, In y b -> (z_frac y <= 0)%Q) /\ b <> [].
Proof. intros G W Hf T H. assert (NB : b <> []).
  { intros ->. inversion H as [l z' _ _ _ _|l tr ? Tg Ds C F|l Tg Ds C].
    - inversion F; subst. destruct T as [Q|[l' [tr' [Tg' [C' Ne]]]]]; [contradiction|]. rewrite (target_fun nl z l' l W Tg' Tg) in C'. rewrite C in C'. injection C' as <-. now elim Ne.
    - destruct T as [Q|[l' [tr' [Tg' [C' Ne]]]]]; [contradiction|]. rewrite (target_fun nl z l' l W Tg' Tg) in C'. congruence. }
  destruct (Qlt_le_dec (z_frac z) 0) as [L|L].
  - split; [eapply block_mass; eauto|]. split; [|exact NB]. intros y I. apply Qlt_le_weak. exact (proj1 (C22_sign_is_kept E nl z b y G W H I) L).
  - assert (Z0 : (z_frac z == 0)%Q) by lra. assert (A0 : forall y, In y b -> (z_frac y == 0)%Q).
    { intros y I. destruct H as [l z1 Tg Ds Nc Fr|l tr b Tg Ds C F|l Tg Ds C]; [destruct I as [<-|[]]; lra| |destruct I].
      destruct (Forall2_in_r _ _ _ _ F I) as (kv & _ & _ & _ & Q). rewrite Q. unfold share. destruct (Qlt_le_dec (z_frac z) 0); [lra|]. rewrite Z0. ring. }
    split; [|split; [intros y I; rewrite (A0 y I); lra|exact NB]]. rewrite Z0. unfold total. clear - A0. induction b as [|y b IH]; [reflexivity|]. cbn [map]. rewrite qsum_cons, (A0 y (or_introl eq_refl)), IH; [ring|]. intros x I. apply A0. now right. Qed.
Lemma block_pick E nl z b p n : good_env E -> wf_zaid z -> translated E nl z b -> parse_int (z_elem z) = Ok n -> filter (pick p) b = if p n then b else [].
Proof. intros G W T P. assert (A : forall y, In y b -> parse_int (z_elem y) = Ok n) by (intros y I; exact (proj1 (C22_element_and_library E nl z b y n G W T I P))).
  clear T. induction b as [|y b IH]; [now destruct (p n)|]. cbn [filter]. unfold pick at 1. rewrite (A y (or_introl eq_refl)). rewrite IH by (intros x I; apply A; now right). now destruct (p n). Qed.
Lemma translate_zaids E nl m m' : wf_newlib nl -> wf_material m -> translate_mat E nl m = (m', None) ->
  exists bs, Forall2 (translated E nl) (all_zaids m) bs /\ all_zaids m' = concat bs.
Proof. intros WN W T. apply translate_mat_ok in T as [_ F]. unfold all_zaids, wf_material, all_zaids in *. induction F as [|s s' l l' Hs _ IH]; [exists []; split; [constructor|reflexivity]|].
  cbn [map concat] in *. apply Forall_app in W as [W1 W2]. destruct (translate_sub_ok E nl s s' WN W1 Hs) as (bs & F1 & E1 & _). destruct (IH W2) as (bs2 & F2 & E2). exists (bs ++ bs2). split; [now apply Forall2_app|]. rewrite E1, E2, concat_app. reflexivity. Qed.
Lemma translate_step E nl m m' : good_env E -> wf_newlib nl -> mass_material m -> (forall z, In z (all_zaids m) -> translatable E nl z) ->
  wf_material m -> of_elements m -> translate_mat E nl m = (m', None) ->
  wf_material m' /\ of_elements m' /\ mass_material m' /\ (forall n, has_element m' n <-> has_element m n) /\ proportional E m m'.
Proof. intros G WN [MF MT] TR W O T. destruct (translate_zaids E nl m m' WN W T) as (bs & F & Eq).
  assert (W' : wf_material m') by (unfold wf_material; rewrite Eq; eapply blocks_wf; eauto).
  assert (KEY : forall zs bs, Forall2 (translated E nl) zs bs -> (forall z, In z zs -> In z (all_zaids m)) ->
    (forall y, In y (concat bs) -> (z_frac y <= 0)%Q /\ exists z n, In z zs /\ parse_int (z_elem z) = Ok n /\ parse_int (z_elem y) = Ok n) /\
    (forall z n, In z zs -> parse_int (z_elem z) = Ok n -> exists y, In y (concat bs) /\ parse_int (z_elem y) = Ok n) /\
    (forall p, (total (filter (pick p) (concat bs)) == total (filter (pick p) zs))%Q)).
  { clear Eq F bs. induction 1 as [|z b zs bs Hb _ IH]; intros Sub; [split; [intros y []|split; [intros z n []|intros p; reflexivity]]|].
    destruct IH as (I1 & I2 & I3); [intros y Y; apply Sub; now right|]. assert (Iz : In z (all_zaids m)) by (apply Sub; now left). destruct (O z Iz) as [n0 P0].
    assert (Wz : wf_zaid z) by (unfold wf_material in W; rewrite Forall_forall in W; now apply W). destruct (block_mass0 E nl z b G WN (MF z Iz) (TR z Iz) Hb) as (B1 & B2 & B3).
    assert (BE : forall y, In y b -> parse_int (z_elem y) = Ok n0) by (intros y Y; exact (proj1 (C22_element_and_library E nl z b y n0 G Wz Hb Y P0))). split; [|split].
    - intros y Y. cbn [concat] in Y. apply in_app_iff in Y as [Y|Y].
      + split; [now apply B2|]. exists z, n0. split; [now left|]. split; [exact P0|now apply BE].
      + destruct (I1 y Y) as (A & z1 & n1 & A1 & A2). split; [exact A|]. exists z1, n1. split; [now right|exact A2].
    - intros z1 n1 [<-|I] P1.
      + destruct b as [|y b]; [now elim B3|]. exists y. split; [now left|]. rewrite P0 in P1. injection P1 as <-. apply BE. now left.
      + destruct (I2 z1 n1 I P1) as (y & Y & Py). exists y. split; [|exact Py]. cbn [concat]. apply in_app_iff. now right.
    - intros p. cbn [concat filter]. rewrite filter_app, (block_pick E nl z b p n0 G Wz Hb P0). unfold pick at 2. rewrite P0. unfold total in *. destruct (p n0); cbn [app map].
      + rewrite map_app, qsum_app, qsum_cons, B1, I3. reflexivity.
      + apply I3. }
  destruct (KEY _ _ F (fun z I => I)) as (K1 & K2 & K3). rewrite <- Eq in K1, K2.
  assert (O' : of_elements m') by (intros y Y; destruct (K1 y Y) as (_ & z & n & _ & _ & P); eauto).
  assert (TT : (tot_fraction m' == tot_fraction m)%Q).
  { unfold tot_fraction. specialize (K3 (fun _ => true)). rewrite <- Eq in K3. rewrite !filter_all_true in K3; [exact K3| |]; intros y Y; unfold pick; [destruct (O y Y) as [n P]|destruct (O' y Y) as [n P]]; now rewrite P. }
  assert (M' : mass_material m') by (split; [intros y Y; now apply K1|rewrite TT; exact MT]).
  split; [exact W'|]. split; [exact O'|]. split; [exact M'|]. split.
  - intros n. split.
    + intros (y & Y & P). destruct (K1 y Y) as (_ & z & n1 & I & Pz & Py). rewrite P in Py. injection Py as <-. exists z. auto.
    + intros (z & I & P). destruct (K2 z n I P) as (y & Y & Py). exists y. auto.
  - exists 1%Q. split; [lra|]. intros p. assert (Q : forall m, mass_material m -> (gsum E m p == - total (filter (pick p) (all_zaids m)))%Q).
    { intros m0 M0. unfold gsum, total. rewrite <- qsum_opp. apply qsum_map_ext. intros z _. now apply grams_mass. }
    rewrite (Q m' M'), (Q m (conj MF MT)), Eq, K3. ring. Qed.

Lemma life_keeps nav E os : good_env E -> forall m m', wf_material m -> of_elements m -> pure m -> careful nav E m os -> mlife nav E m os = Ok m' ->
  wf_material m' /\ of_elements m' /\ pure m' /\ (forall n, has_element m' n <-> has_element m n) /\ forall n, (mass_share E m' n == mass_share E m n)%Q.
Proof. intros G. induction os as [|o os IH]; intros m m' W O P C H.
  - injection H as <-. split; [exact W|]. split; [exact O|]. split; [exact P|]. split; [tauto|reflexivity].
  - cbn [mlife] in H. destruct (mstep nav E m o) as [m1|e] eqn:S; [|discriminate H]. cbn [bind] in H. cbn [careful] in C. destruct C as [C1 C2]. specialize (C2 m1 S).
    assert (K : wf_material m1 /\ of_elements m1 /\ pure m1 /\ (forall n, has_element m1 n <-> has_element m n) /\ proportional E m m1).
    { destruct o as [nl|t|d|t|k]; cbn [mstep] in S.
      - destruct (translate_mat E nl m) as [m2 [e|]] eqn:T; [discriminate S|]. injection S as <-. destruct C1 as (N & M & TR). destruct (translate_step E nl m m2 G N M TR W O T) as (A & B & D & R). split; [exact A|]. split; [exact B|]. split; [now right|exact R].
      - destruct (switch_inplace t E m) as [[m2 r]|e] eqn:T; [|discriminate S]. cbn [bind] in S. injection S as <-. destruct (switch_step t E m m2 r W O P C1 T) as (A & B & D & R & Q & _). auto.
      - unfold get_tad in S. destruct (switch_inplace Atom E m) as [[m2 r]|e] eqn:T; [|discriminate S]. cbn [bind] in S. destruct (mapM _ (all_zaids m2)) as [ps|]; [|discriminate S]. cbn [bind] in S. destruct (qdiv d (qsum ps)) as [q|]; [|discriminate S]. cbn [bind] in S. injection S as <-. destruct (switch_step Atom E m m2 r W O P C1 T) as (A & B & D & R & Q & _). auto.
      - unfold get_density in S. destruct (switch_inplace Mass E m) as [[m2 r]|e] eqn:T; [|discriminate S]. cbn [bind] in S. destruct (mapM _ (all_zaids m2)) as [ps|]; [|discriminate S]. cbn [bind] in S. destruct (qdiv 1 (qsum ps)) as [q|]; [|discriminate S]. cbn [bind] in S. injection S as <-. destruct (switch_step Mass E m m2 r W O P C1 T) as (A & B & D & R & Q & _). auto.
      - injection S as <-. rewrite scale_rebuild. exact (scale_step E m k C1 W O P). }
    destruct K as (W1 & O1 & P1 & HE & PR). destruct (IH m1 m' W1 O1 P1 C2 H) as (A & B & D & R & Q). split; [exact A|]. split; [exact B|]. split; [exact D|]. split; [intros n; rewrite R; apply HE|]. intros n. rewrite Q. now apply proportional_share. Qed.
(** the shares of all elements *)
Lemma mass_by_element E m ns : forall zs, NoDup ns -> (forall z, In z zs -> exists n, parse_int (z_elem z) = Ok n /\ In n ns) ->
  (qsum (map (fun n => qsum (map (grams E m) (filter (of_element n) zs))) ns) == qsum (map (grams E m) zs))%Q.
Proof. induction zs as [|z zs IH]; intros N H.
  - cbn [filter map]. change (qsum []) with 0%Q. clear. induction ns as [|n ns IH]; [reflexivity|]. cbn [map]. rewrite qsum_cons, IH. ring.
  - cbn [map]. rewrite qsum_cons, <- IH by (try exact N; intros y Y; apply H; now right). destruct (H z (or_introl eq_refl)) as (n & P & I). clear IH H.
    induction ns as [|x ns IH]; [destruct I|]. inversion N as [|? ? N1 N2]; subst. cbn [map]. rewrite !qsum_cons. cbn [filter]. unfold of_element at 1. rewrite P. destruct (Z.eqb_spec n x) as [->|D].
    + cbn [map]. rewrite qsum_cons. assert (R : map (fun n => qsum (map (grams E m) (filter (of_element n) (z :: zs)))) ns = map (fun n => qsum (map (grams E m) (filter (of_element n) zs))) ns).
      { apply map_ext_in. intros y Y. cbn [filter]. unfold of_element at 1. rewrite P. destruct (Z.eqb_spec x y) as [->|_]; [contradiction|reflexivity]. }
      cbn [filter] in R. rewrite R. ring.
    + destruct I as [->|I]; [now elim D|]. specialize (IH N2 I). cbn [filter] in IH. rewrite IH. ring. Qed.
Lemma shares_add_up E m ns : of_elements m -> NoDup ns -> (forall n, has_element m n -> In n ns) -> ~ (qsum (map (grams E m) (all_zaids m)) == 0)%Q ->
  (qsum (map (mass_share E m) ns) == 1)%Q.
Proof. intros O N H Z. unfold mass_share, mass_of. rewrite (qsum_map_ext _ (fun n => (qsum (map (grams E m) (filter (of_element n) (all_zaids m))) * / qsum (map (grams E m) (all_zaids m)))%Q)) by reflexivity.
  rewrite qsum_scale, (mass_by_element E m ns (all_zaids m) N); [field; exact Z|]. intros z I. destruct (O z I) as [n P]. exists n. split; [exact P|]. apply H. exists z. auto. Qed.
