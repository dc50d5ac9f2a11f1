From Coq Require Import Lia Sorting.Sorted.
From Verif Require Import PyBase PyLemmas PyStr PyStrLemmas PyText D1SModel D1SProofs2 LibModel LibSpec LibProofs LibProofs2 LibProps MatModel MatSpec MatProofs MatProofs2 MatProofs3 MatProofs4 MatProps DataModel PathsModel PathsSpec PathsProofs PathsProps FlowSpec.
Open Scope nat_scope.

Lemma zaid_in_zaids ms z : zaid_in ms z <-> In z (zaids_of ms).
Proof. unfold zaid_in. symmetry. apply zaids_in. Qed.
Lemma material_path_clean D act ms p mt d : Forall wf_material ms -> material_path D act ms p mt d -> ~ In dot p.
Proof. intros W (m & s & z & l & Im & Is & Iz & <- & _). rewrite Forall_forall in W. specialize (W m Im). unfold wf_material in W. rewrite Forall_forall in W.
  destruct (W z (in_all s z m Is Iz)) as (_ & A & B & _). intros I. apply in_app_or in I as [I|I]; auto. Qed.
Lemma wf_zaid_in ms z : Forall wf_material ms -> zaid_in ms z -> wf_zaid z.
Proof. intros W (m & s & Im & Is & Iz). rewrite Forall_forall in W. specialize (W m Im). unfold wf_material in W. rewrite Forall_forall in W. apply W. eapply in_all; eauto. Qed.
Lemma before_dot_app p l : ~ In dot p -> before_dot (p ++ dot :: l) = p.
Proof. exact (before_dot_dot p l). Qed.

(** parents of a reaction file made from the materials *)
Lemma file_parents D act f ms rs : Forall wf_material ms -> get_reaction_file D act (Some f) ms = Ok rs ->
  map (reac_change_lib act) rs = rs /\ forall p, (exists r, In r rs /\ before_dot (x_parent r) = p) <-> activated D act f ms p.
Proof. intros W H. destruct (C37_reaction_file_exact _ _ _ _ _ H) as (ts & _ & _ & IN & F). split.
  - assert (G : Forall (fun t => ~ In dot (fst (fst t))) ts). { apply Forall_forall. intros [[p mt] d] I. apply IN in I as [I _]. eapply material_path_clean; eauto. }
    clear IN H. induction F as [|t r ts rs (A & _) _ IH]; [reflexivity|]. inversion G; subst. cbn [map]. rewrite IH by assumption. f_equal. unfold reac_change_lib. rewrite A, before_dot_app by assumption. destruct r; cbn in *; congruence.
  - intros p. split.
    + intros (r & Ir & E). destruct (Forall2_in_r _ _ _ _ F Ir) as ([[q mt] d] & It & A & _). cbn [fst] in A. apply IN in It as [MP (i & I1 & I2)]. pose proof (material_path_clean _ _ _ _ _ _ W MP) as C. rewrite A, before_dot_app in E by exact C. subst q. exists mt, d, i. auto.
    + intros (mt & d & i & MP & I1 & I2). pose proof (material_path_clean _ _ _ _ _ _ W MP) as C. assert (It : In (p, mt, d) ts) by (apply IN; eauto).
      clear - F It C. induction F as [|t r ts rs (A & _) _ IH]; [destruct It|]. destruct It as [->|It]; [exists r; split; [now left|]; rewrite A; now apply before_dot_app|]. destruct (IH It) as (r' & I & E). exists r'. split; [now right|exact E]. Qed.

Lemma translated_target E nl z b l : wf_newlib nl -> target nl z l -> translated E nl z b -> translated E (ToLib l) z b.
Proof. intros W T H. destruct H as [l0 z' Tg Ds Nc Fr|l0 tr b Tg Ds C F|l0 Tg Ds C]; pose proof (target_fun nl z l l0 W T Tg) as <-.
  - eapply T_dosimetry; eauto. reflexivity.
  - eapply T_converted; eauto. reflexivity.
  - eapply T_dropped; eauto. reflexivity. Qed.

Lemma Forall2_impl_in {A B} (R S : A -> B -> Prop) l l' : Forall2 R l l' -> (forall x y, In x l -> R x y -> S x y) -> Forall2 S l l'.
Proof. induction 1 as [|x y l l' H _ IH]; intros G; [constructor|]. constructor; [apply G; [now left|exact H]|]. apply IH. intros a b I. apply G. now right. Qed.

(** the triples of a reaction file depend on the set of numbers only *)
Lemma sorted_unique (l : list triple) : forall l', NoDup l -> NoDup l' -> StronglySorted before l -> StronglySorted before l' -> (forall t, In t l <-> In t l') -> l = l'.
Proof. induction l as [|x l IH]; intros l' N N' S0 S' I.
  - destruct l' as [|y l']; [reflexivity|]. exfalso. apply (proj2 (I y)). now left.
  - destruct l' as [|y l']; [exfalso; apply (proj1 (I x)); now left|]. inversion N; inversion N'; inversion S0; inversion S'; subst.
    assert (x = y) as ->.
    { destruct (proj1 (I x) (or_introl eq_refl)) as [E|Ix]; [congruence|]. destruct (proj2 (I y) (or_introl eq_refl)) as [E|Iy]; [congruence|].
      rewrite Forall_forall in H10, H14. specialize (H10 _ Iy). specialize (H14 _ Ix). unfold before in *. destruct x as [[a1 a2] a3], y as [[b1 b2] b3]. cbn [triple_leb] in *.
      destruct (str_eqb a1 b1) eqn:E1; [apply str_eqb_eq in E1; subst b1; rewrite str_eqb_refl in H14|].
      - destruct (str_eqb a2 b2) eqn:E2; [apply str_eqb_eq in E2; subst b2; rewrite str_eqb_refl in H14|].
        + f_equal. now apply str_leb_antisym.
        + rewrite (str_eqb_neq b2 a2) in H14 by (intros ->; rewrite str_eqb_refl in E2; discriminate). exfalso. rewrite (str_leb_antisym _ _ H10 H14), str_eqb_refl in E2. discriminate.
      - rewrite (str_eqb_neq b1 a1) in H14 by (intros ->; rewrite str_eqb_refl in E1; discriminate). exfalso. rewrite (str_leb_antisym _ _ H10 H14), str_eqb_refl in E1. discriminate. }
    f_equal. apply IH; auto. intros t. split; intros It.
    + destruct (proj1 (I t) (or_intror It)) as [->|J]; [contradiction|exact J].
    + destruct (proj2 (I t) (or_intror It)) as [->|J]; [contradiction|exact J]. Qed.

Lemma mapM_ok_all {A B} (f : A -> res B) l : (forall x, In x l -> exists y, f x = Ok y) -> exists r, mapM f l = Ok r.
Proof. induction l as [|x l IH]; intros H; [eexists; reflexivity|]. destruct (H x (or_introl eq_refl)) as [y Y]. destruct IH as [r R]; [intros; apply H; now right|]. exists (y :: r). cbn [mapM]. rewrite Y. cbn [bind]. rewrite R. reflexivity. Qed.
Lemma triples_in D lib ms ls : mapM (zaid_paths D lib) (zaids_of ms) = Ok ls -> forall p mt d, In (p, mt, d) (concat ls) <-> material_path D lib ms p mt d.
Proof. intros M p mt d. rewrite in_concat. apply mapM_Forall2 in M. split.
  - intros [l [A B]]. destruct (Forall2_in_r _ _ _ _ M A) as [z [Z1 Z2]]. unfold zaid_paths in Z2. destruct (get_reactions (a_iso D) (a_sheets D) lib (z_num z)) as [rl|] eqn:G; cbn [bind] in Z2; [|discriminate]. injection Z2 as <-.
    apply in_map_iff in B as [[m0 d0] [E B]]. cbn [fst snd] in E. injection E as <- <- <-. apply zaids_in in Z1 as [m [s [I1 [I2 I3]]]]. exists m, s, z, rl. repeat split; auto.
  - intros [m [s [z [l [I1 [I2 [I3 [<- [G B]]]]]]]]]. assert (Z : In z (zaids_of ms)) by (apply zaids_in; eauto). clear I1 I2 I3.
    induction M as [|z0 l0 zs ls0 H0 _ IH]; [destruct Z|]. destruct Z as [->|Z].
    + unfold zaid_paths, z_num in H0. rewrite G in H0. cbn [bind] in H0. injection H0 as <-. eexists. split; [left; reflexivity|]. apply in_map_iff. exists (mt, d). auto.
    + destruct (IH Z) as [l1 [A1 A2]]. exists l1. split; [right; exact A1|exact A2]. Qed.
Lemma same_numbers_paths D lib ms ms' : (forall n, in_materials ms n <-> in_materials ms' n) -> forall p mt d, material_path D lib ms p mt d <-> material_path D lib ms' p mt d.
Proof. assert (G : forall ms ms', (forall n, in_materials ms n <-> in_materials ms' n) -> forall p mt d, material_path D lib ms p mt d -> material_path D lib ms' p mt d).
  { intros m1 m2 I p mt d (m & s & z & l & A & B & C & P & R). destruct (proj1 (I p)) as (m' & s' & z' & A' & B' & C' & P'); [exists m, s, z; auto|]. exists m', s', z', l. auto. }
  intros I p mt d. split; apply G; [exact I|intros n; symmetry; apply I]. Qed.
Lemma same_numbers_file D lib f ms ms' rs : (forall n, in_materials ms n <-> in_materials ms' n) -> get_reaction_file D lib (Some f) ms = Ok rs -> get_reaction_file D lib (Some f) ms' = Ok rs.
Proof. intros I H. unfold get_reaction_file, get_potential_paths in *. destruct (mapM (zaid_paths D lib) (zaids_of ms)) as [ls|] eqn:M; cbn [bind] in H; [|discriminate].
  assert (M' : exists ls', mapM (zaid_paths D lib) (zaids_of ms') = Ok ls').
  { apply mapM_ok_all. intros z Iz. apply zaids_in in Iz as (m & s & A & B & C). destruct (proj2 (I (z_num z))) as (m0 & s0 & z0 & A0 & B0 & C0 & E); [exists m, s, z; auto|].
    apply mapM_Forall2 in M. assert (Z : In z0 (zaids_of ms)) by (apply zaids_in; eauto). clear - M Z E. induction M as [|y l0 zs ls0 H0 _ IH]; [destruct Z|]. destruct Z as [->|Z]; [|auto].
    unfold zaid_paths in *. unfold z_num at 1 in H0. rewrite E in H0. destruct (get_reactions (a_iso D) (a_sheets D) lib (z_num z)); cbn [bind] in *; [eexists; reflexivity|discriminate]. }
  destruct M' as [ls' M']. rewrite M'. cbn [bind].
  rewrite (sorted_unique (sorted_triples (dedup_triples (concat ls'))) (sorted_triples (dedup_triples (concat ls)))); [exact H|apply sorted_triples_nodup, dedup_triples_nodup|apply sorted_triples_nodup, dedup_triples_nodup|apply sorted_triples_ss|apply sorted_triples_ss|].
  intros [[p mt] d]. rewrite !sorted_triples_in, !dedup_triples_in. rewrite (triples_in _ _ _ _ M), (triples_in _ _ _ _ M'). symmetry. now apply same_numbers_paths. Qed.

Lemma translate_sub_all E nl s : (forall z, In z (s_zaids s) -> exists b, translate_zaid E nl z = Ok b) -> exists s', translate_sub E nl s = Ok s'.
Proof. intros H. destruct (mapM_ok_all _ _ H) as [l L]. unfold translate_sub. rewrite L. cbn [bind]. eexists. reflexivity. Qed.
Lemma translate_list_all E nl ms : (forall z, zaid_in ms z -> exists b, translate_zaid E nl z = Ok b) -> exists ms', translate_list E nl ms = (ms', None).
Proof. induction ms as [|m ms IH]; intros H; [eexists; reflexivity|]. destruct IH as [ms' R]; [intros z (m0 & s & A & B & C); apply H; exists m0, s; split; [now right|auto]|].
  assert (T : exists l, translate_subs E nl (mt_subs m) = (l, None)).
  { assert (G : forall z, (exists s, In s (mt_subs m) /\ In z (s_zaids s)) -> exists b, translate_zaid E nl z = Ok b) by (intros z (s & A & B); apply H; exists m, s; split; [now left|auto]). clear R H. induction (mt_subs m) as [|s ss IHs]; [eexists; reflexivity|].
    destruct (translate_sub_all E nl s) as [s' S']; [intros z Iz; apply G; exists s; split; [now left|exact Iz]|]. destruct IHs as [l L]; [intros z (s0 & A & B); apply G; exists s0; split; [now right|exact B]|]. eexists. cbn [translate_subs]. rewrite S', L. reflexivity. }
  destruct T as [l T]. eexists. cbn [translate_list]. unfold translate_mat. rewrite T, R. reflexivity. Qed.

(** a zaid that the library has only changes library *)
Lemma carried_zaid E nl z l : distinct_libs (m_lib E) -> wf_newlib nl -> target nl z l -> ~ dosimetry E z -> carries (m_lib E) l (z_num z) -> wf_zaid z ->
  exists z', translate_zaid E nl z = Ok [z'] /\ z_elem z' = z_elem z /\ z_iso z' = z_iso z /\ z_lib z' = Some l /\ (z_frac z' == z_frac z)%Q.
Proof. intros Dl W T Nd C Wz. unfold translate_zaid, zaid_translation. rewrite (proj2 (pick_lib_ok nl z l W) T). cbn [bind].
  destruct (match z_lib z with Some l0 => memb str_eqb l0 (m_dosim E) | None => false end) eqn:Q; [apply dosim_iff in Q; contradiction|].
  rewrite (conv_one _ _ _ Dl C). cbn [bind]. destruct Wz as (L3 & _). destruct (but3_app (z_elem z) (z_iso z) L3) as [B1 B2]. unfold z_num, new_zaids. cbn [map mapM bind fst snd].
  destruct (Qlt_le_dec (z_frac z) 0) as [Hf|Hf]; cbn [qsum fold_right]; rewrite B1, B2.
  - change (Qeq_bool (1 * 1 + 0) 0) with false. cbn [bind]. eexists. split; [reflexivity|]. cbn [z_elem z_iso z_lib z_frac]. repeat split. change (1 * 1 + 0)%Q with 1%Q. field.
  - eexists. split; [reflexivity|]. cbn [z_elem z_iso z_lib z_frac]. repeat split. ring. Qed.

Definition two_libs (act trans : str) (rs : list reac) (ms : list material) : newlib :=
  ByZaid [(act, map (fun r => before_dot (x_parent r)) rs); (trans, transport_zaids (map (fun r => before_dot (x_parent r)) rs) ms)].
Lemma smart_eq E act trans ms rs data : act <> trans -> smart_translate E act trans false (mkd1s ms (Some rs) data) =
  (let rs' := map (reac_change_lib act) rs in let '(ms', o) := translate_list E (two_libs act trans rs ms) ms in (mkd1s ms' (Some rs') (add_PIKMT_card (Some rs') data), o)).
Proof. intros NE. unfold smart_translate. cbn [s_reacs s_mats s_data]. assert (DS : forall a t, smart_newlib act trans a t = ByZaid [(act, a); (trans, t)]). { intros a t. unfold smart_newlib. cbn [dset]. destruct (str_eqb trans act) eqn:Q; [apply str_eqb_eq in Q; congruence|reflexivity]. } rewrite DS. reflexivity. Qed.
Lemma transport_in active ms z : zaid_in ms z -> ~ In (z_num z) active -> In (z_num z) (transport_zaids active ms).
Proof. intros Z Q. apply zaid_in_zaids in Z. unfold transport_zaids.
  assert (G : forall zs acc, (In (z_num z) acc \/ In z zs) -> In (z_num z) (fold_left (fun acc z => if negb (memb str_eqb (z_num z) active) && negb (memb str_eqb (z_num z) acc) then acc ++ [z_num z] else acc) zs acc)).
  { induction zs as [|y zs IH]; intros acc H; [destruct H as [H|[]]; exact H|]. cbn [fold_left]. apply IH. destruct H as [H|[->|H]]; [|left|right; exact H].
    - left. destruct (_ && _); [apply in_or_app; now left|exact H].
    - destruct (negb (memb str_eqb (z_num z) active) && negb (memb str_eqb (z_num z) acc)) eqn:B; [apply in_or_app; right; now left|]. apply Bool.andb_false_iff in B as [B|B]; apply Bool.negb_false_iff, memb_str in B; [contradiction|exact B]. }
  apply G. now right. Qed.
Lemma two_libs_target D act trans f ms rs z : Forall wf_material ms -> get_reaction_file D act (Some f) ms = Ok rs -> zaid_in ms z ->
  exists l, (activated D act f ms (z_num z) /\ l = act \/ ~ activated D act f ms (z_num z) /\ l = trans) /\ target (two_libs act trans rs ms) z l.
Proof. intros W GF Z. destruct (file_parents D act f ms rs W GF) as [_ PA]. set (active := map (fun r => before_dot (x_parent r)) rs).
  assert (A : In (z_num z) active <-> activated D act f ms (z_num z)). { rewrite <- PA. unfold active. rewrite in_map_iff. split; intros (r & P & Q); exists r; auto. }
  destruct (memb str_eqb (z_num z) active) eqn:M.
  - apply memb_str in M. exists act. split; [left; split; [now apply A|reflexivity]|]. cbn [two_libs target]. exists [], active, [(trans, transport_zaids active ms)]. split; [reflexivity|]. split; [exact M|]. intros ? ? [].
  - assert (N : ~ In (z_num z) active) by (intros I; apply memb_str in I; congruence). exists trans. split; [right; split; [now rewrite <- A|reflexivity]|]. cbn [two_libs target]. exists [(act, active)], (transport_zaids active ms), []. split; [reflexivity|]. split; [now apply transport_in|]. intros l' zs' [X|[]]. injection X as <- <-. exact N. Qed.

Lemma same_numbers (R : zaid -> zaid -> Prop) ms ms' : (forall z z', R z z' -> z_num z' = z_num z) -> zaid_by_zaid R ms ms' -> forall n, in_materials ms n <-> in_materials ms' n.
Proof. intros HR ZZ. unfold zaid_by_zaid in ZZ.
  assert (EQ : map (fun m => map (fun s => map z_num (s_zaids s)) (mt_subs m)) ms = map (fun m => map (fun s => map z_num (s_zaids s)) (mt_subs m)) ms').
  { induction ZZ as [|m m' l l' (_ & F) _ IH]; [reflexivity|]. cbn [map]. rewrite IH. f_equal. clear IH. induction F as [|a b x y Fab _ IHf]; [reflexivity|]. cbn [map]. rewrite IHf. f_equal. clear IHf. cbn beta in Fab.
    induction Fab as [|z z' zs zs' H _ IH]; [reflexivity|]. cbn [map]. rewrite IH, (HR _ _ H). reflexivity. }
  assert (IN : forall l n, in_materials l n <-> In n (concat (concat (map (fun m => map (fun s => map z_num (s_zaids s)) (mt_subs m)) l)))).
  { intros l n. unfold in_materials. rewrite in_concat. split.
    - intros (m & s & z & A & B & C & <-). exists (map z_num (s_zaids s)). split; [|exact (in_map z_num _ _ C)]. rewrite in_concat. exists (map (fun s => map z_num (s_zaids s)) (mt_subs m)). split; [apply in_map_iff; exists m; auto|apply in_map_iff; exists s; auto].
    - intros (x & A & B). rewrite in_concat in A. destruct A as (y & A & C). apply in_map_iff in A as (m & <- & Im). apply in_map_iff in C as (s & <- & Is). apply in_map_iff in B as (z & <- & Iz). exists m, s, z. auto. }
  intros n. rewrite !IN, EQ. reflexivity. Qed.

Lemma Forall2_in_l {A B} (R : A -> B -> Prop) l l' x : Forall2 R l l' -> In x l -> exists y, In y l' /\ R x y.
Proof. induction 1 as [|a b l l' H _ IH]; intros I; [destruct I|]. destruct I as [->|I]; [exists b; split; [now left|exact H]|]. destruct (IH I) as (y & A1 & A2). exists y. split; [now right|exact A2]. Qed.

Lemma conv_default m zaid lib : distinct_libs m -> loaded m lib -> ~ natural zaid -> ~ carries m lib zaid -> ~ carries m lib (but3 zaid ++ s2l "000") -> carries m (l_default m) zaid ->
  convertZaid m zaid lib = Ok [(zaid, (Some (l_default m), 1%Q, 1%Q))].
Proof. intros Dl [x Lx] Nn Nc Ne Cd. unfold convertZaid. pose proof (conv_loaded m lib x Dl Lx) as Ex. rewrite Ex.
  destruct (str_eqb (last3 zaid) zeros3) eqn:E1; [apply natural_iff in E1; contradiction|]. destruct (memb str_eqb lib (check4zaid m zaid)) eqn:E2; [apply memb_str, check4zaid_iff in E2; contradiction|].
  destruct (zaid_has_table x (but3 zaid ++ zeros3) lib) eqn:E3; [apply (carries_x m lib x _ Dl Ex) in E3; contradiction|].
  destruct (default_has_loaded m zaid Dl) as [b B]; [destruct Cd as (y & Y1 & _); exists y; exact Y1|]. rewrite B. cbn [bind]. pose proof (proj2 (default_has_ok _ _ _ Dl B) Cd) as ->. reflexivity. Qed.
