(** C22-C27, C48: materials. *)
From Coq Require Import Lia Lqa.
From Verif Require Import PyBase PyLemmas PyStr PyStrLemmas PyText WWTextProofs D1SProofs2 LibModel LibSpec LibProofs LibProofs2 LibProofs3 IsoData LibProps MatModel MatSpec MatProofs MatProofs2 MatProofs3 MatProofs4.
Open Scope nat_scope.

(** ** C23 collapsing *)
(** each nuclide with its library appears once, exactly those of the zaid list appear, each with
    the sum of its fractions, and the total is unchanged *)
Theorem C23_each_nuclide_once_with_its_sum : forall zs, Forall wf_zaid zs ->
  NoDup (map nuclide (concat (collapse zs))) /\
  (forall n, In n (map nuclide (concat (collapse zs))) <-> In n (map nuclide zs)) /\
  (forall z, In z (concat (collapse zs)) -> forall p : zaid -> bool, (forall y, In y zs -> (p y = true <-> nuclide y = nuclide z)) -> (z_frac z == total (filter p zs))%Q).
Proof. intros zs W. destruct (collapse_spec zs W) as [N [I F]].
  assert (WC : forall z, In z (concat (collapse zs)) -> wf_zaid z) by (rewrite Forall_forall in F; intros z Hz; apply (F z Hz)).
  assert (WZ : forall z, In z zs -> wf_zaid z) by (rewrite Forall_forall in W; exact W).
  split; [|split].
  - clear I F. induction (concat (collapse zs)) as [|z l IH]; [constructor|]. cbn [map] in *. inversion N; subst. constructor.
    + intros Q. apply in_map_iff in Q. destruct Q as [z' [E Hz]]. apply H1. apply in_map_iff. exists z'. split; [|exact Hz]. apply name_nuclide; [apply WC; now right|apply WC; now left|exact E].
    + apply IH; [assumption|]. intros z' Hz. apply WC. now right.
  - intros n. split; intros H; apply in_map_iff in H; destruct H as [z [<- Hz]].
    + rewrite Forall_forall in F. destruct (F z Hz) as [_ [[z0 [H0 E0]] _]]. rewrite <- E0. now apply in_map.
    + assert (Q : In (z_name z) (map z_name zs)) by now apply in_map. apply I in Q. apply in_map_iff in Q. destruct Q as [z' [E Hz']].
      apply name_nuclide in E; [|now apply WC|now apply WZ]. rewrite <- E. now apply in_map.
  - intros z Hz p Hp. rewrite Forall_forall in F. destruct (F z Hz) as [Wz [_ E]]. rewrite E. unfold named. assert (filter (fun z0 => str_eqb (z_name z0) (z_name z)) zs = filter p zs) as ->; [|reflexivity].
    apply filter_ext_in. intros y Hy. apply eq_true_iff_eq. rewrite (Hp y Hy), str_eqb_eq. apply name_nuclide; [now apply WZ|exact Wz]. Qed.
Print Assumptions C23_each_nuclide_once_with_its_sum.
Theorem C23_total_is_kept : forall zs, Forall wf_zaid zs -> (total (concat (collapse zs)) == total zs)%Q.
Proof. exact collapse_total. Qed.
Print Assumptions C23_total_is_kept.
(** order: elements in order of first occurrence, and inside an element its nuclides likewise *)
Theorem C23_first_occurrence_order : forall zs, Forall wf_zaid zs ->
  map (map z_name) (collapse zs) = map (fun e => firsts (map z_name (filter (fun z => str_eqb (z_elem z) e) zs))) (firsts (map z_elem zs)).
Proof. exact collapse_names_order. Qed.
Print Assumptions C23_first_occurrence_order.

(** ** C22 translation *)
Theorem C22_every_zaid_becomes_its_block : forall E nl s s', wf_newlib nl -> Forall wf_zaid (s_zaids s) -> translate_sub E nl s = Ok s' ->
  exists blocks, Forall2 (translated E nl) (s_zaids s) blocks /\ s_zaids s' = concat blocks /\ consistent s'.
Proof. exact translate_sub_ok. Qed.
Print Assumptions C22_every_zaid_becomes_its_block.

(** conditions on the library manager: distinct library names, a well-formed isotope table with
    positive abundances and masses (the shipped one is) *)
Definition good_env (E : matenv) : Prop :=
  (good (m_lib E) /\ forall l, In l (map fst (l_data (m_lib E))) -> ~ In dot l) /\
  forall r, In r (l_iso (m_lib E)) -> (0 < r_abund r)%Q /\ (0 < r_mass r)%Q.
Theorem C22_shipped_table_is_good : forall data dflt dos, NoDup (map fst data) ->
  (forall l, In l (map fst data) -> ~ In dot l) -> good_env (mkmenv (mklib data dflt shipped) dos).
Proof. intros data dflt dos N C. split; [split; [split; [exact N|exact C21_rows_are_well_formed]|exact C]|]. intros r Hr. destruct (C21_abundances_are_fractions r Hr) as [[H _] H']. auto. Qed.
Print Assumptions C22_shipped_table_is_good.

Lemma block_mass E nl z b : good_env E -> wf_newlib nl -> (z_frac z < 0)%Q -> translatable E nl z -> translated E nl z b -> (total b == z_frac z)%Q.
Proof. intros [[[D [WT ND]] _] P] W Hf T H. destruct H as [l z' Tg Ds Nc Fr|l tr b Tg Ds C F|l Tg Ds C].
  - unfold total. cbn [map]. rewrite qsum_cons. change (qsum []) with 0%Q. rewrite Fr. ring.
  - rewrite (block_total _ _ _ F). apply share_total_mass; [exact Hf|]. assert (Pt : positive_tr tr) by (eapply conv_positive; eauto).
    destruct T as [Q|[l' [tr' [Tg' [C' Ne]]]]]; [contradiction|]. rewrite (target_fun nl z l' l W Tg' Tg) in C'. rewrite C in C'. injection C' as <-. pose proof (mix_weight_pos tr Pt Ne). lra.
  - exfalso. destruct T as [Q|[l' [tr' [Tg' [C' Ne]]]]]; [contradiction|]. rewrite (target_fun nl z l' l W Tg' Tg) in C'. congruence. Qed.
Lemma blocks_wf E nl zs bs : good_env E -> Forall wf_zaid zs -> Forall2 (translated E nl) zs bs -> Forall wf_zaid (concat bs).
Proof. intros [[[D WT] CL] _] W F. induction F as [|z b zs bs Hb _ IH]; [constructor|]. inversion W; subst. cbn [concat]. apply Forall_app. split; [eapply block_wf; eauto|now apply IH]. Qed.
Lemma sum_blocks E nl zs bs (R : zaid -> list zaid -> Prop) : Forall2 (translated E nl) zs bs -> (forall z b, In z zs -> translated E nl z b -> (total b == z_frac z)%Q) -> (total (concat bs) == total zs)%Q.
Proof. intros F H. induction F as [|z b zs bs Hb _ IH]; [reflexivity|]. cbn [concat]. unfold total in *. rewrite map_app, qsum_app. cbn [map]. rewrite qsum_cons.
  rewrite IH by (intros; apply H; [now right|assumption]). rewrite (H z b (or_introl eq_refl) Hb). reflexivity. Qed.
(** mass fractions: as long as every zaid can be translated the total is kept exactly, both in the
    zaid list and in the card that is written *)
Theorem C22_mass_total_is_kept : forall E nl s s', good_env E -> wf_newlib nl -> Forall wf_zaid (s_zaids s) ->
  (forall z, In z (s_zaids s) -> (z_frac z < 0)%Q /\ translatable E nl z) -> translate_sub E nl s = Ok s' ->
  (total (s_zaids s') == total (s_zaids s))%Q /\ (total (shown s') == total (s_zaids s))%Q.
Proof. intros E nl s s' G W Wz H T. destruct (translate_sub_ok E nl s s' W Wz T) as [bs [F [Es Cs]]].
  assert (Q : (total (s_zaids s') == total (s_zaids s))%Q).
  { rewrite Es. apply (sum_blocks E nl _ _ (fun _ _ => True) F). intros z b Hz Hb. destruct (H z Hz). eapply block_mass; eauto. }
  split; [exact Q|]. unfold shown. rewrite Cs, collapse_total; [exact Q|]. rewrite Es. eapply blocks_wf; eauto. Qed.
Print Assumptions C22_mass_total_is_kept.
(** atom fractions: each zaid keeps its fraction times the abundances its conversion adds up to,
    which is 1 except for natural elements expanded into isotopes *)
Theorem C22_atom_total_of_each_zaid : forall E nl z b, good_env E -> wf_newlib nl -> (0 <= z_frac z)%Q -> translated E nl z b ->
  b = [] \/ (total b == z_frac z)%Q \/
  (natural (z_num z) /\ exists l, target nl z l /\ ~ carries (m_lib E) l (z_num z) /\
   forall n, parse_int (but3 (z_num z)) = Ok (Z.of_N n) -> (total b == z_frac z * qsum (map r_abund (filter (fun r => N.eqb (r_Z r) n) (l_iso (m_lib E)))))%Q).
Proof. intros E nl z b [[G _] _] W Hf H. destruct H as [l z' Tg Ds Nc Fr|l tr b Tg Ds C F|l Tg Ds C].
  - right. left. unfold total. cbn [map]. rewrite qsum_cons. change (qsum []) with 0%Q. rewrite Fr. ring.
  - right. pose proof (block_total _ _ _ F) as B. rewrite share_total_atom in B by exact Hf. destruct (C19_amount_is_conserved _ _ _ _ G C) as [A|[Hn [Hc A]]].
    + left. rewrite B, A. ring.
    + right. split; [exact Hn|]. exists l. split; [exact Tg|]. split; [exact Hc|]. intros n Hp. rewrite B, (A n Hp). ring.
  - left. reflexivity. Qed.
Print Assumptions C22_atom_total_of_each_zaid.
(** with the shipped isotope table the total of a translated submaterial stays within 0.015 % *)
Theorem C22_atom_total_with_the_shipped_table : forall E nl s s', good_env E -> l_iso (m_lib E) = shipped -> wf_newlib nl -> Forall wf_zaid (s_zaids s) ->
  (forall z, In z (s_zaids s) -> (0 <= z_frac z)%Q /\ translatable E nl z /\ exists n, parse_int (z_elem z) = Ok (Z.of_N n)) -> translate_sub E nl s = Ok s' ->
  ((1 - (15#100000)) * total (s_zaids s) <= total (s_zaids s') <= (1 + (1#100000)) * total (s_zaids s))%Q.
Proof. intros E nl s s' G SH W Wz H T. destruct (translate_sub_ok E nl s s' W Wz T) as [bs [F [Es _]]]. rewrite Es. clear T Es.
  induction F as [|z b zs bs Hb _ IH]; [cbn; lra|]. inversion Wz; subst. specialize (IH H3 (fun z' Hz => H z' (or_intror Hz))).
  cbn [concat]. unfold total in *. rewrite map_app, qsum_app. cbn [map]. rewrite qsum_cons. destruct (H z (or_introl eq_refl)) as [Hf [Ht [n Hn]]].
  assert (B : ((1 - (15#100000)) * z_frac z <= total b <= (1 + (1#100000)) * z_frac z)%Q); [|unfold total in B; lra].
  destruct Hb as [l z' Tg Ds Nc Fr|l tr b Tg Ds C F|l Tg Ds C].
  - assert (Q : (total [z'] == z_frac z)%Q) by (unfold total; cbn [map]; rewrite qsum_cons; change (qsum []) with 0%Q; rewrite Fr; ring). rewrite Q. lra.
  - rewrite (block_total _ _ _ F), share_total_atom by exact Hf.
    assert (A : (1 - (15#100000) <= amount tr <= 1 + (1#100000))%Q); [|split; nra].
    destruct E as [[data dflt iso] dos]. cbn [m_lib l_iso] in *. subst iso. destruct G as [[G _] _]. cbn [m_lib] in G. eapply C19_shipped_amount_within_tolerance; [exact G|exact C| |].
    + destruct Ht as [Q|[l' [tr' [Tg' [C' Ne]]]]]; [contradiction|]. rewrite (target_fun nl z l' l W Tg' Tg) in C'. cbn [m_lib] in C'. rewrite C in C'. injection C' as <-. exact Ne.
    + destruct H2 as (L3 & _). unfold z_num. rewrite (proj1 (but3_app (z_elem z) (z_iso z) L3)). exact Hn.
  - exfalso. destruct Ht as [Q|[l' [tr' [Tg' [C' Ne]]]]]; [contradiction|]. rewrite (target_fun nl z l' l W Tg' Tg) in C'. congruence. Qed.
Print Assumptions C22_atom_total_with_the_shipped_table.
(** the sign convention is kept zaid by zaid *)
Theorem C22_sign_is_kept : forall E nl z b z', good_env E -> wf_newlib nl -> translated E nl z b -> In z' b ->
  ((z_frac z < 0)%Q -> (z_frac z' < 0)%Q) /\ ((0 <= z_frac z)%Q -> (0 <= z_frac z')%Q).
Proof. intros E nl z b z' [[[D [WT ND]] _] P] W H Hin. destruct H as [l z1 Tg Ds Nc Fr|l tr b Tg Ds C F|l Tg Ds C].
  - destruct Hin as [<-|[]]. rewrite Fr. auto.
  - assert (Pt : positive_tr tr) by (eapply conv_positive; eauto). destruct (Forall2_in_r _ _ _ _ F Hin) as [kv [Hk [_ [_ Hf]]]].
    pose proof Pt as Pk. unfold positive_tr in Pk. rewrite Forall_forall in Pk. destruct (Pk kv Hk) as [P1 P2]. destruct kv as [k [[o ab] ma]]. cbn [fst snd] in P1, P2, Hf.
    split; intros Hz; rewrite Hf; unfold share; cbn [fst snd]; destruct (Qlt_le_dec (z_frac z) 0); try lra; [|nra].
    assert (M : (0 < mix_weight tr)%Q) by (apply mix_weight_pos; [exact Pt|intros ->; destruct Hk]). change (ab * ma / mix_weight tr * z_frac z < 0)%Q.
    assert (0 < ab * ma / mix_weight tr)%Q by (apply Qlt_shift_div_l; [exact M|nra]). nra.
  - destruct Hin. Qed.
Print Assumptions C22_sign_is_kept.
(** the element is kept, and any library written next to a new zaid carries that zaid (or is the
    dosimetry library the zaid already had) *)
Theorem C22_element_and_library : forall E nl z b z' n, good_env E -> wf_zaid z -> translated E nl z b -> In z' b -> parse_int (z_elem z) = Ok n ->
  parse_int (z_elem z') = Ok n /\ forall l, z_lib z' = Some l -> carries (m_lib E) l (z_num z') \/ (dosimetry E z /\ nuclide z' = nuclide z).
Proof. intros E nl z b z' n [[[D [WT ND]] CL] P] Wz H Hin Hn. destruct H as [l z1 Tg Ds Nc Fr|l tr b Tg Ds C F|l Tg Ds C].
  - destruct Hin as [<-|[]]. unfold nuclide in Nc. assert (E1 : z_elem z1 = z_elem z) by congruence. rewrite E1. split; [exact Hn|]. intros l0 _. right. auto.
  - destruct (Forall2_in_r _ _ _ _ F Hin) as [kv [Hk [[E1 E2] [E3 _]]]]. destruct Wz as (L3 & H1 & H2 & _).
    pose proof (conv_keys _ _ _ _ D (conj WT ND) CL (znum_clean z (conj H1 H2)) (znum_long z L3) C) as K. rewrite Forall_forall in K. destruct (K kv Hk) as (K1 & K2 & K3).
    assert (L3' : length (z_iso z') = 3) by (rewrite E2; lia). split.
    + rewrite <- (proj1 (but3_app (z_elem z') (z_iso z') L3')). rewrite <- E1. destruct kv as [k v]. eapply (conv_element (m_lib E) (z_num z) l tr n D (conj WT ND) C); [|exact Hk].
      unfold z_num. now rewrite (proj1 (but3_app (z_elem z) (z_iso z) L3)).
    + intros l0 El. left. unfold z_num. rewrite <- E1. destruct kv as [k [[o q1] q2]]. cbn [fst snd] in *. rewrite El in E3. subst o. apply K3.
  - destruct Hin. Qed.
Print Assumptions C22_element_and_library.
(** when translation raises: no target library for some zaid (ValueError), or a default library
    that is not loaded (KeyError) *)
Theorem C22_errors_are_justified : forall E nl s e, good_env E -> wf_newlib nl -> translate_sub E nl s = Err e ->
  exists z, In z (s_zaids s) /\ ((e = ValueError /\ forall l, ~ target nl z l) \/ (e = KeyError /\ ~ loaded (m_lib E) (l_default (m_lib E)))).
Proof. intros E nl s e [[G CL] P] W H. unfold translate_sub in H. destruct (mapM (translate_zaid E nl) (s_zaids s)) as [l|e'] eqn:M; cbn [bind] in H; [discriminate|]. injection H as ->.
  apply mapM_err in M. destruct M as [z [Hz Ez]]. exists z. split; [exact Hz|]. apply translate_zaid_err in Ez; [|exact W]. destruct Ez as [Q|[[l [Tg [Ds [Ne C]]]]|[-> [l [tr [Tg [Ds [C [Ne Mw]]]]]]]]].
  - left. exact Q.
  - right. apply (C19_errors_are_justified _ _ _ _ G) in C. destruct C as [[-> _]|[[-> _]|[[-> [Q _]]|[[-> _]|[-> _]]]]]; try congruence. auto.
  - exfalso. destruct G as [D [WT ND]]. pose proof (mix_weight_pos tr (conv_positive _ _ _ _ D ND P C) Ne). lra. Qed.
Print Assumptions C22_errors_are_justified.
(** a whole material, and a whole material list, is translated submaterial by submaterial *)
Theorem C22_lists_are_translated_one_by_one : forall E nl l r, translate_list E nl l = (r, None) ->
  Forall2 (fun m m' => mt_name m' = mt_name m /\ Forall2 (fun s s' => translate_sub E nl s = Ok s') (mt_subs m) (mt_subs m')) l r.
Proof. intros E nl l r H. apply translate_list_ok in H. revert H. apply Forall2_impl. intros m m'. apply translate_mat_ok. Qed.
Print Assumptions C22_lists_are_translated_one_by_one.
(** But a zaid without a translation disappears without an error: its fraction is lost. *)
Definition denv : matenv := mkmenv demo [s2l "34y"].
Theorem C22_untranslatable_zaid_is_lost_refuted : forall E nl s1 z s2 l, wf_newlib nl -> target nl z l -> ~ dosimetry E z ->
  convertZaid (m_lib E) (z_num z) l = Err ValueError ->
  translate_sub E nl (mk_submat (s1 ++ z :: s2)) = translate_sub E nl (mk_submat (s1 ++ s2)).
Proof. intros E nl s1 z s2 l W Tg Ds C. unfold translate_sub. cbn [mk_submat s_zaids].
  assert (Z : translate_zaid E nl z = Ok []). { unfold translate_zaid, zaid_translation. rewrite (proj2 (pick_lib_ok nl z l W) Tg). cbn [bind].
    destruct (match z_lib z with Some l0 => memb str_eqb l0 (m_dosim E) | None => false end) eqn:Q; [apply dosim_iff in Q; contradiction|]. rewrite C. reflexivity. }
  assert (A : forall s, mapM (translate_zaid E nl) (s ++ z :: s2) = do a <- mapM (translate_zaid E nl) s; do b <- mapM (translate_zaid E nl) s2; Ok (a ++ [] :: b)).
  { induction s as [|x s IH]; cbn [app mapM].
    - rewrite Z. cbn [bind]. destruct (mapM (translate_zaid E nl) s2); reflexivity.
    - destruct (translate_zaid E nl x); cbn [bind]; [|reflexivity]. rewrite IH. destruct (mapM (translate_zaid E nl) s); cbn [bind]; [|reflexivity]. destruct (mapM (translate_zaid E nl) s2); reflexivity. }
  assert (B : forall s, mapM (translate_zaid E nl) (s ++ s2) = do a <- mapM (translate_zaid E nl) s; do b <- mapM (translate_zaid E nl) s2; Ok (a ++ b)).
  { induction s as [|x s IH]; cbn [app mapM].
    - cbn [bind]. destruct (mapM (translate_zaid E nl) s2); reflexivity.
    - destruct (translate_zaid E nl x); cbn [bind]; [|reflexivity]. rewrite IH. destruct (mapM (translate_zaid E nl) s); cbn [bind]; [|reflexivity]. destruct (mapM (translate_zaid E nl) s2); reflexivity. }
  rewrite A, B. destruct (mapM (translate_zaid E nl) s1); cbn [bind]; [|reflexivity]. destruct (mapM (translate_zaid E nl) s2); cbn [bind]; [|reflexivity].
  rewrite !concat_app. reflexivity. Qed.
Print Assumptions C22_untranslatable_zaid_is_lost_refuted.
Definition zd (f : Q) (e i l : string) : zaid := mkzaid f (s2l e) (s2l i) (Some (s2l l)).
(** iron-54 and iron-56: 20 % of the mass is lost *)
Example C22_lost_witness : exists s', translate_sub denv (ToLib (s2l "31c")) (mk_submat [zd (-8#10) "26" "056" "21c"; zd (-2#10) "26" "054" "21c"]) = Ok s' /\
  (total (s_zaids s') == -8#10)%Q /\ convertZaid (m_lib denv) (s2l "26054") (s2l "31c") = Err ValueError.
Proof. eexists. split; [vm_compute; reflexivity|]. split; vm_compute; reflexivity. Qed.
(** and an exception half-way leaves the first submaterials translated, the others not *)
Theorem C22_failure_is_not_atomic_refuted : exists E nl m m' e, translate_mat E nl m = (m', Some e) /\ m' <> m.
Proof. exists denv, (ByOldLib [(s2l "21c", s2l "31c")]), (mkmat (s2l "m1") [mk_submat [zd 1 "1" "001" "21c"]; mk_submat [zd 1 "1" "002" "99c"]]).
  eexists. exists ValueError. split; [vm_compute; reflexivity|]. intros Q. apply (f_equal (fun m => map z_lib (all_zaids m))) in Q. vm_compute in Q. discriminate. Qed.
Print Assumptions C22_failure_is_not_atomic_refuted.
Example C22_witness : good_env denv /\ translatable denv (ToLib (s2l "31c")) (zd (-8#10) "26" "056" "21c") /\
  exists s', translate_sub denv (ToLib (s2l "31c")) (mk_submat [zd (-8#10) "26" "056" "21c"; zd (-2#10) "1" "000" "21c"]) = Ok s' /\ length (s_zaids s') = 3.
Proof. split; [apply C22_shipped_table_is_good; [apply nodupb_ok; vm_compute; reflexivity|]; intros l Hl; vm_compute in Hl; repeat (destruct Hl as [<-|Hl]; [intros Q; vm_compute in Q; repeat (destruct Q as [Q|Q]; [discriminate|]); destruct Q|]); destruct Hl|].
  split; [right; exists (s2l "31c"), [(s2l "26056", (Some (s2l "81c"), 1%Q, 1%Q))]; split; [reflexivity|split; [vm_compute; reflexivity|discriminate]]|].
  eexists. split; [vm_compute; reflexivity|reflexivity]. Qed.
