(** C129: the work flow of a D1S calculation: the reaction file of the materials, then the translation that it drives. *)
From Coq Require Import Lia Sorting.Sorted.
From Verif Require Import PyBase PyLemmas PyStr PyStrLemmas PyText D1SModel D1SProofs2 D1SProps LibModel LibSpec LibProofs LibProofs2 LibProofs3 IsoData LibProps MatModel MatSpec MatProofs MatProofs2 MatProofs3 MatProofs4 MatProps InpGeomSpec DataModel DataSpec DataProps PathsModel PathsSpec PathsProofs PathsProps FlowSpec FlowProofs.
Open Scope nat_scope.

(** The reaction file made from the materials drives the translation of the same materials: each
    zaid with a path to a scheduled daughter goes to the activation library, each other one to the
    transport library; the reaction file stays what it was; the PIKMT card lists exactly the zaids
    with such a path, each once, in order, followed by 0, and no other card changes. *)
Theorem C129_file_then_translation : forall D E act trans f ms rs data s',
  Forall wf_material ms -> (forall z, zaid_in ms z -> no_ws (z_elem z ++ z_iso z)) -> act <> trans ->
  get_reaction_file D act (Some f) ms = Ok rs ->
  smart_translate E act trans false (mkd1s ms (Some rs) data) = (s', None) ->
  s_reacs s' = Some rs /\
  Forall2 (fun m m' => mt_name m' = mt_name m /\
    Forall2 (fun a b => exists blocks, Forall2 (fun z bl => exists l, (activated D act f ms (z_elem z ++ z_iso z) /\ l = act \/ ~ activated D act f ms (z_elem z ++ z_iso z) /\ l = trans) /\ translated E (ToLib l) z bl) (s_zaids a) blocks /\
                        s_zaids b = concat blocks /\ consistent b) (mt_subs m) (mt_subs m')) ms (s_mats s') /\
  exists ls ps, dget str_eqb (s2l "PIKMT") (d_other (s_data s')) = Some ls /\
    words ls = s2l "PIKMT" :: concat (map (fun p => [p; s2l "0"]) ps) /\
    StronglySorted (fun a b => str_leb a b = true) ps /\ NoDup ps /\ (forall p, In p ps <-> activated D act f ms p) /\
    forall key, key <> s2l "PIKMT" -> dget str_eqb key (d_other (s_data s')) = dget str_eqb key (d_other data).
Proof.
  intros D E act trans f ms rs data s' W NW NE GF ST. destruct (file_parents D act f ms rs W GF) as [CL PA].
  rewrite smart_eq in ST by exact NE. cbn zeta in ST. rewrite CL in ST. destruct (translate_list E (two_libs act trans rs ms) ms) as [ms' o] eqn:T. injection ST as <- ->. cbn [s_reacs s_mats s_data].
  split; [reflexivity|]. split.
  - assert (TG := fun z => two_libs_target D act trans f ms rs z W GF). apply C22_lists_are_translated_one_by_one in T.
    eapply Forall2_impl_in; [exact T|]. intros m m' Im (Nm & F). split; [exact Nm|]. eapply Forall2_impl_in; [exact F|]. intros a b Ia Tab. assert (Wa : Forall wf_zaid (s_zaids a)) by (apply Forall_forall; intros z Iz; apply (wf_zaid_in ms z W); exists m, a; auto).
    destruct (translate_sub_ok E (two_libs act trans rs ms) a b I Wa Tab) as (bs & Fb & Eb & Cb). exists bs. split; [|split; [exact Eb|exact Cb]]. eapply Forall2_impl_in; [exact Fb|]. intros z bl Iz H. destruct (TG z) as (l & A & Tz); [exists m, a; auto|]. exists l. split; [exact A|]. exact (translated_target E (two_libs act trans rs ms) z bl l I Tz H).
  - assert (NP : Forall (fun p => no_ws p /\ p <> []) (get_parents rs)).
    { apply Forall_forall. intros p Ip. apply C46_parents_sorted_unique_exact in Ip. apply PA in Ip. destruct Ip as (mt & d & i & (m & s & z & l & Im & Is & Iz & <- & _) & _). assert (Z : zaid_in ms z) by (exists m, s; auto). split; [now apply NW|].
      destruct (wf_zaid_in ms z W Z) as (L3 & _). destruct (z_elem z); [|discriminate]. destruct (z_iso z); [discriminate L3|discriminate]. }
    destruct (C50_pikmt rs data NP) as (ls & G & Wl & O). destruct (C46_parents_sorted_unique_exact rs) as (S0 & N0 & P0). exists ls, (get_parents rs). repeat split; auto.
    + intros Ip. apply PA, P0, Ip.
    + intros Ap. apply P0, PA, Ap.
Qed.
Print Assumptions C129_file_then_translation.

(** When the activation library has every zaid with such a path and the transport library every
    other one, the translation succeeds, only the libraries of the zaids change, and the reaction
    file made from the translated materials is the same. *)
Theorem C129_complete_libraries : forall D E act trans f ms rs data, good_env E -> Forall wf_material ms -> act <> trans ->
  get_reaction_file D act (Some f) ms = Ok rs ->
  (forall z, zaid_in ms z -> ~ dosimetry E z /\
     (activated D act f ms (z_elem z ++ z_iso z) -> carries (m_lib E) act (z_elem z ++ z_iso z)) /\
     (~ activated D act f ms (z_elem z ++ z_iso z) -> carries (m_lib E) trans (z_elem z ++ z_iso z))) ->
  exists s', smart_translate E act trans false (mkd1s ms (Some rs) data) = (s', None) /\
    zaid_by_zaid (fun z z' => z_elem z' = z_elem z /\ z_iso z' = z_iso z /\ (z_frac z' == z_frac z)%Q /\
      exists l, z_lib z' = Some l /\ (activated D act f ms (z_elem z ++ z_iso z) /\ l = act \/ ~ activated D act f ms (z_elem z ++ z_iso z) /\ l = trans)) ms (s_mats s') /\
    get_reaction_file D act (Some f) (s_mats s') = Ok rs.
Proof.
  intros D E act trans f ms rs data [[[Dl _] _] _] W NE GF H. rewrite smart_eq by exact NE. cbn zeta. destruct (file_parents D act f ms rs W GF) as [CL _]. rewrite CL.
  set (nl := two_libs act trans rs ms).
  set (R := fun z z' => z_elem z' = z_elem z /\ z_iso z' = z_iso z /\ (z_frac z' == z_frac z)%Q /\
      exists l, z_lib z' = Some l /\ (activated D act f ms (z_elem z ++ z_iso z) /\ l = act \/ ~ activated D act f ms (z_elem z ++ z_iso z) /\ l = trans)).
  assert (Z1 : forall z, zaid_in ms z -> exists z', translate_zaid E nl z = Ok [z'] /\ R z z').
  { intros z Z. destruct (two_libs_target D act trans f ms rs z W GF Z) as (l & A & T). destruct (H z Z) as (Nd & H1 & H2).
    destruct (carried_zaid E nl z l Dl I T Nd) as (z' & Q1 & Q2 & Q3 & Q4 & Q5); [|now apply (wf_zaid_in ms)|].
    - destruct A as [[A ->]|[A ->]]; [apply H1, A|apply H2, A].
    - exists z'. split; [exact Q1|]. split; [exact Q2|]. split; [exact Q3|]. split; [exact Q5|]. exists l. split; [exact Q4|exact A]. }
  destruct (translate_list_all E nl ms) as [ms' T]; [intros z Z; destruct (Z1 z Z) as (z' & Q & _); eauto|]. rewrite T. eexists. split; [reflexivity|]. cbn [s_mats].
  apply C22_lists_are_translated_one_by_one in T.
  assert (ZZ : zaid_by_zaid R ms ms').
  { unfold zaid_by_zaid. eapply Forall2_impl_in; [exact T|]. intros m m' Im (Nm & F). split; [exact Nm|]. eapply Forall2_impl_in; [exact F|]. intros a b Ia Tab. unfold translate_sub in Tab.
    destruct (mapM (translate_zaid E nl) (s_zaids a)) as [bs|] eqn:M; cbn [bind] in Tab; [|discriminate]. injection Tab as <-. cbn [mk_submat s_zaids]. apply mapM_Forall2 in M.
    assert (ZA : forall z, In z (s_zaids a) -> zaid_in ms z) by (intros z Iz; exists m, a; auto). clear - M ZA Z1. induction M as [|z bl zs bs Hz _ IH]; [constructor|]. cbn [concat]. destruct (Z1 z (ZA z (or_introl eq_refl))) as (z' & Q & Rz). rewrite Q in Hz. injection Hz as <-. cbn [app]. constructor; [exact Rz|]. apply IH. intros y Iy. apply ZA. now right. }
  split; [exact ZZ|]. eapply same_numbers_file; [|exact GF]. apply (same_numbers R); [|exact ZZ]. intros z z' (A & B & _). unfold z_num. congruence.
Qed.
Print Assumptions C129_complete_libraries.

(** A zaid ends under the activation library only for a zaid that has such a path: itself, its
    natural element, or an isotope of it when it is a natural element (the activation library being
    neither the default library nor a dosimetry library). *)
Theorem C129_activation_library_is_for_paths : forall D E act trans f ms rs data s' z', good_env E -> Forall wf_material ms -> act <> trans ->
  act <> l_default (m_lib E) -> ~ In act (m_dosim E) ->
  get_reaction_file D act (Some f) ms = Ok rs -> smart_translate E act trans false (mkd1s ms (Some rs) data) = (s', None) ->
  zaid_in (s_mats s') z' -> z_lib z' = Some act ->
  exists z, zaid_in ms z /\ activated D act f ms (z_elem z ++ z_iso z) /\
    (z_elem z' ++ z_iso z' = z_elem z ++ z_iso z \/ z_elem z' ++ z_iso z' = element_of z \/ natural (z_elem z ++ z_iso z)).
Proof.
  intros D E act trans f ms rs data s' z' [[[Dl [_ ND]] CLb] _] W NE NDf NDs GF ST Z' L. rewrite smart_eq in ST by exact NE. cbn zeta in ST. destruct (translate_list E (two_libs act trans rs ms) ms) as [ms' o] eqn:T. injection ST as <- ->. cbn [s_mats] in Z'.
  apply C22_lists_are_translated_one_by_one in T. destruct Z' as (m' & b & Im' & Ib & Iz'). destruct (Forall2_in_r _ _ _ _ T Im') as (m & Im & _ & F). destruct (Forall2_in_r _ _ _ _ F Ib) as (a & Ia & Tab).
  assert (Wa : Forall wf_zaid (s_zaids a)) by (apply Forall_forall; intros z Iz; apply (wf_zaid_in ms z W); exists m, a; auto). destruct (translate_sub_ok E (two_libs act trans rs ms) a b I Wa Tab) as (bs & Fb & Eb & _). rewrite Eb in Iz'. apply in_concat in Iz' as (bl & Ibl & Iz'). destruct (Forall2_in_r _ _ _ _ Fb Ibl) as (z & Iz & H).
  assert (Zz : zaid_in ms z) by (exists m, a; auto). exists z. split; [exact Zz|]. destruct (two_libs_target D act trans f ms rs z W GF Zz) as (l & A & Tg). change (z_elem z ++ z_iso z) with (z_num z). change (z_elem z' ++ z_iso z') with (z_num z').
  destruct (wf_zaid_in ms z W Zz) as (L3 & _). destruct (but3_app (z_elem z) (z_iso z) L3) as [B1 B2].
  destruct H as [l0 y Tg0 Ds Nc Fr|l0 tr bl Tg0 Ds C Ft|l0 Tg0 Ds C]; [| |destruct Iz'].
  - exfalso. destruct Iz' as [->|[]]. destruct Ds as (k & K1 & K2). unfold nuclide in Nc. apply NDs. replace act with k by congruence. exact K2.
  - pose proof (target_fun (two_libs act trans rs ms) z l l0 I Tg Tg0) as <-. destruct (Forall2_in_r _ _ _ _ Ft Iz') as (kv & Ik & (K1 & _) & K2 & _). rewrite L in K2. symmetry in K2. apply conv_ok in C; [|exact Dl|exact ND].
    assert (LA : l = act /\ (fst kv = z_num z \/ fst kv = element_of z \/ natural (z_num z))).
    { destruct C as [Cc|Nn Nc Cc|Nn Nc Nc2 Cc|l1 Nn Nc Nc2 Nd Cc Sp|q tr Nn Nc P M Fl].
      - destruct Ik as [<-|[]]. cbn [fst snd] in *. split; [congruence|auto].
      - destruct Ik as [<-|[]]. cbn [fst snd] in *. split; [congruence|]. right. left. unfold element_of. unfold z_num. rewrite B1. reflexivity.
      - destruct Ik as [<-|[]]. cbn [fst snd] in *. congruence.
      - destruct Ik as [<-|[]]. cbn [fst snd] in *. discriminate.
      - rewrite Forall_forall in Fl. destruct (Fl kv Ik) as (l1 & E1 & _ & [->|[-> _]]); pose proof (eq_trans (eq_sym K2) E1) as Q0; injection Q0 as Q0; [split; [now symmetry|auto]|contradiction]. }
    destruct LA as [-> K]. split; [destruct A as [[A _]|[_ A]]; [exact A|congruence]|]. destruct K as [K|[K|K]]; [left; exact (eq_trans (eq_sym K1) K)|right; left; exact (eq_trans (eq_sym K1) K)|auto].
Qed.
Print Assumptions C129_activation_library_is_for_paths.

(** Not so when the activation library lacks the zaid: without an error the zaid ends in the default
    library under its number, and the PIKMT card still lists it. *)
Theorem C129_zaid_missing_from_the_activation_library_refuted : forall D E act trans f ms rs data s' z, good_env E -> Forall wf_material ms -> act <> trans ->
  get_reaction_file D act (Some f) ms = Ok rs -> smart_translate E act trans false (mkd1s ms (Some rs) data) = (s', None) ->
  zaid_in ms z -> activated D act f ms (z_elem z ++ z_iso z) -> ~ dosimetry E z -> ~ natural (z_elem z ++ z_iso z) ->
  loaded (m_lib E) act -> ~ carries (m_lib E) act (z_elem z ++ z_iso z) -> ~ carries (m_lib E) act (element_of z) -> carries (m_lib E) (l_default (m_lib E)) (z_elem z ++ z_iso z) ->
  (exists z', zaid_in (s_mats s') z' /\ z_elem z' ++ z_iso z' = z_elem z ++ z_iso z /\ z_lib z' = Some (l_default (m_lib E))) /\
  exists r, In r rs /\ before_dot (x_parent r) = z_elem z ++ z_iso z.
Proof.
  intros D E act trans f ms rs data s' z [[[Dl [_ ND]] _] _] W NE GF ST Zz A Nd Nn Ld Nc Ne Cd. split; [|apply (proj2 (file_parents D act f ms rs W GF)); exact A].
  rewrite smart_eq in ST by exact NE. cbn zeta in ST. destruct (translate_list E (two_libs act trans rs ms) ms) as [ms' o] eqn:T. injection ST as <- ->. cbn [s_mats].
  apply C22_lists_are_translated_one_by_one in T. destruct (two_libs_target D act trans f ms rs z W GF Zz) as (l & B & Tg). destruct B as [[_ ->]|[B _]]; [|contradiction].
  destruct Zz as (m & a & Im & Ia & Iz). destruct (Forall2_in_l _ _ _ _ T Im) as (m' & Im' & _ & F). destruct (Forall2_in_l _ _ _ _ F Ia) as (b & Ib & Tab).
  assert (Wa : Forall wf_zaid (s_zaids a)) by (apply Forall_forall; intros y Iy; apply (wf_zaid_in ms y W); exists m, a; auto). destruct (translate_sub_ok E (two_libs act trans rs ms) a b I Wa Tab) as (bs & Fb & Eb & _). destruct (Forall2_in_l _ _ _ _ Fb Iz) as (bl & Ibl & H).
  assert (L3 : length (z_iso z) = 3) by (rewrite Forall_forall in Wa; destruct (Wa z Iz) as [? _]; assumption). destruct (but3_app (z_elem z) (z_iso z) L3) as [B1 B2]. unfold element_of in Ne. rewrite <- B1 in Ne. change (z_elem z ++ z_iso z) with (z_num z) in *.
  pose proof (conv_default _ _ _ Dl Ld Nn Nc Ne Cd) as CZ.
  destruct H as [l0 y Tg0 Ds Nc0 Fr|l0 tr bl Tg0 Ds C Ft|l0 Tg0 Ds C]; [contradiction| |]; pose proof (target_fun (two_libs act trans rs ms) z act l0 I Tg Tg0) as <-; [|congruence].
  rewrite CZ in C. injection C as <-. inversion Ft as [|kv z' ? ? (K1 & K2 & _) ? E1 E2]; subst. exists z'. split; [|split; [symmetry; exact (proj1 K1)|exact K2]].
  exists m', b. split; [exact Im'|]. split; [exact Ib|]. rewrite Eb. apply in_concat. eexists. split; [exact Ibl|]. now left.
Qed.
Print Assumptions C129_zaid_missing_from_the_activation_library_refuted.

(** Natural elements: the activation libraries list reactions of isotopes only, so a reaction file
    made while a material lists natural iron has no reaction for it; expanding the element during the
    translation (fix_natural_zaid) leaves its isotopes in the transport library and off the PIKMT
    card, though a reaction file made afterwards would have the reaction. *)
Definition f_env : matenv := mkmenv (mklib
  [(s2l "31c", map (fun z => (s2l z, s2l "31c")) ["1001"; "8016"; "26054"; "26056"; "26057"; "26058"; "27059"]%string); (s2l "99c", [(s2l "26056", s2l "99c"); (s2l "27059", s2l "99c")])] (s2l "31c") shipped) [s2l "34y"].
Definition f_iron : list material := [mkmat (s2l "m1") [mk_submat [zd 1 "26" "000" "21c"]]].
Theorem C129_natural_elements_expanded_too_late_refuted : exists s' r,
  get_reaction_file x_act (s2l "99c") (Some x_irr) f_iron = Ok [] /\
  smart_translate f_env (s2l "99c") (s2l "31c") true (mkd1s f_iron (Some []) (mkD [] [])) = (s', None) /\
  (forall z, In z (zaids_of (s_mats s')) -> z_lib z = Some (s2l "31c")) /\
  get_reaction_file x_act (s2l "99c") (Some x_irr) (s_mats s') = Ok [r] /\ x_parent r = s2l "26056.99c".
Proof.
  eexists. eexists. split; [vm_compute; reflexivity|]. split; [vm_compute; reflexivity|]. split; [|split; [vm_compute; reflexivity|reflexivity]].
  intros z Iz. vm_compute in Iz. repeat (destruct Iz as [<-|Iz]; [reflexivity|]). destruct Iz.
Qed.
Print Assumptions C129_natural_elements_expanded_too_late_refuted.

(** Non-vacuity: iron and cobalt with scheduled daughters and oxygen without, in two materials. *)
Lemma f_env_good : good_env f_env.
Proof. apply C22_shipped_table_is_good; [apply nodupb_ok; vm_compute; reflexivity|]. intros l Hl. vm_compute in Hl. repeat (destruct Hl as [<-|Hl]; [intros Q; vm_compute in Q; repeat (destruct Q as [Q|Q]; [discriminate|]); destruct Q|]). destruct Hl. Qed.
Definition f_rs : list D1SModel.reac := [D1SModel.mkreac (s2l "26056.99c") (s2l "103") (s2l "25056") (Some (s2l "Fe-56 -> Mn-56")); D1SModel.mkreac (s2l "27059.99c") (s2l "102") (s2l "27060900") (Some (s2l "Co-59 -> Co-60m"))].
Definition dots (s : str) : bool := existsb (fun c => Ascii.eqb c dot) s.
Lemma f_zaids z : zaid_in x_mats z -> z = zd 1 "27" "059" "31c" \/ z = zd 1 "26" "056" "31c" \/ z = zd 1 "8" "016" "31c".
Proof. intros H. apply zaid_in_zaids in H. cbn in H. intuition. Qed.
Example C129_witness : Forall wf_material x_mats /\ (forall z, zaid_in x_mats z -> no_ws (z_elem z ++ z_iso z)) /\
  get_reaction_file x_act (s2l "99c") (Some x_irr) x_mats = Ok f_rs /\
  (exists s', smart_translate f_env (s2l "99c") (s2l "31c") false (mkd1s x_mats (Some f_rs) (mkD [] [])) = (s', None) /\
    map z_name (zaids_of (s_mats s')) = [s2l "27059.99c"; s2l "26056.99c"; s2l "26056.99c"; s2l "8016.31c"]) /\
  (forall z, zaid_in x_mats z -> ~ dosimetry f_env z /\
     (activated x_act (s2l "99c") x_irr x_mats (z_elem z ++ z_iso z) -> carries (m_lib f_env) (s2l "99c") (z_elem z ++ z_iso z)) /\
     (~ activated x_act (s2l "99c") x_irr x_mats (z_elem z ++ z_iso z) -> carries (m_lib f_env) (s2l "31c") (z_elem z ++ z_iso z))).
Proof.
  assert (ND : forall s, dots s = false -> ~ In dot s) by (intros s H I; assert (T : dots s = true) by (apply existsb_exists; exists dot; split; [exact I|reflexivity]); congruence).
  assert (W : Forall wf_material x_mats).
  { apply Forall_forall. intros m Im. apply Forall_forall. intros z Iz. assert (Z : zaid_in x_mats z) by (apply zaid_in_zaids; unfold zaids_of; apply in_concat; exists (all_zaids m); split; [now apply in_map|exact Iz]).
    destruct (f_zaids z Z) as [->|[->| ->]]; (split; [reflexivity|]; split; [apply ND; reflexivity|]; split; [apply ND; reflexivity|apply (ND (s2l "31c")); reflexivity]). }
  assert (GF : get_reaction_file x_act (s2l "99c") (Some x_irr) x_mats = Ok f_rs) by (vm_compute; reflexivity).
  split; [exact W|]. split; [intros z Z; destruct (f_zaids z Z) as [->|[->| ->]]; repeat constructor|]. split; [exact GF|]. split; [eexists; split; vm_compute; reflexivity|].
  assert (CA : forall (l z : string) x, In (s2l l, x) (l_data (m_lib f_env)) -> In (s2l z, s2l l) x -> carries (m_lib f_env) (s2l l) (s2l z)) by (intros l z x A B; exists x; auto).
  intros z Z. split; [destruct (f_zaids z Z) as [->|[->| ->]]; intros (l & A & [<-|[]]); discriminate A|].
  destruct (file_parents _ _ _ _ _ W GF) as [_ PA].
  destruct (f_zaids z Z) as [->|[->| ->]].
  - split; [intros _; eapply (CA "99c" "27059")%string; [right; left; reflexivity|right; left; reflexivity]|]. intros N. exfalso. apply N. apply (PA (s2l "27059")). eexists. split; [right; left; reflexivity|reflexivity].
  - split; [intros _; eapply (CA "99c" "26056")%string; [right; left; reflexivity|left; reflexivity]|]. intros N. exfalso. apply N. apply (PA (s2l "26056")). eexists. split; [left; reflexivity|reflexivity].
  - split; [|intros _; eapply (CA "31c" "8016")%string; [left; reflexivity|right; left; reflexivity]]. intros A. apply (PA (s2l "8016")) in A. destruct A as (r & [<-|[<-|[]]] & Q); discriminate Q.
Qed.
(** C37: the reaction file depends only on which zaids the materials list, not on their order,
    number, fractions, libraries or materials *)
Theorem C37_only_the_zaids_matter : forall D lib f ms ms' rs, (forall n, in_materials ms n <-> in_materials ms' n) ->
  get_reaction_file D lib (Some f) ms = Ok rs -> get_reaction_file D lib (Some f) ms' = Ok rs.
Proof. exact same_numbers_file. Qed.
Print Assumptions C37_only_the_zaids_matter.
Example C37_only_the_zaids_case : (forall n, in_materials (rev x_mats) n <-> in_materials x_mats n) /\ get_reaction_file x_act (s2l "99c") (Some x_irr) (rev x_mats) = Ok f_rs.
Proof. split; [intros n; unfold in_materials; split; intros (m & s & z & A & B); exists m, s, z; (split; [now apply in_rev in A|exact B] || (split; [apply in_rev; rewrite rev_involutive; exact A|exact B]))|vm_compute; reflexivity]. Qed.
