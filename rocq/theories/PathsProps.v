(** C37: the reaction file.  C52: translation driven by the reaction file. *)
From Coq Require Import Lia ZArith QArith Sorting.Sorted.
From Verif Require Import PyBase PyLemmas PyStr PyStrLemmas PyText D1SModel D1SProofs2 WWTextProofs LibModel LibProps MatModel MatSpec MatProofs MatProofs2 MatProps DataModel PathsModel PathsSpec PathsProofs.
Open Scope nat_scope.

(** the file lists exactly the paths of the materials that lead to a daughter of the irradiation
    file, each once, ordered *)
Theorem C37_reaction_file_exact : forall D lib f ms rs, get_reaction_file D lib (Some f) ms = Ok rs ->
  exists ts, StronglySorted before ts /\ NoDup ts /\
    (forall p mt d, In (p, mt, d) ts <-> material_path D lib ms p mt d /\ exists i, In i (f_scheds f) /\ i_daughter i = d) /\
    Forall2 (fun t r => x_parent r = fst (fst t) ++ dot :: lib /\ x_mt r = snd (fst t) /\ x_daughter r = snd t /\
                        exists c, x_comment r = Some c /\ path_comment D (x_parent r) (x_daughter r) = Ok c) ts rs.
Proof. intros D lib f ms rs H. unfold get_reaction_file, get_potential_paths in H. destruct (mapM (zaid_paths D lib) (zaids_of ms)) as [ls|] eqn:M; cbn [bind] in H; [|discriminate].
  set (all := sorted_triples (dedup_triples (concat ls))) in *. destruct (mapM (path_reaction D lib) all) as [ps|] eqn:P; cbn [bind] in H; [|discriminate]. injection H as <-.
  assert (IN : forall p mt d, In (p, mt, d) all <-> material_path D lib ms p mt d).
  { intros p mt d. unfold all. rewrite sorted_triples_in, dedup_triples_in, in_concat. apply mapM_Forall2 in M. split.
    - intros [l [A B]]. destruct (Forall2_in_r _ _ _ _ M A) as [z [Z1 Z2]]. unfold zaid_paths in Z2. destruct (get_reactions (a_iso D) (a_sheets D) lib (z_num z)) as [rl|] eqn:G; cbn [bind] in Z2; [|discriminate]. injection Z2 as <-.
      apply in_map_iff in B as [[m0 d0] [E B]]. cbn [fst snd] in E. injection E as <- <- <-. apply zaids_in in Z1 as [m [s [I1 [I2 I3]]]]. exists m, s, z, rl. repeat split; auto.
    - intros [m [s [z [l [I1 [I2 [I3 [<- [G B]]]]]]]]]. assert (Z : In z (zaids_of ms)) by (apply zaids_in; eauto). clear I1 I2 I3 P. clear all.
      induction M as [|z0 l0 zs ls0 H0 _ IH]; [destruct Z|]. destruct Z as [->|Z].
      + unfold zaid_paths, z_num in H0. rewrite G in H0. cbn [bind] in H0. injection H0 as <-. eexists. split; [left; reflexivity|]. apply in_map_iff. exists (mt, d). auto.
      + destruct (IH Z) as [l1 [A1 A2]]. exists l1. split; [right; exact A1|exact A2]. }
  exists (filter (fun t => memb str_eqb (snd t) (get_daughters f)) all). split; [apply StronglySorted_filter; apply sorted_triples_ss|]. split; [apply NoDup_filter; apply sorted_triples_nodup, dedup_triples_nodup|]. split.
  - intros p mt d. rewrite filter_In. rewrite IN. cbn [snd]. rewrite memb_str. unfold get_daughters. rewrite in_map_iff. split; intros [A [i [B C]]]; (split; [exact A|]); exists i; auto.
  - apply mapM_Forall2 in P. assert (MT : forall t, In t all -> exists z, snd (fst t) = str_of_Z z).
    { intros [[p mt] d] Q. apply IN in Q as [m [s [z [l [_ [_ [_ [_ [G B]]]]]]]]]. eapply get_reactions_mt; eauto. }
    clear IN M. clearbody all. induction P as [|[[p mt] d] r all ps H0 _ IH]; cbn [filter]; [constructor|]. assert (IH2 := IH (fun t Q => MT t (or_intror Q))). destruct (path_reaction_ok _ _ _ _ _ _ H0 (MT _ (or_introl eq_refl))) as [c [C ->]]. cbn [snd D1SModel.x_daughter].
    destruct (memb str_eqb d (get_daughters f)); [|exact IH2]. constructor; [|exact IH2]. cbn [fst snd D1SModel.x_parent D1SModel.x_mt D1SModel.x_daughter D1SModel.x_comment]. repeat split. exists c. auto. Qed.
Print Assumptions C37_reaction_file_exact.
(** without an irradiation file: ValueError *)
Theorem C37_needs_an_irradiation_file : forall D lib ms, get_reaction_file D lib None ms = Err ValueError.
Proof. reflexivity. Qed.
Print Assumptions C37_needs_an_irradiation_file.
(** an irradiation file with more daughters never removes reactions *)
Theorem C37_more_daughters_more_reactions : forall D lib f g ms rs, (forall i, In i (f_scheds f) -> exists j, In j (f_scheds g) /\ i_daughter j = i_daughter i) ->
  get_reaction_file D lib (Some f) ms = Ok rs -> exists rs', get_reaction_file D lib (Some g) ms = Ok rs' /\ incl rs rs'.
Proof. intros D lib f g ms rs S H. unfold get_reaction_file in *. destruct (get_potential_paths D lib ms) as [l|]; cbn [bind] in *; [|discriminate]. injection H as <-. eexists. split; [reflexivity|]. intros r Q. apply filter_In in Q as [Q1 Q2]. apply filter_In. split; [exact Q1|]. apply memb_str in Q2. apply memb_str. unfold get_daughters in *. apply in_map_iff in Q2 as [i [E I]]. destruct (S i I) as [j [J1 J2]]. apply in_map_iff. exists j. split; [congruence|exact J1]. Qed.
Print Assumptions C37_more_daughters_more_reactions.
Definition x_act : actdata := mkact IsoData.shipped [(s2l "99c", [LibModel.mkreac (s2l "Fe56") 103 (s2l "Mn56"); LibModel.mkreac (s2l "Fe56") 102 (s2l "Fe57"); LibModel.mkreac (s2l "Co59") 102 (s2l "Co60m")])].
Definition x_mats : list material := [mkmat (s2l "m1") [mk_submat [zd 1 "27" "059" "31c"; zd 1 "26" "056" "31c"]]; mkmat (s2l "m2") [mk_submat [zd 1 "26" "056" "31c"; zd 1 "8" "016" "31c"]]].
Definition x_irr : ifile := mkifile 1 [mkirr (s2l "25056") [] [[]] None; mkirr (s2l "27060900") [] [[]] None] None default_fmt.
Example C37_witness : get_reaction_file x_act (s2l "99c") (Some x_irr) x_mats =
  Ok [D1SModel.mkreac (s2l "26056.99c") (s2l "103") (s2l "25056") (Some (s2l "Fe-56 -> Mn-56")); D1SModel.mkreac (s2l "27059.99c") (s2l "102") (s2l "27060900") (Some (s2l "Co-59 -> Co-60m"))].
Proof. vm_compute. reflexivity. Qed.

(** ** C52 *)
(** smart_translate: every zaid of the materials whose number is a parent of the reaction file is
    translated to the activation library, every other one to the transport library (after a first
    translation of everything to the transport library with fix_natural_zaid; what a
    translation to a library does is C22); the reaction file keeps its reactions under the activation
    library, and the PIKMT card lists its parents *)
Theorem C52_two_libraries : forall E act trans natural s s' rs, act <> trans -> s_reacs s = Some rs -> smart_translate E act trans natural s = (s', None) ->
  (exists mats nl,
     (if natural then Forall2 (fun m m' => mt_name m' = mt_name m /\ Forall2 (fun a b => translate_sub E (ToLib trans) a = Ok b) (mt_subs m) (mt_subs m')) (s_mats s) mats else mats = s_mats s) /\
     Forall2 (fun m m' => mt_name m' = mt_name m /\ Forall2 (fun a b => translate_sub E nl a = Ok b) (mt_subs m) (mt_subs m')) mats (s_mats s') /\
     forall z, (exists m a, In m mats /\ In a (mt_subs m) /\ In z (s_zaids a)) ->
       ((exists r, In r rs /\ before_dot (x_parent r) = z_elem z ++ z_iso z) -> target nl z act) /\
       (~ (exists r, In r rs /\ before_dot (x_parent r) = z_elem z ++ z_iso z) -> target nl z trans)) /\
  s_reacs s' = Some (map (reac_change_lib act) rs) /\
  s_data s' = add_PIKMT_card (s_reacs s') (s_data s).
Proof. intros E act trans natural s s' rs NE R H. unfold smart_translate in H. rewrite R in H.
  destruct (if natural then translate_list E (ToLib trans) (s_mats s) else (s_mats s, None)) as [mats [e|]] eqn:N; [discriminate H|].
  assert (N' : if natural then Forall2 (fun m m' => mt_name m' = mt_name m /\ Forall2 (fun a b => translate_sub E (ToLib trans) a = Ok b) (mt_subs m) (mt_subs m')) (s_mats s) mats else mats = s_mats s)
    by (destruct natural; [now apply C22_lists_are_translated_one_by_one|congruence]). clear N.
  set (active := map (fun r => before_dot (x_parent r)) rs) in *. set (transp := transport_zaids active mats) in *.
  destruct (translate_list E (smart_newlib act trans active transp) mats) as [ms' o] eqn:T. injection H as <- ->. cbn [s_mats s_reacs s_data]. split; [|split; reflexivity].
  exists mats, (smart_newlib act trans active transp). split; [exact N'|]. split; [now apply C22_lists_are_translated_one_by_one|]. intros z Z.
  assert (DS : smart_newlib act trans active transp = ByZaid [(act, active); (trans, transp)]). { unfold smart_newlib. cbn [dset]. destruct (str_eqb trans act) eqn:Q; [apply str_eqb_eq in Q; congruence|reflexivity]. } rewrite DS.
  assert (A : (exists r, In r rs /\ before_dot (x_parent r) = z_elem z ++ z_iso z) <-> In (z_num z) active). { unfold active, z_num. rewrite in_map_iff. split; intros [r [P Q]]; exists r; auto. }
  rewrite A. split; intros Q.
  - cbn [target]. exists [], active, [(trans, transp)]. split; [reflexivity|]. split; [exact Q|]. intros ? ? [].
  - cbn [target]. exists [(act, active)], transp, []. split; [reflexivity|]. split; [|intros l' zs' [X|[]]; injection X as <- <-; exact Q].
    assert (Zin : In z (zaids_of mats)) by (apply zaids_in; exact Z). unfold transp, transport_zaids. clear - Zin Q.
    assert (G : forall zs acc, (In (z_num z) acc \/ In z zs) -> In (z_num z) (fold_left (fun acc z => if negb (memb str_eqb (z_num z) active) && negb (memb str_eqb (z_num z) acc) then acc ++ [z_num z] else acc) zs acc)).
    { induction zs as [|y zs IH]; intros acc I; cbn [fold_left]; [destruct I as [I|[]]; exact I|]. apply IH. destruct I as [I|[->|I]]; [|left|right; exact I].
      - left. destruct (negb (memb str_eqb (z_num y) active) && negb (memb str_eqb (z_num y) acc)); [apply in_or_app; now left|exact I].
      - assert (F : memb str_eqb (z_num z) active = false) by (destruct (memb str_eqb (z_num z) active) eqn:F; [apply memb_str in F; contradiction|reflexivity]). rewrite F. cbn [negb andb]. destruct (memb str_eqb (z_num z) acc) eqn:F2; cbn [negb]; [now apply memb_str|apply in_or_app; right; now left]. }
    apply G. now right. Qed.
Print Assumptions C52_two_libraries.
(** with the same library for both, the dictionary keeps only one of the two lists: the first
    submaterial with a parent raises ValueError, when the reaction file and PIKMT are already changed *)
Theorem C52_same_library_refuted : forall E lib rs m sub z rest data r, In r rs -> before_dot (x_parent r) = z_num z ->
  s_zaids sub = z :: rest ->
  let s := mkd1s [mkmat m [sub]] (Some rs) data in
  exists s', smart_translate E lib lib false s = (s', Some ValueError) /\ s_mats s' = s_mats s /\ s_reacs s' = Some (map (reac_change_lib lib) rs) /\ s_data s' = add_PIKMT_card (s_reacs s') data.
Proof. intros E lib rs m sub z rest data r I P S s. unfold s, smart_translate. cbn [s_reacs s_mats s_data]. set (active := map (fun r => before_dot (x_parent r)) rs). set (transp := transport_zaids active _).
  assert (PK : pick_lib (smart_newlib lib lib active transp) z = Err ValueError).
  { unfold smart_newlib. cbn [dset]. rewrite str_eqb_refl. cbn [pick_lib find snd].
    assert (A : In (z_num z) active) by (unfold active; rewrite <- P; apply in_map_iff; exists r; auto).
    destruct (memb str_eqb (z_num z) transp) eqn:M; [|reflexivity]. exfalso. apply memb_str in M. unfold transp, transport_zaids in M. revert M. generalize (zaids_of [mkmat m [sub]]). clear - A. intros zs.
    assert (G : forall acc, ~ In (z_num z) acc -> ~ In (z_num z) (fold_left (fun acc z => if negb (memb str_eqb (z_num z) active) && negb (memb str_eqb (z_num z) acc) then acc ++ [z_num z] else acc) zs acc)).
    { induction zs as [|y zs IH]; intros acc N; [exact N|]. cbn [fold_left]. apply IH. destruct (negb (memb str_eqb (z_num y) active) && negb (memb str_eqb (z_num y) acc)) eqn:B; [|exact N]. intros Q. apply in_app_or in Q as [Q|[Q|[]]]; [contradiction|]. rewrite Q in B. apply memb_str in A. rewrite A in B. discriminate. }
    apply G. intros []. }
  cbn [translate_list translate_mat translate_subs mt_subs mt_name]. unfold translate_mat. cbn [translate_subs mt_subs]. unfold translate_sub. rewrite S. cbn [mapM]. unfold translate_zaid at 1, zaid_translation. rewrite PK. cbn [bind]. eexists. split; [reflexivity|]. cbn [s_mats s_reacs s_data mt_name]. auto. Qed.
Print Assumptions C52_same_library_refuted.
Theorem C52_needs_a_reaction_file : forall E act trans b ms data, smart_translate E act trans b (mkd1s ms None data) = (mkd1s ms None data, Some ValueError).
Proof. reflexivity. Qed.
Print Assumptions C52_needs_a_reaction_file.
Example C52_witness : exists s', smart_translate denv (s2l "99c") (s2l "31c") false (mkd1s [mkmat (s2l "m1") [mk_submat [zd 1 "26" "056" "21c"; zd 1 "1" "001" "21c"]]] (Some [D1SModel.mkreac (s2l "1001.98c") (s2l "102") (s2l "1002") None]) (mkD [] [])) = (s', None) /\
  s_reacs s' = Some [D1SModel.mkreac (s2l "1001.99c") (s2l "102") (s2l "1002") None].
Proof. eexists. split; vm_compute; reflexivity. Qed.
