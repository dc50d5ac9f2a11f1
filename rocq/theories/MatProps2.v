(** C24-C27, C48: fraction switching, densities, mixtures and material lists. *)
From Coq Require Import Lia Lqa.
From Verif Require Import PyBase PyLemmas PyStr PyStrLemmas PyText WWTextProofs D1SProofs2 LibModel LibSpec LibProofs LibProofs2 LibProofs3 IsoData LibProps MatModel MatSpec MatProofs MatProofs2 MatProofs3 MatProofs4 MatProps.
Open Scope nat_scope.

(** ** C24 switch_fraction *)
(** from atom to mass fractions: -x_i A_i / sum x_j A_j, adding up to -1; the elements written
    follow the new fractions *)
Theorem C24_atom_to_mass : forall E m, has_masses E m -> atom_material m ->
  exists m' r, switch_inplace Mass E m = Ok (m', r) /\
    refrac (fun z => - (z_frac z * massof E z) / sum_over (fun y => z_frac y * massof E y) m)%Q m m' /\
    mass_material m' /\ (tot_fraction m' == -1)%Q /\ Forall consistent (mt_subs m').
Proof. intros E m H A. eexists. eexists. split; [apply inplace_mass; assumption|]. split; [apply refrac_rebuild; intros; reflexivity|].
  split; [now apply switched_mass|]. split; [apply tot_fr_mass; pose proof (norm_mass_pos E m H A); lra|]. unfold rebuild. cbn [mt_subs]. rewrite Forall_map. apply Forall_forall. reflexivity. Qed.
Print Assumptions C24_atom_to_mass.
(** from mass to atom fractions: (w_i / A_i) / sum (w_j / A_j), adding up to 1 *)
Theorem C24_mass_to_atom : forall E m, has_masses E m -> mass_material m ->
  exists m' r, switch_inplace Atom E m = Ok (m', r) /\
    refrac (fun z => (z_frac z / massof E z) / sum_over (fun y => z_frac y / massof E y) m)%Q m m' /\
    atom_material m' /\ (tot_fraction m' == 1)%Q /\ Forall consistent (mt_subs m').
Proof. intros E m H A. pose proof (norm_atom_pos E m H A) as N. eexists. eexists. split; [apply inplace_atom; assumption|]. split.
  { apply refrac_rebuild. intros z Hz. pose proof (norm_atom_eq E m H) as Q. rewrite Q. unfold fr. cbn [wt]. pose proof (massof_pos E m z H Hz). field. split; lra. }
  split; [now apply switched_atom|]. split; [apply tot_fr_atom; lra|]. unfold rebuild. cbn [mt_subs]. rewrite Forall_map. apply Forall_forall. reflexivity. Qed.
Print Assumptions C24_mass_to_atom.
(** there and back: the original fractions, normalised *)
Theorem C24_round_trip_from_atom : forall E m m1 r1, has_masses E m -> atom_material m -> switch_inplace Mass E m = Ok (m1, r1) ->
  exists m2 r2, switch_inplace Atom E m1 = Ok (m2, r2) /\ refrac (fun z => z_frac z / tot_fraction m)%Q m m2.
Proof. intros E m m1 r1 H A S. rewrite (inplace_mass E m H A) in S. injection S as <- _. eexists. eexists. split; [apply inplace_atom; [now apply has_masses_rebuild|now apply switched_mass]|].
  rewrite rebuild_rebuild. apply refrac_rebuild. intros z Hz. now apply atom_of_mass. Qed.
Print Assumptions C24_round_trip_from_atom.
Theorem C24_round_trip_from_mass : forall E m m1 r1, has_masses E m -> mass_material m -> switch_inplace Atom E m = Ok (m1, r1) ->
  exists m2 r2, switch_inplace Mass E m1 = Ok (m2, r2) /\ refrac (fun z => - (z_frac z / tot_fraction m))%Q m m2.
Proof. intros E m m1 r1 H A S. rewrite (inplace_atom E m H A) in S. injection S as <- _. eexists. eexists. split; [apply inplace_mass; [now apply has_masses_rebuild|now apply switched_atom]|].
  rewrite rebuild_rebuild. apply refrac_rebuild. intros z Hz. now apply mass_of_atom. Qed.
Print Assumptions C24_round_trip_from_mass.
(** inplace=False returns the submaterials that inplace=True would put in the material *)
Theorem C24_copy_and_inplace_agree : forall t E m m' r, switch_inplace t E m = Ok (m', r) -> switch_copy t E m = Ok (mt_subs m').
Proof. intros t E m m' r. unfold switch_inplace, switch_copy. destruct (must_switch t (tot_fraction m)).
  - destruct (switch_subs t E m) as [subs|e]; cbn [bind]; [|discriminate]. intros H. injection H as <- _. reflexivity.
  - intros H. injection H as <- _. reflexivity. Qed.
Print Assumptions C24_copy_and_inplace_agree.
(** an already switched material is left exactly as it is - so a card whose fractions do not add
    up to 1 keeps them: the absolute values of the result need not add up to 1 *)
Theorem C24_already_switched_is_untouched : forall E m,
  ((0 <= tot_fraction m)%Q -> switch_inplace Atom E m = Ok (m, mt_subs m)) /\ ((tot_fraction m <= 0)%Q -> switch_inplace Mass E m = Ok (m, mt_subs m)).
Proof. intros E m. unfold switch_inplace. split; intros H; [rewrite no_must_atom by exact H|rewrite no_must_mass by exact H]; reflexivity. Qed.
Print Assumptions C24_already_switched_is_untouched.
Theorem C24_not_normalised_refuted : exists E m m' r, has_masses E m /\ atom_material m /\ switch_inplace Atom E m = Ok (m', r) /\ ~ (tot_fraction m' == 1)%Q.
Proof. exists denv, (mkmat (s2l "m1") [mk_submat [zd 2 "1" "001" "31c"; zd 1 "8" "016" "31c"]]). eexists. eexists.
  split; [|split; [|split; [vm_compute; reflexivity|vm_compute; discriminate]]].
  - intros z [<-|[<-|[]]]; eexists; (split; [vm_compute; reflexivity|vm_compute; reflexivity]).
  - split; [intros z [<-|[<-|[]]]; vm_compute; discriminate|vm_compute; reflexivity]. Qed.
Print Assumptions C24_not_normalised_refuted.
(** and the list returned by an in-place switch holds submaterials without any zaid *)
Theorem C24_inplace_returns_empty_submaterials_refuted : forall t E m m' r, must_switch t (tot_fraction m) = true ->
  switch_inplace t E m = Ok (m', r) -> length r = length (mt_subs m') /\ forall s, In s r -> s_zaids s = [] /\ shown s = [].
Proof. intros t E m m' r M. unfold switch_inplace. rewrite M. destruct (switch_subs t E m) as [subs|e]; cbn [bind]; [|discriminate]. intros H. injection H as <- <-. cbn [mt_subs].
  split; [apply map_length|]. intros s Hs. apply in_map_iff in Hs. destruct Hs as [_ [<- _]]. split; reflexivity. Qed.
Print Assumptions C24_inplace_returns_empty_submaterials_refuted.

(** ** C25 densities: rho = n * A / N_A with A the mean atomic mass *)
Definition mean_mass (E : matenv) (m : material) (a : Q) : Prop :=
  (atom_material m /\ (a == atom_mean_mass E m)%Q) \/ (mass_material m /\ (a == mass_mean_mass E m)%Q).
Theorem C25_tad_and_density_are_physical : forall nav E x m a, NoDup (map r_idx (l_iso (m_lib E))) -> wf_material m -> tabulated E m -> (0 < nav)%Q ->
  mean_mass E m a ->
  (exists m1 t, get_tad nav E x m = Ok (m1, t) /\ (t == x / a * nav)%Q) /\
  (exists m1 d, get_density nav E x m = Ok (m1, d) /\ (d == x / nav * a)%Q).
Proof. intros nav E x m a N W T Hn MM. destruct (tab_masses E m N W T) as [H TM]. destruct MM as [[A Ea]|[A Ea]].
  - destruct (get_tad_atom nav E x m H TM A) as [t [G1 G2]]. destruct (get_density_atom nav E x m H TM A) as [d [D1 D2]].
    split; [exists m, t|eexists; exists d]; (split; [eassumption|]); rewrite Ea; assumption.
  - destruct (get_tad_mass nav E x m H TM A) as [t [G1 G2]]. destruct (get_density_mass nav E x m H TM A) as [d [D1 D2]].
    split; [eexists; exists t|exists m, d]; (split; [eassumption|]); rewrite Ea; assumption. Qed.
Print Assumptions C25_tad_and_density_are_physical.
(** the two calls are inverse of each other, in either order, on the same object *)
Theorem C25_density_of_tad : forall nav E d m m1 t, NoDup (map r_idx (l_iso (m_lib E))) -> wf_material m -> tabulated E m -> (0 < nav)%Q ->
  atom_material m \/ mass_material m -> get_tad nav E d m = Ok (m1, t) -> exists m2 d', get_density nav E t m1 = Ok (m2, d') /\ (d' == d)%Q.
Proof. intros nav E d m m1 t N W T Hn A G. destruct (tab_masses E m N W T) as [H TM]. destruct A as [A|A].
  - destruct (get_tad_atom nav E d m H TM A) as [t' [G1 G2]]. rewrite G in G1. injection G1 as -> ->. destruct (get_density_atom nav E t' m H TM A) as [d' [D1 D2]].
    eexists. exists d'. split; [exact D1|]. rewrite D2, G2. pose proof (atom_mean_pos E m H A). field. split; lra.
  - destruct (get_tad_mass nav E d m H TM A) as [t' [G1 G2]]. rewrite G in G1. injection G1 as -> ->.
    pose proof (switched_atom E m H A) as A1. destruct (get_density_atom nav E t' (rebuild (fr Atom E m) m) (has_masses_rebuild _ _ _ H) (table_rebuild _ _ _ TM) A1) as [d' [D1 D2]].
    eexists. exists d'. split; [exact D1|]. rewrite D2, G2, mean_mass_to_atom by assumption. pose proof (atom_mean_pos E _ (has_masses_rebuild _ (fr Atom E m) _ H) A1) as P. rewrite mean_mass_to_atom in P by assumption. field. split; lra. Qed.
Print Assumptions C25_density_of_tad.
Theorem C25_tad_of_density : forall nav E t m m1 d, NoDup (map r_idx (l_iso (m_lib E))) -> wf_material m -> tabulated E m -> (0 < nav)%Q ->
  atom_material m \/ mass_material m -> get_density nav E t m = Ok (m1, d) -> exists m2 t', get_tad nav E d m1 = Ok (m2, t') /\ (t' == t)%Q.
Proof. intros nav E t m m1 d N W T Hn A G. destruct (tab_masses E m N W T) as [H TM]. destruct A as [A|A].
  - destruct (get_density_atom nav E t m H TM A) as [d' [G1 G2]]. rewrite G in G1. injection G1 as -> ->.
    pose proof (switched_mass E m H A) as A1. destruct (get_tad_mass nav E d' (rebuild (fr Mass E m) m) (has_masses_rebuild _ _ _ H) (table_rebuild _ _ _ TM) A1) as [t' [D1 D2]].
    eexists. exists t'. split; [exact D1|]. rewrite D2, G2, mean_mass_to_mass by assumption. pose proof (atom_mean_pos E m H A). field. split; lra.
  - destruct (get_density_mass nav E t m H TM A) as [d' [G1 G2]]. rewrite G in G1. injection G1 as -> ->. destruct (get_tad_mass nav E d' m H TM A) as [t' [D1 D2]].
    eexists. exists t'. split; [exact D1|]. rewrite D2, G2. pose proof (atom_mean_pos E _ (has_masses_rebuild _ (fr Atom E m) _ H) (switched_atom E m H A)) as P. rewrite mean_mass_to_atom in P by assumption. field. split; lra. Qed.
Print Assumptions C25_tad_of_density.
(** The calls change the material: get_tad leaves atom fractions, get_density mass fractions. *)
Theorem C25_query_changes_the_material_refuted :
  (forall nav E d m m1 t, NoDup (map r_idx (l_iso (m_lib E))) -> wf_material m -> tabulated E m -> mass_material m -> get_tad nav E d m = Ok (m1, t) -> m1 <> m /\ atom_material m1) /\
  (forall nav E t m m1 d, NoDup (map r_idx (l_iso (m_lib E))) -> wf_material m -> tabulated E m -> atom_material m -> get_density nav E t m = Ok (m1, d) -> m1 <> m /\ mass_material m1).
Proof. split; intros nav E x m m1 y N W T A G; destruct (tab_masses E m N W T) as [H TM].
  - destruct (get_tad_mass nav E x m H TM A) as [t [G1 _]]. rewrite G in G1. injection G1 as -> _. pose proof (switched_atom E m H A) as A1. split; [|exact A1]. intros Q. rewrite Q in A1. destruct A, A1. lra.
  - destruct (get_density_atom nav E x m H TM A) as [t [G1 _]]. rewrite G in G1. injection G1 as -> _. pose proof (switched_mass E m H A) as A1. split; [|exact A1]. intros Q. rewrite Q in A1. destruct A, A1. lra. Qed.
Print Assumptions C25_query_changes_the_material_refuted.
(** and natural elements, which switch_fraction accepts, raise KeyError here *)
Theorem C25_natural_element_raises_refuted : exists E m, wf_material m /\ has_masses E m /\ atom_material m /\
  (forall nav d, get_tad nav E d m = Err KeyError) /\ forall nav t, get_density nav E t m = Err KeyError.
Proof. exists denv, (mkmat (s2l "m1") [mk_submat [zd 1 "6" "000" "31c"]]). split; [|split; [|split; [|split]]].
  - constructor; [|constructor]. repeat split; intros Q; vm_compute in Q; repeat (destruct Q as [Q|Q]; [discriminate|]); exact Q.
  - intros z [<-|[]]. eexists. split; vm_compute; reflexivity.
  - split; [intros z [<-|[]]; vm_compute; discriminate|vm_compute; reflexivity].
  - intros nav d. vm_compute. reflexivity.
  - intros nav t. vm_compute. reflexivity. Qed.
Print Assumptions C25_natural_element_raises_refuted.

(** ** C48 atom densities *)
(** for a mass-fraction card N_i = rho * N_A * w_i / A_i ... *)
Theorem C48_atom_densities_from_mass_fractions : forall nav E d m, NoDup (map r_idx (l_iso (m_lib E))) -> wf_material m -> tabulated E m -> mass_material m ->
  exists m', fractions_to_atom_densities nav E d m = Ok m' /\ refrac (fun z => d * nav * (z_frac z / tot_fraction m) / massof E z)%Q m m'.
Proof. intros nav E d m N W T A. destruct (tab_masses E m N W T) as [H TM]. now apply f2ad_mass. Qed.
Print Assumptions C48_atom_densities_from_mass_fractions.
(** ... and for an atom-fraction card N_i = x_i * rho * N_A / A_mean *)
Theorem C48_atom_densities_from_atom_fractions : forall nav E d m, NoDup (map r_idx (l_iso (m_lib E))) -> wf_material m -> tabulated E m -> atom_material m ->
  exists m', fractions_to_atom_densities nav E d m = Ok m' /\ refrac (fun z => z_frac z / tot_fraction m * (d * nav / atom_mean_mass E m))%Q m m'.
Proof. intros nav E d m N W T A. destruct (tab_masses E m N W T) as [H TM]. destruct (f2ad_atom nav E d m H TM A) as [m' [G [R1 R2]]]. exists m'. split; [exact G|]. split; [exact R1|].
  revert R2. apply Forall2_impl. intros s s'. apply Forall2_impl. intros z z' [Q1 Q2]. split; [exact Q1|]. rewrite Q2. pose proof (atom_mean_pos E m H A). field. split; [lra|]. destruct A. lra. Qed.
Print Assumptions C48_atom_densities_from_atom_fractions.

(** ** C26 generate_material *)
(** The new material is made of one group of submaterials per (name, percentage): the (last)
    listed material of that name after translation, switched to the requested type, in its own
    proportions, adding up to the percentage - negated for mass fractions. *)
Theorem C26_groups_have_the_requested_percentage : forall E L nms percs lib t mat_name L1 m,
  generate_material E L nms percs lib t mat_name = Ok (L1, m) ->
  exists l groups, translate_list E (ToLib lib) (ml_list L) = (l, None) /\
    Forall2 (fun np g => (exists src m1 r, last_named mt_name (upper (fst np)) l src /\ switch_inplace t E src = Ok (m1, r) /\ mixes t m1 (snd np) g) /\
                         (qsum (map z_frac (concat (map s_zaids g))) == signed t (snd np))%Q) (combine nms percs) groups /\
    all_zaids m = concat (map s_zaids (concat groups)) /\
    (tot_fraction m == signed t (qsum (map snd (combine nms percs))))%Q.
Proof. intros E L nms percs lib t mat_name L1 m H. destruct (generate_ok _ _ _ _ _ _ _ _ _ H) as [l [gs [T [_ [F ->]]]]]. exists l, gs. split; [exact T|].
  assert (F' : Forall2 (fun np g => (exists src m1 r, last_named mt_name (upper (fst np)) l src /\ switch_inplace t E src = Ok (m1, r) /\ mixes t m1 (snd np) g) /\
                         (qsum (map z_frac (concat (map s_zaids g))) == signed t (snd np))%Q) (combine nms percs) gs).
  { revert F. apply Forall2_impl. intros np g [src [m1 [r [A [B C]]]]]. split; [exists src, m1, r; auto|]. exact (mixes_total _ _ _ _ C). }
  split; [exact F'|]. split; [apply mk_material_zaids|]. unfold tot_fraction. rewrite mk_material_zaids, total_concat. clear - F'.
  transitivity (qsum (map (fun np : str * Q => signed t (snd np)) (combine nms percs))).
  - symmetry. apply qsum_Forall2. revert F'. apply Forall2_impl. intros np g [_ Q]. symmetry. exact Q.
  - destruct t; cbn [signed]; [reflexivity|]. apply (qsum_opp snd). Qed.
Print Assumptions C26_groups_have_the_requested_percentage.
(** The submaterials are those of the groups, in order (an empty first one is dropped). *)
Theorem C26_submaterials_in_order : forall E L nms percs lib t mat_name L1 m,
  generate_material E L nms percs lib t mat_name = Ok (L1, m) ->
  mt_name m = (if valid_mat_name mat_name then mat_name else s2l "M1") /\
  exists groups, length groups = Nat.min (length nms) (length percs) /\
   (mt_subs m = concat groups \/ exists s, concat groups = s :: mt_subs m /\ s_zaids s = []).
Proof. intros E L nms percs lib t mat_name L1 m H. destruct (generate_ok _ _ _ _ _ _ _ _ _ H) as [l [gs [T [_ [F ->]]]]]. split; [reflexivity|]. exists gs. split.
  - apply Forall2_length in F. rewrite <- F. apply combine_length.
  - apply mk_material_subs. Qed.
Print Assumptions C26_submaterials_in_order.
(** The source list is not left unchanged: all its materials are translated to the new library,
    also those not used in the mixture. *)
Theorem C26_list_is_translated : forall E L nms percs lib t mat_name L1 m,
  generate_material E L nms percs lib t mat_name = Ok (L1, m) ->
  exists l, translate_list E (ToLib lib) (ml_list L) = (l, None) /\ L1 = ml_new mt_name l.
Proof. intros E L nms percs lib t mat_name L1 m H. destruct (generate_ok _ _ _ _ _ _ _ _ _ H) as [l [gs [T [E1 _]]]]. eauto. Qed.
Print Assumptions C26_list_is_translated.
Definition water : material := mkmat (s2l "m1") [mk_submat [zd 2 "1" "001" "21c"; zd 1 "6" "000" "21c"]].
Definition lith : material := mkmat (s2l "M2") [mk_submat [zd (-1) "3" "007" "21c"]].
Theorem C26_sources_unchanged_refuted : exists E L names percs lib t n L1 m, generate_material E L names percs lib t n = Ok (L1, m) /\ ml_list L1 <> ml_list L.
Proof. exists denv, (ml_new mt_name [water; lith]), [s2l "M1"], [1%Q], (s2l "31c"), Atom, (s2l "M5"). eexists. eexists. split; [vm_compute; reflexivity|].
  intros Q. apply (f_equal (map (fun m => map z_lib (all_zaids m)))) in Q. vm_compute in Q. discriminate. Qed.
Print Assumptions C26_sources_unchanged_refuted.
Example C26_witness : exists L1 m, generate_material denv (ml_new mt_name [water; lith]) [s2l "m2"; s2l "M1"] [3#10; 7#10]%Q (s2l "31c") Mass (s2l "mymat") = Ok (L1, m) /\
  mt_name m = s2l "M1" /\ (tot_fraction m == -1)%Q /\ length (all_zaids m) = 3.
Proof. eexists. eexists. split; [vm_compute; reflexivity|]. split; [vm_compute; reflexivity|]. split; vm_compute; reflexivity. Qed.

(** ** C27 MatCardsList *)
(** After any history, looking a name up (in any case) returns the last listed material of that
    name; KeyError exactly when there is none. *)
Theorem C27_lookup_agrees_with_the_list : forall (A : Type) (name : A -> str) (same : A -> A -> bool) l0 ops key,
  let L := fold_left (do_op name same) ops (ml_new name l0) in
  (forall m, ml_get L key = Ok m <-> last_named name key (ml_list L) m) /\
  (ml_get L key = Err KeyError <-> ~ In (upper key) (names name (ml_list L))) /\
  NoDup (map fst (ml_dic L)) /\ (forall k, In k (map fst (ml_dic L)) <-> In k (names name (ml_list L))).
Proof. intros A name same l0 ops key L. assert (S : synced name L) by (apply ops_synced, new_synced).
  split; [intros m; now apply get_ok|]. split; [now apply get_err|]. unfold synced in S. assert (K : map fst (ml_dic L) = firsts (names name (ml_list L))) by (rewrite S; apply compute_keys). rewrite K. split; [apply firsts_aux_nodup|]. intros k. try rewrite K. split; intros Q; [apply firsts_aux_in in Q; apply Q|apply firsts_aux_in; split; [exact Q|intros []]]. Qed.
Print Assumptions C27_lookup_agrees_with_the_list.
(** the effect of each operation on the list *)
Theorem C27_operations : forall (A : Type) (name : A -> str) (same : A -> A -> bool) l0 ops,
  let L := fold_left (do_op name same) ops (ml_new name l0) in
  (forall m, ml_list (ml_append name L m) = ml_list L ++ [m]) /\
  (forall ms, exists new, ml_list (ml_extend name L ms) = ml_list L ++ new /\
              forall m, In m new <-> In m ms /\ ~ In (upper (name m)) (names name (ml_list L))) /\
  (forall m, (snd (ml_remove name same L m) = Some ValueError <-> (forall x, In x (ml_list L) -> same m x = false)) /\
             (snd (ml_remove name same L m) = None -> exists a x b, ml_list L = a ++ x :: b /\ same m x = true /\ (forall y, In y a -> same m y = false) /\
                ml_list (fst (ml_remove name same L m)) = a ++ b)).
Proof. intros A name same l0 ops L. assert (S : synced name L) by (apply ops_synced, new_synced). split; [reflexivity|]. split.
  - intros ms. destruct (extend_ok name L ms S) as [new [E [H _]]]. exists new. auto.
  - intros m. unfold ml_remove. split.
    + destruct (existsb (same m) (ml_list L)) eqn:E; cbn [snd].
      * split; [discriminate|]. intros Q. apply existsb_exists in E. destruct E as [x [Hx Ex]]. rewrite (Q x Hx) in Ex. discriminate.
      * split; [|reflexivity]. intros _ x Hx. destruct (same m x) eqn:Sx; [|reflexivity]. exfalso. assert (existsb (same m) (ml_list L) = true) by (apply existsb_exists; eauto). congruence.
    + destruct (existsb (same m) (ml_list L)) eqn:E; [|discriminate]. intros _. cbn [fst ml_new ml_list]. clear S. induction (ml_list L) as [|x l IH]; [discriminate|]. cbn [existsb remove_first] in *. destruct (same m x) eqn:Sx.
      * exists [], x, l. split; [reflexivity|]. split; [exact Sx|]. split; [intros y []|reflexivity].
      * destruct (IH E) as [a [y [b [-> [Sy [Ha ->]]]]]]. exists (x :: a), y, b. split; [reflexivity|]. split; [exact Sy|]. split; [|reflexivity]. intros w [<-|Hw]; [exact Sx|now apply Ha]. Qed.
Print Assumptions C27_operations.
(** names stay unique as long as append is given fresh names and extend a list of distinct names *)
Definition polite {A} (name : A -> str) (L : matlist A) (o : listop A) : Prop :=
  match o with LAppend m => ~ In (upper (name m)) (names name (ml_list L)) | LExtend ms => NoDup (names name ms) | LRemove _ => True end.
Fixpoint polite_run {A} (name : A -> str) (same : A -> A -> bool) (L : matlist A) (ops : list (listop A)) : Prop :=
  match ops with [] => True | o :: ops' => polite name L o /\ polite_run name same (do_op name same L o) ops' end.
Theorem C27_unique_names : forall (A : Type) (name : A -> str) (same : A -> A -> bool) l0 ops, NoDup (names name l0) ->
  polite_run name same (ml_new name l0) ops -> NoDup (names name (ml_list (fold_left (do_op name same) ops (ml_new name l0)))).
Proof. intros A name same l0 ops N P. assert (S : synced name (ml_new name l0)) by apply new_synced. change l0 with (ml_list (ml_new name l0)) in N. revert N P S. generalize (ml_new name l0).
  induction ops as [|o ops IH]; intros L N P S; [exact N|]. cbn [fold_left]. destruct P as [Po P]. apply IH; [|exact P|now apply op_synced]. destruct o as [m|ms|m]; cbn [do_op polite] in *.
  - unfold ml_append, ml_new. cbn [ml_list]. unfold names in *. rewrite map_app. apply nodup_app; [exact N|constructor; [intros []|constructor]|]. intros x Hx [<-|[]]. contradiction.
  - destruct (extend_ok name L ms S) as [new [-> [H1 H2]]]. unfold names in *. rewrite map_app. apply nodup_app; [exact N|now apply H2|]. intros x Hx Q. apply in_map_iff in Q. destruct Q as [y [<- Hy]]. apply H1 in Hy. tauto.
  - unfold ml_remove. destruct (existsb (same m) (ml_list L)); cbn [fst]; [|exact N]. unfold ml_new. cbn [ml_list]. now apply remove_first_names. Qed.
Print Assumptions C27_unique_names.
(** but append accepts a name already present, and extend accepts a name twice in its argument:
    the first material of that name can then no longer be reached by name *)
Theorem C27_duplicates_are_accepted_refuted : forall (A : Type) (name : A -> str) (L : matlist A) (m1 m2 : A), upper (name m1) = upper (name m2) ->
  ~ In (upper (name m1)) (names name (ml_list L)) -> ml_dic L = compute_dic name (ml_list L) ->
  (let L' := ml_append name (ml_append name L m1) m2 in ~ NoDup (names name (ml_list L')) /\ ml_get L' (name m1) = Ok m2) /\
  (let L' := ml_extend name L [m1; m2] in ~ NoDup (names name (ml_list L')) /\ ml_get L' (name m1) = Ok m2).
Proof. intros A name L m1 m2 E F S.
  assert (G : forall l, ~ NoDup (names name (l ++ [m1; m2])) /\ ml_get (ml_new name (l ++ [m1; m2])) (name m1) = Ok m2).
  { intros l. split.
    - unfold names. rewrite map_app. cbn [map]. intros Q. apply NoDup_remove_2 in Q. apply Q. rewrite E. apply in_or_app. right. left. reflexivity.
    - apply (get_ok name); [apply new_synced|]. exists (l ++ [m1]), []. cbn [ml_new ml_list]. rewrite <- app_assoc. split; [reflexivity|]. split; [congruence|intros ? []]. }
  split; cbv zeta.
  - unfold ml_append. cbn [ml_new ml_list]. rewrite <- app_assoc. apply G.
  - unfold ml_extend. rewrite extend_list. cbn [filter]. assert (D : dmem str_eqb (upper (name m1)) (ml_dic L) = false) by (destruct (dmem _ _ _) eqn:Q; [apply (dmem_iff name L _ S) in Q; contradiction|reflexivity]).
    rewrite <- E, D. cbn [negb]. apply G. Qed.
Print Assumptions C27_duplicates_are_accepted_refuted.

Example C24_witness : has_masses denv water /\ atom_material water /\ mass_material lith /\ wf_material water.
Proof. split; [|split; [|split]].
  - intros z [<-|[<-|[]]]; eexists; (split; [vm_compute; reflexivity|vm_compute; reflexivity]).
  - split; [intros z [<-|[<-|[]]]; vm_compute; discriminate|vm_compute; reflexivity].
  - split; [intros z [<-|[]]; vm_compute; discriminate|vm_compute; reflexivity].
  - repeat constructor; intros Q; vm_compute in Q; repeat (destruct Q as [Q|Q]; [discriminate|]); exact Q. Qed.
Example C25_witness : NoDup (map r_idx (l_iso (m_lib denv))) /\ wf_material lith /\ tabulated denv lith /\ mass_material lith.
Proof. split; [exact (proj2 C21_rows_are_well_formed)|]. split; [|split].
  - repeat constructor; intros Q; vm_compute in Q; repeat (destruct Q as [Q|Q]; [discriminate|]); exact Q.
  - intros z [<-|[]]. destruct (find (fun r => str_eqb (r_idx r) (s2l "3007")) shipped) as [r|] eqn:F; [|vm_compute in F; discriminate]. exists r. pose proof (find_some _ _ F) as [F1 F2].
    split; [exact F1|]. split; [now apply str_eqb_eq|]. exact (proj2 (C21_abundances_are_fractions r F1)).
  - split; [intros z [<-|[]]; vm_compute; discriminate|vm_compute; reflexivity]. Qed.
Example C27_witness : let L := fold_left (do_op mt_name (fun a b => str_eqb (mt_name a) (mt_name b))) [LAppend lith; LRemove water; LExtend [water; lith]] (ml_new mt_name [water]) in
  ml_get L (s2l "m2") = Ok lith /\ map mt_name (ml_list L) = [s2l "M2"; s2l "m1"].
Proof. vm_compute. split; reflexivity. Qed.
