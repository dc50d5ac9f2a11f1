(** The exported grid, cell by cell. *)
From Verif Require Import PyBase PyLemmas WWModel WWSpec WWProofs WWProofs2 WWProofs3 WWReal WWProofs4 PyStr PyStrLemmas PyFmtLemmas.
Open Scope nat_scope.

Lemma nth_error_concat {X} n (l : list (list X)) q r : Forall (fun x => List.length x = n) l -> r < n ->
  nth_error (List.concat l) (q * n + r) = match nth_error l q with Some x => nth_error x r | None => None end.
Proof. intros H Hr. revert q. induction H as [|x l Hx H IH]; intros q; simpl.
  - destruct q; destruct (_ + r); reflexivity.
  - destruct q as [|q]; simpl.
    + rewrite nth_error_app1 by lia. reflexivity.
    + rewrite nth_error_app2 by lia. rewrite <- IH. f_equal. lia. Qed.
Lemma flatten3_voxel {A} nz ny nx (a : arr A) k j i : rect nz ny nx a -> j < ny -> i < nx ->
  nth_error (flatten3 a) ((k * ny + j) * nx + i) = voxel a (k, j, i).
Proof. intros [_ H] Hj Hi. unfold flatten3. rewrite nth_error_concat; [|clear -H|exact Hi].
  - rewrite nth_error_concat; [|eapply Forall_impl; [|exact H]; intros pl [E _]; exact E|exact Hj].
    unfold voxel. destruct (nth_error a k); reflexivity.
  - apply Forall_forall. intros row Hrow. apply in_concat in Hrow. destruct Hrow as [pl [Hpl Hrow]].
    rewrite Forall_forall in H. destruct (H pl Hpl) as [_ F]. rewrite Forall_forall in F. auto. Qed.

Lemma voxel_in {A} nz ny nx (a : arr A) k j i y : rect nz ny nx a -> voxel a (k, j, i) = Some y -> k < nz /\ j < ny /\ i < nx.
Proof. intros [L F] H. unfold voxel in H. destruct (nth_error a k) as [pl|] eqn:E1; [|discriminate]. destruct (nth_error pl j) as [row|] eqn:E2; [|discriminate].
  rewrite Forall_forall in F. destruct (F pl (nth_error_In _ _ E1)) as [L2 F2]. rewrite Forall_forall in F2. pose proof (F2 row (nth_error_In _ _ E2)) as L3.
  split; [rewrite <- L; apply nth_error_Some; congruence|]. split; [rewrite <- L2; apply nth_error_Some; congruence|rewrite <- L3; apply nth_error_Some; congruence]. Qed.

Lemma grid_cell {A} g nz ny nx (a : arr A) p y c : rect nz ny nx a -> voxel a p = Some y -> shown g nz ny nx p c ->
  nth_error (grid_array g a) c = Some y.
Proof. intros H Hy Hc. destruct p as [[k j] i]. destruct (voxel_in _ _ _ _ _ _ _ _ H Hy) as (Hk & Hj & Hi). destruct g as [|m]; simpl in *.
  - subst c. rewrite (flatten3_voxel nz ny nx) by assumption. exact Hy.
  - destruct Hc as [s [Hs ->]]. rewrite (flatten3_voxel ny (nz * m) nx).
    + change (voxel (prepare_cyl m a) (j, k * m + s, i) = Some y). rewrite (prepare_cyl_voxel m nz ny nx); [exact Hy|lia|exact Hs|exact H].
    + apply prepare_cyl_size; [lia|lia|lia|exact H].
    + nia.
    + exact Hi. Qed.

Lemma dset_in {K V} (eqb : K -> K -> bool) (ok : forall a b, eqb a b = true <-> a = b) k (v : V) d x : In x (dset eqb k v d) -> x = (k, v) \/ In x d.
Proof. induction d as [|[k0 v0] d IH]; simpl; [intuition|]. destruct (eqb k k0) eqn:E; simpl; [apply ok in E; subst|]; intuition. Qed.
(** shapes survive every call *)
Lemma ratios_of_rect {A} (O : ops A) w nz ny nx p e a : consistent O w -> shaped nz ny nx (vals w) ->
  arr_of (vals w) p e = Some a -> rect nz ny nx (ratios_of w p e).
Proof. intros Hc Hs E. unfold ratios_of. rewrite Hc. unfold calculate_ratios.
  pose proof (arr_of_map0 (calc_ratios O) (vals w) p e) as H. rewrite E in H. unfold arr_of in H.
  destruct (dget particle_eqb p (map_pv _ (vals w))); [|discriminate]. rewrite H. simpl. apply calc_rect. eapply shaped_arr; eauto. Qed.
Lemma dget_in_key {V} e (b : list (Q * V)) v : In (e, v) b -> exists v', dget Qeq_bool e b = Some v'.
Proof. induction b as [|[e' v'] b IH]; intros H; [destruct H|]. simpl. destruct (Qeq_bool e e') eqn:Q; [eauto|].
  destruct H as [H|H]; [|now apply IH]. injection H as -> ->. rewrite (proj2 (Qeq_bool_iff e e)) in Q by reflexivity. discriminate. Qed.
Lemma shaped_step {A} (O : ops A) pow nz ny nx w c : NoDup (dkeys (vals w)) -> consistent O w -> shaped nz ny nx (vals w) -> shaped nz ny nx (vals (ww_step O pow w c)).
Proof. intros Hd Hc Hs. destruct c; simpl.
  - unfold multiply. destruct (oeqb _ _ _); [exact Hs|]. simpl. apply shaped_map; [|exact Hs]. intros. now apply map3_rect.
  - unfold soften. destruct (oeqb _ _ _); [exact Hs|]. simpl. apply shaped_map; [|exact Hs]. intros. now apply map3_rect.
  - unfold add_particle. destruct (Nat.eqb _ _); [exact Hs|]. destruct (dget particle_eqb Neutron (vals w)) as [b|] eqn:E; [|exact Hs]. simpl.
    assert (Hb : Forall (fun ea => rect nz ny nx (snd ea)) b).
    { apply (dget_some_in particle_eqb particle_eqb_ok) in E. unfold shaped in Hs. rewrite Forall_forall in Hs. apply (Hs _ E). }
    unfold shaped in *. rewrite Forall_forall in *. intros [p b'] Hin. apply (dset_in particle_eqb particle_eqb_ok) in Hin. destruct Hin as [Hin|Hin].
    + injection Hin as -> ->. simpl. apply Forall_forall. intros ea Hea. apply in_map_iff in Hea. destruct Hea as [x [<- Hx]]. simpl. apply map3_rect. now apply Hb.
    + apply (Hs _ Hin).
  - unfold remove_particle. destruct (Nat.eqb _ _); [exact Hs|]. destruct (dget particle_eqb Neutron (vals w)) as [b|] eqn:E; [|exact Hs]. simpl.
    apply (dget_some_in particle_eqb particle_eqb_ok) in E. unfold shaped in *. rewrite Forall_forall in Hs. constructor; [apply (Hs _ E)|constructor].
  - unfold shaped, map_pv. apply Forall_map. apply Forall_forall. intros [p b] Hpb. simpl. apply Forall_map. apply Forall_forall. intros [e a] Hea. simpl.
    unfold shaped in Hs. pose proof Hs as Hs'. rewrite Forall_forall in Hs'. pose proof (Hs' _ Hpb) as F. simpl in F. rewrite Forall_forall in F.
    apply zip3_rect; [|apply (F _ Hea)]. 
    destruct (dget_in_key e b a Hea) as [a' Ha']. apply (ratios_of_rect O w nz ny nx p e a' Hc Hs).
    assert (X : dget particle_eqb p (vals w) = Some b) by exact (in_dget particle_eqb particle_eqb_ok p b (vals w) Hd Hpb).
    unfold arr_of. rewrite X. exact Ha'. Qed.

Lemma run_inv {A} (O : ops A) pow nz ny nx g v cs : standard v -> shaped nz ny nx v ->
  let w := ww_run O pow (new_ww O g v) cs in
  standard (vals w) /\ consistent O w /\ shaped nz ny nx (vals w) /\ grid_ok O w /\ ge w = g.
Proof. intros Hs Hh. cbv zeta. unfold ww_run.
  assert (H : standard (vals (new_ww O g v)) /\ consistent O (new_ww O g v) /\ shaped nz ny nx (vals (new_ww O g v)) /\ grid_ok O (new_ww O g v) /\ ge (new_ww O g v) = g).
  { split; [exact Hs|]. split; [reflexivity|]. split; [exact Hh|]. split; [apply set_values_grid, standard_nodup, Hs|reflexivity]. }
  revert H. generalize (new_ww O g v). induction cs as [|c cs IH]; intros w H; simpl; [exact H|]. apply IH. destruct H as (H1 & H2 & H3 & H4 & H5).
  split; [now apply step_standard|]. split; [now apply step_consistent|]. split; [apply shaped_step; auto; now apply standard_nodup|]. split; [now apply step_grid|].
  destruct c; simpl; unfold multiply, soften, add_particle, remove_particle;
    repeat match goal with |- context [if ?b then _ else _] => destruct b end; try exact H5; destruct (dget _ _ _); exact H5. Qed.

Lemma e2_comp a b : (a == b)%Q -> e2 a = e2 b.
Proof. intros H. unfold e2. apply qround_even_comp. now rewrite H. Qed.
Lemma dget_q_in {V} e (b : list (Q * V)) v : dget Qeq_bool e b = Some v -> exists e', (e == e')%Q /\ In (e', v) b.
Proof. induction b as [|[e' v'] b IH]; simpl; [discriminate|]. destruct (Qeq_bool e e') eqn:Q; intros H.
  - injection H as ->. exists e'. split; [now apply Qeq_bool_iff|auto].
  - destruct (IH H) as [x [A B]]. exists x. auto. Qed.

(** largest of the ratios of a voxel over the energies *)
Lemma max3_voxel (a b : arr Q) p : voxel (max3 Qops a b) p = match voxel a p, voxel b p with Some x, Some y => Some (omax Qops x y) | _, _ => None end.
Proof. unfold max3. rewrite voxel_zip3. destruct (voxel a p), (voxel b p); reflexivity. Qed.
Lemma omax_spec x y : (x <= omax Qops x y)%Q /\ (y <= omax Qops x y)%Q /\ (omax Qops x y = x \/ omax Qops x y = y).
Proof. unfold omax. cbn [oltb Qops]. destruct (Qltb_spec x y) as [H|H]; repeat split; auto using Qle_refl, Qlt_le_weak. Qed.
Lemma max_over_voxel nz ny nx (a : arr Q) l p m : Forall (rect nz ny nx) (a :: l) -> voxel (max_over Qops (a :: l)) p = Some m ->
  (forall b, In b (a :: l) -> exists x, voxel b p = Some x /\ (x <= m)%Q) /\ exists b, In b (a :: l) /\ voxel b p = Some m.
Proof. revert a. induction l as [|b l IH]; intros a HF Hm.
  - simpl in Hm. split; [intros b [<-|[]]; exists m; split; [exact Hm|apply Qle_refl]|exists a; split; [left; reflexivity|exact Hm]].
  - assert (E : max_over Qops (a :: b :: l) = max_over Qops (max3 Qops a b :: l)) by reflexivity. rewrite E in Hm. inversion HF as [|? ? Ra HF']; subst. inversion HF' as [|? ? Rb HF'']; subst.
    destruct (IH (max3 Qops a b)) as [U [c [Hc Hcm]]]; [constructor; [apply zip3_rect; assumption|assumption]|exact Hm|].
    destruct (U (max3 Qops a b) (or_introl eq_refl)) as [x [Hx Hxm]]. rewrite max3_voxel in Hx. destruct (voxel a p) as [xa|] eqn:Ea; [|discriminate]. destruct (voxel b p) as [xb|] eqn:Eb; [|discriminate].
    injection Hx as <-. destruct (omax_spec xa xb) as (O1 & O2 & O3). split.
    + intros c' [<-|[<-|Hc']]; [exists xa; split; [exact Ea|eapply Qle_trans; eauto]|exists xb; split; [exact Eb|eapply Qle_trans; eauto]|apply U; right; exact Hc'].
    + destruct Hc as [<-|Hc]; [|exists c; split; [right; right; exact Hc|exact Hcm]]. rewrite max3_voxel, Ea, Eb in Hcm. injection Hcm as <-.
      destruct O3 as [O3|O3]; rewrite O3; [exists a|exists b]; simpl; auto. Qed.

Lemma max_over_rect nz ny nx (a : arr Q) l : Forall (rect nz ny nx) (a :: l) -> rect nz ny nx (max_over Qops (a :: l)).
Proof. intros H. inversion H as [|? ? Ra HF]; subst. clear H. simpl. revert a Ra. induction HF as [|b l Hb HF IH]; intros a Ha; simpl; [exact Ha|]. apply IH. now apply zip3_rect. Qed.

Lemma grid_cells {A} (O : ops A) pow nz ny nx g v cs : standard v -> shaped nz ny nx v ->
  let w := ww_run O pow (new_ww O g v) cs in unique_labels (vals w) ->
  forall p e x y c, shown g nz ny nx x c ->
    (at_ (vals w) p e x = Some y -> exists l, dget gname_eqb (GVal p (e2 e)) (gr w) = Some l /\ nth_error l c = Some y) /\
    (at_ (rats w) p e x = Some y -> exists l, dget gname_eqb (GRatio p (e2 e)) (gr w) = Some l /\ nth_error l c = Some y).
Proof. intros Hs Hh w Hu p e x y c Hc. destruct (run_inv O pow nz ny nx g v cs Hs Hh) as (H1 & H2 & H3 & H4 & H5). fold w in H1, H2, H3, H4, H5.
  assert (G : forall a, arr_of (vals w) p e = Some a -> exists b e', In (p, b) (vals w) /\ In (e', a) b /\ e2 e' = e2 e /\ rect nz ny nx a).
  { intros a Ha. pose proof (shaped_arr _ _ _ _ _ _ _ H3 Ha) as R. unfold arr_of in Ha. destruct (dget particle_eqb p (vals w)) as [b|] eqn:E; [|discriminate].
    destruct (dget_q_in _ _ _ Ha) as [e' [Ee Hin]]. exists b, e'. split; [now apply (dget_some_in particle_eqb particle_eqb_ok)|]. split; [exact Hin|]. split; [apply e2_comp; now symmetry|exact R]. }
  rewrite !at_arr. rewrite H2. unfold calculate_ratios. rewrite (arr_of_map0 (calc_ratios O)). split.
  - destruct (arr_of (vals w) p e) as [a|]; [|discriminate]. intros Hy. destruct (G a eq_refl) as (b & e' & I1 & I2 & Ee & R).
    destruct (H4 Hu p b e' a I1 I2) as [V _]. rewrite Ee, H5 in V. eexists. split; [exact V|]. eapply grid_cell; eauto.
  - destruct (arr_of (vals w) p e) as [a|]; [|discriminate]. simpl. intros Hy. destruct (G a eq_refl) as (b & e' & I1 & I2 & Ee & R).
    destruct (H4 Hu p b e' a I1 I2) as [_ [V _]]. rewrite Ee, H5 in V. eexists. split; [exact V|]. eapply grid_cell; [apply calc_rect; exact R|exact Hy|exact Hc]. Qed.

(** the "maximum ratio" array at rationals *)
Lemma grid_max pow nz ny nx g v cs : standard v -> shaped nz ny nx v ->
  let w := ww_run Qops pow (new_ww Qops g v) cs in unique_labels (vals w) ->
  forall p b x c e0 y0, dget particle_eqb p (rats w) = Some b -> shown g nz ny nx x c -> at_ (rats w) p e0 x = Some y0 ->
    exists l m, dget gname_eqb (GMax p) (gr w) = Some l /\ nth_error l c = Some m /\
      (forall a, In a (dvals b) -> exists y, voxel a x = Some y /\ (y <= m)%Q) /\ exists a, In a (dvals b) /\ voxel a x = Some m.
Proof. intros Hs Hh w Hu p b x c e0 y0 Hb Hc H0. destruct (run_inv Qops pow nz ny nx g v cs Hs Hh) as (H1 & H2 & H3 & H4 & H5). fold w in H1, H2, H3, H4, H5.
  rewrite at_arr in H0. unfold arr_of in H0. rewrite Hb in H0. rewrite H2 in Hb. unfold calculate_ratios in Hb. rewrite dget_map_pv in Hb. unfold option_map in Hb.
  destruct (dget particle_eqb p (vals w)) as [bv|] eqn:Ev; [|discriminate]. injection Hb as <-.
  pose proof (dget_some_in particle_eqb particle_eqb_ok _ _ _ Ev) as Hin.
  assert (HR : Forall (fun ea => rect nz ny nx (snd ea)) bv) by (unfold shaped in H3; rewrite Forall_forall in H3; apply (H3 _ Hin)).
  assert (ED : dvals (map (fun ea => (fst ea, calc_ratios Qops (snd ea))) bv) = map (calc_ratios Qops) (dvals bv)).
  { unfold dvals. rewrite !map_map. reflexivity. }
  rewrite ED. destruct bv as [|[e1 a1] bv]; [discriminate|]. destruct (H4 Hu p _ e1 a1 Hin (or_introl eq_refl)) as (_ & _ & V). rewrite H5 in V.
  set (L := map (calc_ratios Qops) (dvals ((e1, a1) :: bv))) in *.
  assert (RL : Forall (rect nz ny nx) L).
  { unfold L, dvals. rewrite map_map. apply Forall_map. eapply Forall_impl; [|exact HR]. intros ea Hea. now apply calc_rect. }
  assert (HM : rect nz ny nx (max_over Qops L)).
  { unfold L in RL |- *. simpl in RL |- *. now apply max_over_rect. }
  assert (HX : exists m, voxel (max_over Qops L) x = Some m).
  { destruct (dget Qeq_bool e0 _) as [a0|] eqn:E0; [|discriminate]. destruct (dget_q_in _ _ _ E0) as [e' [_ Hin0]].
    assert (In a0 L) by (rewrite <- ED; unfold dvals; apply (in_map snd) in Hin0; exact Hin0).
    rewrite Forall_forall in RL. pose proof (RL a0 H) as R0. destruct x as [[k j] i]. destruct (voxel_in _ _ _ _ _ _ _ _ R0 H0) as (Hk & Hj & Hi).
    pose proof (rect_voxel _ _ _ _ k j i HM) as RV. destruct (voxel (max_over Qops L) (k, j, i)) as [m|] eqn:Em; [eauto|]. exfalso. destruct (proj1 RV (conj Hk (conj Hj Hi))). congruence. }
  destruct HX as [m Hm]. exists (grid_array g (max_over Qops L)), m. split; [exact V|]. split; [eapply grid_cell; eauto|].
  unfold L in *. simpl in *. apply (max_over_voxel nz ny nx) in Hm; [|exact RL]. exact Hm. Qed.
