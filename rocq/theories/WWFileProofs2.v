(** Windows saved and loaded back: the whole file, and histories of calls (proofs). *)
From Coq Require Import ZArith QArith Lia Qabs.
From Verif Require Import PyBase PyLemmas PyStr PyStrLemmas PyFmtLemmas B2Model B2Spec B2Proofs WWModel WWSpec WWProofs WWProofs2 WWProofs3 WWProofs4 WWProofs5
  WWTextModel WWTextSpec WWTextProofs WWTextProofs2 CliModel WWFileModel WWFileSpec WWFileProofs.
Open Scope nat_scope.

Lemma voxel_some_range nz ny nx (a : arr Q) : rect nz ny nx a -> (forall x y, voxel a x = Some y -> in_range y) -> Forall in_range (flatten3 a).
Proof. intros _ H. apply Forall_forall. intros y Hy. apply in_flatten3 in Hy. destruct Hy as [x Hx]. exact (H x y Hx). Qed.
Lemma rect_count {A} nz ny nx (a : arr A) : rect nz ny nx a -> length (flatten3 a) = nz * ny * nx.
Proof. intros [L F]. unfold flatten3. subst nz. induction F as [|p a [Hp Hr] _ IH]; [reflexivity|]. cbn [concat length]. rewrite concat_app, app_length, IH.
  enough (length (concat p) = ny * nx) by lia. clear - Hp Hr. subst ny. induction Hr as [|r p Hr _ IH]; [reflexivity|]. cbn [concat length]. rewrite app_length, IH, Hr. lia. Qed.
Lemma flat_count nz ny nx (b : ebin Q) : Forall (fun ea => rect nz ny nx (snd ea)) b -> length (flat_b b) = nz * ny * nx * length b.
Proof. intros H. unfold flat_b, dvals. induction H as [|[e a] b Ha _ IH]; [cbn; lia|]. cbn [map snd concat length] in *. rewrite app_length, IH, (rect_count _ _ _ _ Ha). lia. Qed.

Lemma window_saves x : window_ok x -> exists p, write_to_ww_file x = write p /\ saveable p /\
  p_energies p = map (fun pb => dkeys (snd pb)) (vals (snd x)) /\ p_values p = map (fun pb => flat_b (snd pb)) (vals (snd x)) /\
  h_ni (p_header p) = Z.of_nat (length (vals (snd x))) /\
  h_nfx (p_header p) = zsum (g_fi (fst x)) /\ h_nfy (p_header p) = zsum (g_fj (fst x)) /\ h_nfz (p_header p) = zsum (g_fk (fst x)) /\
  h_dirs (p_header p) = g_dirs (fst x) /\ h_origin (p_header p) = g_origin (fst x) /\
  compose_b2 (g_ci (fst x)) (g_fi (fst x)) = Ok (p_b2i p) /\ compose_b2 (g_cj (fst x)) (g_fj (fst x)) = Ok (p_b2j p) /\ compose_b2 (g_ck (fst x)) (g_fk (fst x)) = Ok (p_b2k p) /\
  p_header p = mkheader 1 1 (Z.of_nat (length (vals (snd x)))) (match g_dirs (fst x) with None => 10 | Some _ => 16 end) (s2l "Created by f4enix_ww")
    (map (fun pb => Z.of_nat (length (snd pb))) (vals (snd x))) (zsum (g_fi (fst x))) (zsum (g_fj (fst x))) (zsum (g_fk (fst x))) (g_origin (fst x))
    (coarse_ints (g_ci (fst x))) (coarse_ints (g_cj (fst x))) (coarse_ints (g_ck (fst x))) (g_dirs (fst x)).
Proof. destruct x as [g w]. cbn [fst snd]. intros ((Gi & Gj & Gk & Go & Gd) & St & Sh & En & Va). cbn [fst snd] in *.
  destruct (axis_file _ _ Gi) as (bi & _ & _ & Ci & Li & Ri & _). destruct (axis_file _ _ Gj) as (bj & _ & _ & Cj & Lj & Rj & _). destruct (axis_file _ _ Gk) as (bk & _ & _ & Ck & Lk & Rk & _).
  destruct (axis_counts _ _ Gi) as (Zi & Si & Sci & _). destruct (axis_counts _ _ Gj) as (Zj & Sj & Scj & _). destruct (axis_counts _ _ Gk) as (Zk & Sk & Sck & _).
  destruct (format_std _ St) as (Fm & Ec & Pl & Ln). unfold mesh_shaped in Sh.
  set (v := vals w) in *.
  exists (mkparsed (mkheader 1 1 (Z.of_nat (length v)) (match g_dirs g with None => 10 | Some _ => 16 end) (s2l "Created by f4enix_ww")
    (map (fun pb => Z.of_nat (length (snd pb))) v) (zsum (g_fi g)) (zsum (g_fj g)) (zsum (g_fk g)) (g_origin g)
    (coarse_ints (g_ci g)) (coarse_ints (g_cj g)) (coarse_ints (g_ck g)) (g_dirs g)) bi bj bk
    (map (fun pb => dkeys (snd pb)) v) (map (fun pb => flat_b (snd pb)) v)).
  cbn [p_header p_b2i p_b2j p_b2k p_energies p_values h_ni h_nfx h_nfy h_nfz h_dirs h_origin].
  split.
  { unfold write_to_ww_file, header_of. fold v. rewrite Fm. cbn [bind]. rewrite Ec. cbn [bind]. rewrite Ci, Cj, Ck. cbn [bind]. rewrite Pl, map_map. reflexivity. }
  split; [|repeat (split; [try reflexivity; try assumption|]); reflexivity].
  unfold saveable. cbn [p_header p_b2i p_b2j p_b2k p_energies p_values h_if h_iv h_ni h_nr h_probid h_ne h_nfx h_nfy h_nfz h_origin h_ncx h_ncy h_ncz h_dirs].
  assert (SH : Forall (fun pb => Forall (fun ea => rect (Z.to_nat (zsum (g_fk g))) (Z.to_nat (zsum (g_fj g))) (Z.to_nat (zsum (g_fi g))) (snd ea)) (snd pb)) v) by exact Sh.
  repeat match goal with |- _ /\ _ => split end; try reflexivity; try assumption; try (rewrite ?map_length; reflexivity).
  - unfold int9. destruct Ln as [->| ->]; lia.
  - rewrite map_map. apply map_ext. intros pb. unfold dkeys. rewrite map_length. reflexivity.
  - rewrite Forall_map. eapply Forall_impl; [|exact En]. cbv beta. intros pb (_ & H & _). unfold int9. lia.
  - clear - SH Zi Zj Zk. induction SH as [|pb v Hb _ IH]; [constructor|]. cbn [map]. constructor; [|exact IH].
    unfold ebin, arr in *. pose proof (flat_count _ _ _ (snd pb) Hb) as FC. unfold ebin, arr in *. rewrite FC. unfold dkeys. rewrite map_length, !Nat2Z.inj_mul, !Z2Nat.id by lia. ring.
  - exact (proj1 Go).
  - exact (proj2 Go).
  - destruct (g_dirs g) as [[d1 d2]|]; [right|left; split; reflexivity]. split; [reflexivity|]. exists d1, d2. destruct Gd as [[A1 A2] [B1 B2]]. auto.
  - rewrite Forall_map. eapply Forall_impl; [|exact En]. cbv beta. intros pb (_ & _ & H & _). exact H.
  - rewrite Forall_map. apply Forall_forall. intros [p b] Hpb. cbn [snd]. unfold flat_b, dvals. apply Forall_concat. rewrite !Forall_map. apply Forall_forall.
    intros [e a] Hea. cbn [snd]. rewrite Forall_forall in SH. specialize (SH _ Hpb). cbn [snd] in SH. rewrite Forall_forall in SH. specialize (SH _ Hea). cbn [snd] in SH.
    apply (voxel_some_range _ _ _ _ SH). intros q y. exact (Va p b e a q y Hpb Hea). Qed.

Lemma write_header_round h : write_header (round_header h) = write_header h.
Proof. unfold write_header, round_header. cbn [h_origin h_if h_iv h_ni h_nr h_probid h_ne h_nfx h_nfy h_nfz h_ncx h_ncy h_ncz h_dirs].
  rewrite three_map. destruct (three (h_origin h)) as [[[a b] c]|]; [|reflexivity]. cbn [bind]. rewrite !rjust_g13_round.
  destruct (h_dirs h) as [[d1 d2]|]; [|reflexivity]. cbn [round_dirs]. rewrite !three_map.
  destruct (three d1) as [[[a1 b1] c1]|]; [|reflexivity]. cbn [bind]. destruct (three d2) as [[[a2 b2] c2]|]; [|reflexivity]. cbn [bind].
  now rewrite !rjust_g13_round, !rjust_g9_round. Qed.

Lemma window_roundtrip_vals x : window_ok x -> exists lines x', write_to_ww_file x = Ok lines /\
  (forall fuel, length lines <= fuel -> load_from_ww_file fuel lines = Done (Ok x')) /\
  window5 x x' /\ consistent Qops (snd x') /\ ge (snd x') = geom_of (fst x) /\ write_to_ww_file x' = Ok lines /\ vals (snd x') = round_v (vals (snd x)).
Proof. intros OK. destruct (window_saves x OK) as (p & W & SV & Ee & Ev & Eni & Ex & Ey & Ez & Ed & Eo & Ci & Cj & Ck & Eh).
  destruct x as [g w]. destruct OK as ((Gi & Gj & Gk & Go & Gd) & St & Sh & En & Va). cbn [fst snd] in *.
  destruct (axis_file _ _ Gi) as (bi & ci & bi' & Ci' & _ & _ & Di & Fi & Li & Ki & Wi). rewrite Ci in Ci'. injection Ci' as <-.
  destruct (axis_file _ _ Gj) as (bj & cj & bj' & Cj' & _ & _ & Dj & Fj & Lj & Kj & Wj). rewrite Cj in Cj'. injection Cj' as <-.
  destruct (axis_file _ _ Gk) as (bk & ck & bk' & Ck' & _ & _ & Dk & Fk & Lk & Kk & Wk). rewrite Ck in Ck'. injection Ck' as <-.
  destruct (axis_counts _ _ Gi) as (Zi & _). destruct (axis_counts _ _ Gj) as (Zj & _). destruct (axis_counts _ _ Gk) as (Zk & _).
  destruct (file_roundtrip p SV) as (lines & Wp & _ & P & _).
  set (g' := mkGeo ci cj ck (g_fi g) (g_fj g) (g_fk g) (round_dirs (g_dirs g)) (map round5 (g_origin g))).
  set (v := vals w) in *.
  assert (GE : geom_of g' = geom_of g) by (unfold geom_of, g'; cbn [g_dirs g_fk]; destruct (g_dirs g) as [[? ?]|]; reflexivity).
  exists lines, (g', new_ww Qops (geom_of g') (round_v v)). cbn [fst snd].
  split; [rewrite W; exact Wp|]. split; [|split; [|split; [|split]]].
  - intros fuel Hf. unfold load_from_ww_file. rewrite (P fuel Hf). cbn [obind].
    assert (CG : create_geometry (round_parsed p) = Ok g').
    { unfold create_geometry, round_parsed. cbn [p_b2i p_b2j p_b2k p_header]. rewrite Di. cbn [bind]. rewrite Dj. cbn [bind]. rewrite Dk. cbn [bind].
      unfold round_header. cbn [h_dirs h_origin]. rewrite Ed, Eo. reflexivity. }
    rewrite CG. cbn [obind].
    assert (VF : values_of_file (round_parsed p) = Ok (round_v v)).
    { unfold values_of_file, round_parsed, round_header. cbn [p_header p_energies p_values h_nfx h_nfy h_nfz h_ni]. rewrite Ex, Ey, Ez, Eni, Ee, Ev, Nat2Z.id.
      destruct (Z.ltb_spec (zsum (g_fi g)) 0); [lia|]. destruct (Z.ltb_spec (zsum (g_fj g)) 0); [lia|]. destruct (Z.ltb_spec (zsum (g_fk g)) 0); [lia|]. cbn [orb].
      rewrite !map_map. apply nested_loads; try assumption; lia. }
    rewrite VF. reflexivity.
  - split; cbn [fst snd]; [|apply round_values5]. unfold geometry5, g'. cbn [g_fi g_fj g_fk g_ci g_cj g_ck g_origin g_dirs].
    repeat match goal with |- _ /\ _ => split end; try reflexivity; try assumption; try apply close_round. clear. destruct (g_dirs g) as [[d1 d2]|]; cbn [round_dirs]; [split; apply close_round|exact I].
  - reflexivity.
  - cbn [new_ww set_values ge]. exact GE.
  - (* saving again *)
    split; [|reflexivity].
    destruct (format_std _ (round_std v St)) as (Fm & Ec & Pl & _).
    unfold write_to_ww_file, header_of. cbn [new_ww set_values vals]. rewrite Fm. cbn [bind]. rewrite Ec. cbn [bind]. unfold g'. cbn [g_ci g_cj g_ck g_fi g_fj g_fk g_dirs g_origin].
    rewrite Ki, Kj, Kk. cbn [bind]. rewrite <- Wp. unfold write. cbn [p_header p_energies p_values p_b2i p_b2j p_b2k].
    rewrite Wi, Wj, Wk. rewrite Ee, Ev.
    match goal with |- (do l <- write_header ?h; _) = _ => assert (HH : h = round_header (p_header p)) end.
    { rewrite Eh. unfold round_header. cbn [h_origin h_if h_iv h_ni h_nr h_probid h_ne h_nfx h_nfy h_nfz h_ncx h_ncy h_ncz h_dirs]. rewrite Pl.
      unfold coarse_ints. rewrite Li, Lj, Lk. unfold round_v, round_b. rewrite !map_map, map_length. cbn [snd].
      f_equal; [destruct (g_dirs g) as [[? ?]|]; reflexivity|]. apply map_ext. intros. rewrite map_length. reflexivity. }
    rewrite HH, write_header_round.
    assert (BB : write_b3 (map (fun pb => dkeys (snd pb)) (round_v v)) (map (fun pb => flat_b (snd pb)) (round_v v)) =
                 write_b3 (map (fun pb => dkeys (snd pb)) v) (map (fun pb => flat_b (snd pb)) v)).
    { rewrite <- (write_b3_round (map _ v)). unfold round_v. rewrite !map_map. f_equal; apply map_ext; intros [q b]; cbn [snd]; [apply round_b_keys|apply round_b_flat]. }
    rewrite BB. reflexivity. Qed.

Lemma window_roundtrip x : window_ok x -> exists lines x', write_to_ww_file x = Ok lines /\
  (forall fuel, length lines <= fuel -> load_from_ww_file fuel lines = Done (Ok x')) /\
  window5 x x' /\ consistent Qops (snd x') /\ ge (snd x') = geom_of (fst x) /\ write_to_ww_file x' = Ok lines.
Proof. intros OK. destruct (window_roundtrip_vals x OK) as (l & x' & A & B & C & D & E & F & _). exists l, x'. auto 10. Qed.

(** ** histories *)
Lemma dkeys_map_arr {A} (f : Q -> arr A -> arr A) (b : ebin A) : dkeys (map (fun ea => (fst ea, f (fst ea) (snd ea))) b) = dkeys b.
Proof. unfold dkeys. rewrite map_map. reflexivity. Qed.
Definition eok (b : ebin Q) : Prop := b <> [] /\ (Z.of_nat (length b) < 1000000000)%Z /\ Forall in_range (dkeys b) /\ printed_apart (dkeys b).
Lemma eok_map (f : Q -> arr Q -> arr Q) b : eok b -> eok (map (fun ea => (fst ea, f (fst ea) (snd ea))) b).
Proof. intros (A1 & A2 & A3 & A4). unfold eok. rewrite dkeys_map_arr, map_length. repeat split; auto. destruct b; [contradiction|discriminate]. Qed.
Lemma energies_map f v : energies_ok v -> energies_ok (map_pv f v).
Proof. unfold energies_ok, map_pv. rewrite Forall_map. intros H. eapply Forall_impl; [|exact H]. intros [p b] Hb. cbn [fst snd] in *. exact (eok_map (f p) b Hb). Qed.
Lemma energies_step pow w c : energies_ok (vals w) -> energies_ok (vals (ww_step Qops pow w c)).
Proof. intros H. destruct c as [f|s|n s| |r]; cbn [ww_step].
  - unfold multiply. destruct (oeqb _ _ _); [exact H|]. cbn [set_values vals]. now apply energies_map.
  - unfold soften. destruct (oeqb _ _ _); [exact H|]. cbn [set_values vals]. now apply energies_map.
  - unfold add_particle. destruct (Nat.eqb _ _); [exact H|]. destruct (dget particle_eqb Neutron (vals w)) as [b|] eqn:E; [|exact H]. cbn [set_values vals].
    apply (dget_some_in particle_eqb particle_eqb_ok) in E. unfold energies_ok in *. rewrite Forall_forall in H. apply Forall_forall. intros x Hx.
    apply (dset_in particle_eqb particle_eqb_ok) in Hx. destruct Hx as [->|Hx]; [|exact (H x Hx)]. cbn [snd].
    exact (eok_map (fun _ a => map3 (fun x => omul Qops x (pow n s)) a) b (H _ E)).
  - unfold remove_particle. destruct (Nat.eqb _ _); [exact H|]. destruct (dget particle_eqb Neutron (vals w)) as [b|] eqn:E; [|exact H]. cbn [set_values vals].
    apply (dget_some_in particle_eqb particle_eqb_ok) in E. unfold energies_ok in *. rewrite Forall_forall in H. constructor; [exact (H _ E)|constructor].
  - unfold mitigate. cbn [set_values vals]. now apply energies_map. Qed.
Lemma energies_run pow w cs : energies_ok (vals w) -> energies_ok (vals (ww_run Qops pow w cs)).
Proof. unfold ww_run. revert w. induction cs as [|c cs IH]; intros w H; [exact H|]. cbn [fold_left]. apply IH, energies_step, H. Qed.

Lemma history_ok pow g v cs : geometry_ok g -> standard v -> mesh_shaped g v -> energies_ok v ->
  let x := window_run pow (g, new_ww Qops (geom_of g) v) cs in values_ok (vals (snd x)) -> window_ok x.
Proof. cbv zeta. intros G St Sh En Va. unfold window_run in *. cbn [fst snd] in *.
  split; [exact G|]. cbn [fst snd]. split; [apply run_standard; exact St|]. split; [|split; [|exact Va]].
  - unfold mesh_shaped in *. exact (proj1 (proj2 (proj2 (run_inv Qops pow _ _ _ (geom_of g) v cs St Sh)))).
  - apply energies_run. exact En. Qed.

(** ** the default name *)
Lemma rfind_dot_bound s : forall i best k, rfind_dot s i best = Some k -> best = Some k \/ i <= k < i + length s.
Proof. induction s as [|c s IH]; intros i best k H; cbn [rfind_dot length] in *; [left; exact H|].
  apply IH in H. destruct H as [H|H]; [|right; lia]. destruct (Ascii.eqb c dot); [injection H as <-; right; lia|left; exact H]. Qed.
Lemma rfind_dot_at s : forall i k, rfind_dot s i None = Some k -> exists j, k = i + j /\ nth_error s j = Some dot.
Proof. assert (G : forall s i best k, rfind_dot s i best = Some k -> best = Some k \/ exists j, k = i + j /\ nth_error s j = Some dot).
  { clear. induction s as [|c s IH]; intros i best k H; cbn [rfind_dot] in *; [left; exact H|].
    apply IH in H. destruct H as [H|[j [H1 H2]]]; [|right; exists (S j); split; [lia|exact H2]].
    destruct (Ascii.eqb_spec c dot) as [->|]; [|left; exact H]. injection H as <-. right. exists 0. split; [lia|reflexivity]. }
  intros i k H. destruct (G _ _ _ _ H) as [E|E]; [discriminate|exact E]. Qed.
Lemma default_name_new n : default_name n <> n.
Proof. unfold default_name, stem_of_name. intros H. destruct (rfind_dot n 0 None) as [i|] eqn:E.
  2:{ apply (f_equal (@length _)) in H. rewrite app_length in H. cbn in H. lia. }
  destruct (_ && _) eqn:B.
  2:{ apply (f_equal (@length _)) in H. rewrite app_length in H. cbn in H. lia. }
  destruct (rfind_dot_at _ _ _ E) as [j [-> D]]. cbn [Nat.add] in *.
  assert (L : j < length n) by (apply nth_error_Some; congruence).
  rewrite <- H, nth_error_app2 in D; rewrite firstn_length_le in *; try lia. rewrite Nat.sub_diag in D. discriminate. Qed.

(** ** for the examples *)
Lemma fw_in_range q : Qle_bool (p10 (-20)) (Qabs q) && negb (Qle_bool (p10 20) (Qabs q)) || Qeq_bool q 0 = true -> in_range q.
Proof. intros H. apply orb_true_iff in H. destruct H as [H|H]; [right|left; now apply Qeq_bool_iff].
  apply andb_true_iff in H. destruct H as [A B]. apply Qle_bool_iff in A. apply negb_true_iff in B. split.
  - apply Qle_trans with (p10 (-20)); [|exact A]. now apply Qle_bool_iff.
  - apply Qlt_le_trans with (p10 20).
    + apply Qnot_le_lt. intros C. apply Qle_bool_iff in C. congruence.
    + now apply Qle_bool_iff. Qed.
Lemma values_ok_flat v : Forall in_range (concat (map (fun pb => flat_b (snd pb)) v)) -> values_ok v.
Proof. intros H p b e a x y Hb Ha Hx. rewrite Forall_forall in H. apply H. apply in_concat. exists (flat_b b). split; [apply in_map_iff; exists (p, b); auto|].
  unfold flat_b, dvals. apply in_concat. exists (flatten3 a). split; [|apply in_flatten3; exists x; exact Hx]. apply in_map. apply in_map_iff. exists (e, a). auto. Qed.

Lemma drawn_loaded fuel lines g w : load_from_ww_file fuel lines = Done (Ok (g, w)) ->
  (g_dirs g = None -> ge w = Cartesian) /\
  (g_dirs g <> None -> exists m, ge w = Cylindrical m /\ (fold_right Z.add 0%Z (g_fk g) = 1%Z -> m = 20) /\
    (fold_right Z.add 0%Z (g_fk g) = 2%Z -> m = 10) /\ (fold_right Z.add 0%Z (g_fk g) <> 1%Z -> fold_right Z.add 0%Z (g_fk g) <> 2%Z -> m = 1)).
Proof. unfold load_from_ww_file. destruct (parse fuel lines) as [[p|e]|]; [|discriminate|discriminate]. cbn [obind]. destruct (create_geometry p) as [g0|e]; [|discriminate]. cbn [obind].
  destruct (values_of_file p) as [v|e]; [|discriminate]. cbn [obind]. intros H. apply (f_equal (fun r => match r with Done (Ok x) => x | _ => (g, w) end)) in H. cbv beta iota in H.
  pose proof (f_equal fst H) as Hg. pose proof (f_equal snd H) as Hw. cbn [fst snd] in Hg, Hw. subst g0. subst w.
  assert (G : ge (new_ww Qops (geom_of g) v) = geom_of g) by reflexivity. rewrite G. unfold geom_of. destruct (g_dirs g) as [d|]; [|split; [reflexivity|congruence]].
  split; [discriminate|]. intros _. exists (theta_repeat (ints (g_fk g))). split; [reflexivity|]. unfold theta_repeat, ints.
  destruct (Z.eqb_spec (fold_right Z.add 0%Z (g_fk g)) 1), (Z.eqb_spec (fold_right Z.add 0%Z (g_fk g)) 2); repeat split; intros; congruence || reflexivity || lia. Qed.
