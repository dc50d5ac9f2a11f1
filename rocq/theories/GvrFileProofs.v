(** Lemmas for C133. *)
From Coq Require Import Lia ZArith Lqa Qabs.
From Verif Require Import PyBase PyLemmas PyStr PyStrLemmas PyFmtLemmas PyText DataModel B2Model B2Spec B2Proofs WWModel WWSpec WWProofs WWProofs2 WWProofs3 WWProofs4 WWTextModel WWTextSpec WWTextProofs WWTextProofs2 MeshModel MeshSpec MeshProofs2 FmeshModel FmeshSpec FmeshProofs2 TrsfModel GvrModel GvrSpec GvrProofs GvrProofs2
  WWFileModel WWFileSpec WWFileProofs WWFileProofs2 GvrFileModel GvrFileSpec.
Open Scope nat_scope.

Lemma GOk_inj {A} (a b : A) : Ok a = Ok b -> a = b. Proof. congruence. Qed.
Lemma b2_of_ones x b2 g : b2_of x = Ok b2 -> decompose_b2 b2 = Ok g -> x <> [] /\ qlist_eq (fst g) x /\ snd g = repeat 1%Z (length x - 1).
Proof. intros A B. destruct x as [|q x]; [discriminate A|]. split; [discriminate|]. unfold b2_of in A. assert (L : length (q :: x) = S (length (repeat 1%Z (length (q :: x) - 1)))) by (rewrite repeat_length; cbn [length]; lia).
  destruct (compose_decompose (q :: x) (repeat 1%Z (length (q :: x) - 1)) L) as (b & c & E1 & E2 & Hc). assert (b = b2) by congruence. subst b. rewrite E2 in B. apply GOk_inj in B. subst g. split; [exact Hc|reflexivity]. Qed.
Lemma ones_axis c n v : length c = S n -> axis_vector (c, repeat 1%Z n) = Ok v -> qlist_eq v c /\ length v = S n.
Proof. intros L H. unfold axis_vector in H. cbn [fst snd] in H.
  destruct (build_1d_spec (repeat 1%Z n) c) as (v' & Ev & Lv & _ & Hv & _); [rewrite repeat_length; lia|apply Forall_forall; intros k Hn; apply repeat_spec in Hn; lia|].
  rewrite Ev in H. apply GOk_inj in H. subst v'. rewrite ones_zsum in Lv. rewrite Nat2Z.id in Lv. split; [|lia].
  assert (G : forall (a b : list Q), length a = length b -> (forall i y, nth_error b i = Some y -> exists x, nth_error a i = Some x /\ x == y) -> Forall2 Qeq a b).
  { clear. induction a as [|x a IH]; intros [|y b] L H; try discriminate; constructor.
    - destruct (H 0 y eq_refl) as (z & E & Hz). injection E as <-. exact Hz.
    - apply IH; [cbn [length] in L; lia|]. intros i z Hz. exact (H (S i) z Hz). }
  apply G; [lia|]. intros i y Hy. assert (i < length c) by (apply nth_error_Some; congruence). destruct (Hv i y Hy) as (z & Hz1 & Hz2). rewrite ones_index in Hz1 by lia. exists z. auto. Qed.
Lemma rect_map nz ny nx (f : Q -> Q) (a : WWModel.arr Q) : rect nz ny nx a -> rect nz ny nx (map3 f a).
Proof. intros [L F]. split; [unfold map3; now rewrite map_length|]. unfold map3. rewrite Forall_map. eapply Forall_impl; [|exact F]. intros pl [A B]. split; [now rewrite map_length|]. rewrite Forall_map. eapply Forall_impl; [|exact B]. intros row R. now rewrite map_length. Qed.
(** whatever the file, a window made from a tally has one fine interval per coarse one, and one particle with one energy *)
Lemma gvr_shape sn cs old pow f asked r g w : create_gvr sn cs old pow f asked r 1 = Some (Ok (g, w)) ->
  exists x1 x2 x3 a, qlist_eq (fst (geo_i g)) x1 /\ qlist_eq (fst (geo_j g)) x2 /\ qlist_eq (fst (geo_k g)) x3 /\
    snd (geo_i g) = repeat 1%Z (length x1 - 1) /\ snd (geo_j g) = repeat 1%Z (length x2 - 1) /\ snd (geo_k g) = repeat 1%Z (length x3 - 1) /\
    x1 <> [] /\ x2 <> [] /\ x3 <> [] /\
    vals w = [(Neutron, [(100%Q, a)])] /\ (2 <= length x1 -> 2 <= length x2 -> 2 <= length x3 -> rect (length x3 - 1) (length x2 - 1) (length x1 - 1) a).
Proof.
  intros H. unfold create_gvr in H. destruct (read_meshtally sn cs old f asked) as [[p|e]|] eqn:R; cbn [orun] in H; try discriminate. assert (H' := f_equal (fun o => match o with Some x => x | None => Err OtherError end) H). cbv beta iota in H'. clear H.
  destruct (GvrModel.create_geometry p) as [g0|] eqn:G; cbn [bind] in H'; [|discriminate].
  unfold read_meshtally in R. destruct (scan_meshfile f) as [d|]; cbn [orun] in R; [|discriminate].
  destruct (if (asked =? 0)%Z then _ else _) as [id|]; cbn [orun] in R; [|discriminate].
  destruct (read_mesh _ _ _ _) as [[ms|]|]; cbn [orun] in R; try discriminate. assert (R' := f_equal (fun o => match o with Some x => x | None => Err OtherError end) R). cbv beta iota in R'. clear R.
  destruct (mapM _ ms) as [ms'|]; cbn [bind] in R'; [|discriminate]. destruct (of_opt KeyError (dget Z.eqb id ms')) as [x|]; cbn [bind] in R'; [|discriminate].
  set (m := f_mesh x) in *. destruct (GvrModel.header_of x) as [h|] eqn:Hh; cbn [bind] in R'; [|discriminate].
  destruct (b2_of (md_x1 m)) as [bi|] eqn:Bi; cbn [bind] in R'; [|discriminate]. destruct (b2_of (md_x2 m)) as [bj|] eqn:Bj; cbn [bind] in R'; [|discriminate]. destruct (b2_of (md_x3 m)) as [bk|] eqn:Bk; cbn [bind] in R'; [|discriminate].
  destruct ((nt m =? 0) || (ne m =? 0)) eqn:NN; [discriminate|]. apply GOk_inj in R'. subst p. unfold GvrModel.create_geometry in G. cbn [p_b2i p_b2j p_b2k p_header p_energies p_values] in *.
  destruct (decompose_b2 bi) as [gi|] eqn:Di; cbn [bind] in G; [|discriminate]. destruct (decompose_b2 bj) as [gj|] eqn:Dj; cbn [bind] in G; [|discriminate]. destruct (decompose_b2 bk) as [gk|] eqn:Dk; cbn [bind] in G; [|discriminate].
  destruct (match h_dirs h with Some (a, _) => downward a | None => false end); [discriminate|]. apply GOk_inj in G. subst g0.
  destruct (b2_of_ones _ _ _ Bi Di) as (N1 & Q1 & S1). destruct (b2_of_ones _ _ _ Bj Dj) as (N2 & Q2 & S2). destruct (b2_of_ones _ _ _ Bk Dk) as (N3 & Q3 & S3).
  assert (HH : Z.to_nat (h_ni h) = 1 /\ Z.to_nat (h_nfx h) = length (md_x1 m) - 1 /\ Z.to_nat (h_nfy h) = length (md_x2 m) - 1 /\ Z.to_nat (h_nfz h) = length (md_x3 m) - 1).
  { clear - Hh N1 N2 N3. assert (L : forall l : list Q, l <> [] -> Z.to_nat (Z.of_nat (length l) - 1) = length l - 1) by (intros l _; lia).
    unfold GvrModel.header_of in Hh. fold m in Hh. destruct (1 <? _)%Z; [discriminate|]. cbv zeta in Hh. destruct (md_cyl m); [destruct (f_trsf x) as [[o q]|]; [|discriminate]|]; apply GOk_inj in Hh; subst h; cbn [h_ni h_nfx h_nfy h_nfz]; rewrite !L by assumption; auto. }
  destruct HH as (-> & -> & -> & ->) in H'.
  unfold nested_to_values in H'. change (particles_of_count 1) with [Neutron] in H'. cbn [combine seq foldM nth_error of_opt bind length] in H'.
  destruct (reshape4 _ _ _ _ _) as [as_|] eqn:Er; cbn [bind] in H'; [|discriminate].
  unfold energy_dict in H'. destruct as_ as [|a as_]; cbn [combine fold_left fst snd dset dget particle_eqb of_opt bind] in H'; [discriminate|].
  destruct (flux_to_gvr Qops _ _) as [b'|] eqn:Fl; cbn [bind] in H'; [|discriminate]. change (Qeq_bool 1 1) with true in H'. cbv iota in H'. apply GOk_inj in H'. injection H' as <- <-.
  unfold flux_to_gvr in Fl. destruct (flux_max Qops _) as [mm|]; [|discriminate]. destruct (oeqb Qops mm (o0 Qops)); [discriminate|]. apply GOk_inj in Fl. subst b'. cbn [map fst snd].
  eexists (md_x1 m), (md_x2 m), (md_x3 m), _. cbn [geo_i geo_j geo_k]. repeat (split; [assumption|]). split; [reflexivity|].
  intros L1 L2 L3. apply rect_map. assert (LL := Er). unfold reshape4 in LL. destruct (Nat.eqb_spec (length (ravel m 0 0 fst)) (1 * (length (md_x3 m) - 1) * (length (md_x2 m) - 1) * (length (md_x1 m) - 1))) as [LE|]; [|discriminate]. clear LL.
  destruct (reshape_spec 1 (length (md_x3 m) - 1) (length (md_x2 m) - 1) (length (md_x1 m) - 1) (ravel m 0 0 fst)) as (as2 & Er2 & _ & Ra & _); try lia. cbn [length] in Er. rewrite Er in Er2. apply GOk_inj in Er2. subst as2. inversion Ra; assumption.
Qed.
Lemma qlist_sym a b : qlist_eq a b -> qlist_eq b a. Proof. unfold qlist_eq. induction 1; constructor; [symmetry|]; assumption. Qed.
Lemma qlist_trans a b c : qlist_eq a b -> qlist_eq b c -> qlist_eq a c.
Proof. intros H. revert c. induction H; intros c K; inversion K; subst; constructor; [etransitivity; eassumption|]. apply IHForall2. assumption. Qed.
Lemma qlist_len a b : qlist_eq a b -> length a = length b. Proof. induction 1; cbn [length]; congruence. Qed.
Lemma in_range_qlist a b : qlist_eq a b -> Forall in_range a -> Forall in_range b.
Proof. induction 1 as [|x y a b E _ IH]; intros F; [constructor|]. inversion F; subst. constructor; [eapply in_range_comp; eassumption|auto]. Qed.
Lemma close_comp a a' b : (a == a')%Q -> close5 a b -> close5 a' b.
Proof. unfold close5. intros E H. now rewrite <- E. Qed.
Lemma close_qlist a b c : qlist_eq a b -> Forall2 close5 a c -> Forall2 close5 b c.
Proof. intros H. revert c. induction H as [|x y a b E _ IH]; intros c K; inversion K; subst; constructor; [eapply close_comp; eassumption|auto]. Qed.
(** one axis of the window *)
Lemma axis_of_window (c v x y : list Q) fine : qlist_eq c x -> fine = repeat 1%Z (length x - 1) -> x <> [] -> axis_vector (c, fine) = Ok v -> qlist_eq v y ->
  2 <= length y -> (Z.of_nat (length y) < 100001)%Z -> Forall in_range y -> axis_ok c fine /\ qlist_eq c y /\ fine = repeat 1%Z (intervals y) /\ length x = length y.
Proof. intros Q -> NE A V L F R. assert (Lc := qlist_len _ _ Q). destruct x as [|x0 x]; [now elim NE|]. set (n := length (x0 :: x) - 1) in *. assert (LS : length c = S n) by (unfold n; cbn [length] in *; lia).
  destruct (ones_axis c n v LS A) as [VC LV]. assert (CY : qlist_eq c y) by (eapply qlist_trans; [apply qlist_sym; exact VC|exact V]). assert (LY := qlist_len _ _ CY). assert (NI : n = intervals y) by (unfold intervals; lia).
  split; [|split; [exact CY|split; [rewrite <- NI; reflexivity|unfold n in LS; cbn [length] in *; lia]]].
  split; [rewrite repeat_length; exact LS|]. split; [destruct n; [lia|discriminate]|]. split; [apply Forall_forall; intros k Hk; apply repeat_spec in Hk; lia|]. split; [rewrite ones_zsum; lia|]. eapply in_range_qlist; [apply qlist_sym; exact CY|exact R]. Qed.
Lemma half_ok : in_range (1 # 2). Proof. apply fw_in_range. vm_compute. reflexivity. Qed.
Lemma zero_ok : in_range 0. Proof. left. reflexivity. Qed.
Lemma one_ok : in_range 1. Proof. apply fw_in_range. vm_compute. reflexivity. Qed.
Lemma slices_range cyl x y sl : Slices cyl x y sl -> Forall in_range x -> (Z.of_nat (length x) < 100000)%Z -> Forall in_range y /\ (Z.of_nat (length y) < 100001)%Z.
Proof. intros S F L. destruct S as [|a b x C B]; [split; [exact F|lia]|]. split; [|cbn [length] in *; lia]. inversion F as [|? ? Fa F']; subst. inversion F' as [|? ? Fb F'']; subst. constructor; [exact Fa|]. constructor; [apply half_ok|exact F']. Qed.
Lemma three_ok x y z : in_range x -> in_range y -> in_range z -> point_ok [x; y; z].
Proof. intros X Y Z. split; [reflexivity|]. apply Forall_cons; [exact X|]. apply Forall_cons; [exact Y|]. apply Forall_cons; [exact Z|apply Forall_nil]. Qed.
Lemma axes_range s r : Printable s r -> point_ok (org_of s) /\ match dirs_of s with None => True | Some (a, b) => point_ok a /\ point_ok b end.
Proof. intros (_ & _ & _ & _ & _ & _ & P & _). unfold org_of, dirs_of. destruct (bd_trsf (t_bounds s)) as [p|]; [|split; [|exact I]; apply three_ok; apply zero_ok].
  destruct (P p eq_refl) as (O & A & V). destruct (pl_origin p) as [[o1 o2] o3]. destruct (pl_axis p) as [[a1 a2] a3]. destruct O as (O1 & O2 & O3). destruct A as (A1 & A2 & A3). unfold vlist, v1, v2, v3. cbn [fst snd]. split.
  - destruct (bd_cyl (t_bounds s) && negb (zero3 (o1, o2, o3))); apply three_ok; try assumption; apply zero_ok.
  - destruct (bd_cyl (t_bounds s)); [|exact I]. split; [apply three_ok; assumption|]. destruct (pl_vec p) as [[[x y] z]|]; [destruct (V _ eq_refl) as (V1 & V2 & V3); apply three_ok; assumption|].
    destruct (Qeq_bool a1 1); apply three_ok; try apply zero_ok; apply one_ok. Qed.
Lemma vox_round (a : WWModel.arr Q) y : voxel (map3 round5 a) y = option_map round5 (voxel a y).
Proof. apply voxel_map3. Qed.

Lemma gvr_file sn cs old pow ss f asked (s : tally_text placement) r :
  FileText (get_transformation true) ss f -> Chosen ss asked s -> OneGroup s -> SomeFlux s -> Placed s -> (-1 < r)%Q -> Printable s r ->
  exists lines g' w' x3 slice m, tally_to_file sn cs old pow f asked r 1 = Some (Ok lines)
    /\ (forall fuel, length lines <= fuel -> load_from_ww_file fuel lines = Done (Ok (g', w')))
    /\ Slices (bd_cyl (t_bounds s)) (bd_x3 (t_bounds s)) x3 slice
    /\ (0 < m)%Q /\ sizes s (fun nz ny nx => Peak nz ny nx (flux s) m)
    /\ (Forall2 close5 (bd_x1 (t_bounds s)) (g_ci g') /\ Forall2 close5 (bd_x2 (t_bounds s)) (g_cj g') /\ Forall2 close5 x3 (g_ck g'))
    /\ (g_fi g' = repeat 1%Z (intervals (bd_x1 (t_bounds s))) /\ g_fj g' = repeat 1%Z (intervals (bd_x2 (t_bounds s))) /\ g_fk g' = repeat 1%Z (intervals x3))
    /\ (forall k j i, k < intervals x3 -> j < intervals (bd_x2 (t_bounds s)) -> i < intervals (bd_x1 (t_bounds s)) ->
          exists q, at_ (vals w') Neutron 100%Q (k, j, i) = Some q /\ close5 (flux s (slice k) j i / m * (2 / (r + 1))) q)
    /\ (forall p e k j i q, at_ (vals w') p e (k, j, i) = Some q -> p = Neutron /\ (e == 100)%Q
          /\ k < intervals x3 /\ j < intervals (bd_x2 (t_bounds s)) /\ i < intervals (bd_x1 (t_bounds s)))
    /\ consistent Qops w' /\ Forall2 close5 (org_of s) (g_origin g')
    /\ match dirs_of s, g_dirs g' with None, None => True | Some (a, b), Some (a', b') => Forall2 close5 a a' /\ Forall2 close5 b b' | _, _ => False end.
Proof.
  intros HF HC HO HS HP Hr PR. destruct (axes_range s r PR) as [PO PD]. destruct PR as (F1 & F2 & F3 & R1 & R2 & R3 & _ & RV).
  destruct (gvr_main sn cs old pow ss f asked s r HF HC HO HS HP Hr) as (gi & gj & gk & w & x3 & sl & m & vi & vj & vk & E & SL & Ai & Qi & Aj & Qj & Ak & Qk & Mp & Pk & Val & Only & _ & _).
  destruct (gvr_shape _ _ _ _ _ _ _ _ _ E) as (x1 & x2 & x3' & a & C1 & C2 & C3 & S1 & S2 & S3 & N1 & N2 & N3 & Vw & Rect). cbn [geo_i geo_j geo_k] in *.
  destruct HO as (_ & _ & _ & L1 & L2 & L3). destruct (slices_len _ _ _ _ SL L3) as (L3' & Sl1 & _). destruct (slices_range _ _ _ _ SL R3 F3) as [R3' F3']. unfold few in *.
  destruct gi as [ci fi]. destruct gj as [cj fj]. destruct gk as [ck fk]. cbn [fst snd] in *.
  destruct (axis_of_window ci vi x1 _ fi C1 S1 N1 Ai Qi) as (Xi & Ci & Fi & Li); [lia|lia|exact R1|]. destruct (axis_of_window cj vj x2 _ fj C2 S2 N2 Aj Qj) as (Xj & Cj & Fj & Lj); [lia|lia|exact R2|]. destruct (axis_of_window ck vk x3' _ fk C3 S3 N3 Ak Qk) as (Xk & Ck & Fk & Lk); [lia|lia|exact R3'|].
  assert (Ra : rect (intervals x3) (intervals (bd_x2 (t_bounds s))) (intervals (bd_x1 (t_bounds s))) a). { unfold intervals. rewrite <- Li, <- Lj, <- Lk. apply Rect; lia. }
  set (g := mkGeo ci cj ck fi fj fk (dirs_of s) (org_of s)).
  assert (At : forall e y, at_ (vals w) Neutron e y = if Qeq_bool e 100 then voxel a y else None). { intros e y. rewrite Vw. unfold at_. cbn [dget particle_eqb]. destruct (Qeq_bool e 100); reflexivity. }
  assert (W : window_ok (g, w)).
  { split; [|split; [|split; [|split]]]; cbn [fst snd]; rewrite ?Vw.
    - repeat (split; [assumption|]). exact PD.
    - left. eexists. reflexivity.
    - unfold mesh_shaped, shaped. cbn [g g_fi g_fj g_fk]. rewrite Fi, Fj, Fk, !ones_zsum, !Nat2Z.id. repeat constructor; [exact (proj1 Ra)|exact (proj2 Ra)].
    - constructor; [|constructor]. cbn [snd]. split; [discriminate|]. split; [reflexivity|]. split; [apply Forall_cons; [apply fw_in_range; vm_compute; reflexivity|apply Forall_nil]|]. repeat constructor.
    - intros p b e a0 [[k j] i] q Hp Hb Hq. destruct Hp as [Hp|[]]. injection Hp as <- <-. destruct Hb as [Hb|[]]. injection Hb as <- <-. destruct (rect_in _ _ _ _ _ _ _ _ Ra Hq) as (A & B & C).
      destruct (Val k j i A B C) as (q' & V1 & V2). rewrite At in V1. change (Qeq_bool 100 100) with true in V1. cbv iota in V1. rewrite Hq in V1. assert (q' = q) by congruence. subst q'. eapply in_range_comp; [symmetry; exact V2|].
      specialize (RV m Mp Pk). unfold sizes in RV. apply RV; [apply Sl1; exact A|exact B|exact C]. }
  destruct (window_roundtrip_vals (g, w) W) as (lines & [g' w'] & Wr & Ld & [G5 _] & Cs & _ & _ & Vs). cbn [fst snd] in *.
  exists lines, g', w', x3, sl, m. split; [unfold tally_to_file; rewrite E; cbn [orun fst snd]; unfold saved; cbn [geo_i geo_j geo_k geo_dirs geo_org fst snd]; f_equal; exact Wr|].
  split; [exact Ld|]. split; [exact SL|]. split; [exact Mp|]. split; [exact Pk|]. destruct G5 as (G1 & G2 & G3 & G4 & G5 & G6 & G7 & G8). cbn [g g_ci g_cj g_ck g_fi g_fj g_fk g_origin g_dirs] in *.
  split; [split; [|split]; eapply close_qlist; eassumption|]. split; [rewrite G1, G2, G3; auto|].
  assert (Vw' : vals w' = [(Neutron, [(round5 100, map3 round5 a)])]) by (rewrite Vs, Vw; reflexivity).
  assert (At' : forall p e y, at_ (vals w') p e y = if particle_eqb p Neutron then (if Qeq_bool e 100 then option_map round5 (voxel a y) else None) else None).
  { intros p e y. rewrite Vw'. unfold at_. cbn [dget]. destruct p; cbn [particle_eqb]; [|reflexivity]. assert (Hx : Qeq_bool e (round5 100) = Qeq_bool e 100). { assert (Y : (round5 100 == 100)%Q) by (apply Qeq_bool_iff; vm_compute; reflexivity). destruct (Qeq_bool e 100) eqn:Z; [apply Qeq_bool_iff in Z; apply Qeq_bool_iff; rewrite Y; exact Z|]. apply Qeq_bool_neq in Z. destruct (Qeq_bool e (round5 100)) eqn:Z'; [|reflexivity]. apply Qeq_bool_iff in Z'. rewrite Y in Z'. contradiction. }
    cbn [dget]. rewrite Hx. destruct (Qeq_bool e 100); [apply vox_round|reflexivity]. }
  split; [|split; [|split; [exact Cs|split; [exact G7|exact G8]]]].
  - intros k j i A B C. destruct (Val k j i A B C) as (q & V1 & V2). rewrite At in V1. change (Qeq_bool 100 100) with true in V1. cbv iota in V1. exists (round5 q). rewrite At', V1. split; [reflexivity|]. eapply close_comp; [exact V2|apply round5_acc].
  - intros p e k j i q H. rewrite At' in H. destruct p; cbn [particle_eqb] in H; [|discriminate]. destruct (Qeq_bool e 100) eqn:Z; [|discriminate]. destruct (voxel a (k, j, i)) as [q0|] eqn:Vx; [|discriminate].
    destruct (rect_in _ _ _ _ _ _ _ _ Ra Vx) as (A & B & C). split; [reflexivity|]. split; [now apply Qeq_bool_iff|]. auto.
Qed.
