From Coq Require Import Lia ZArith Lqa.
From Verif Require Import PyBase PyLemmas PyStr PyText DataModel B2Model B2Spec WWModel WWSpec WWProofs3 WWTextModel MeshModel MeshSpec MeshProofs2 FmeshModel FmeshSpec FmeshProofs2 TrsfModel GvrModel GvrSpec GvrProofs.
Open Scope nat_scope.

Lemma slices_len cyl x y sl : Slices cyl x y sl -> (2 <= length x) ->
  2 <= length y /\ (forall k, k < length y - 1 -> sl k < intervals x) /\ (forall k, k < intervals x -> exists k', k' < length y - 1 /\ sl k' = k).
Proof.
  intros H L. unfold intervals. destruct H; cbn [length] in *; [split; [lia|split; [auto|]]; intros k Hk; exists k; auto|].
  split; [lia|]. split; [intros k Hk; lia|]. intros k Hk. exists (S k). split; [lia|reflexivity].
Qed.
Lemma rect_in nz ny nx (a : WWModel.arr Q) k j i q : rect nz ny nx a -> voxel a (k, j, i) = Some q -> k < nz /\ j < ny /\ i < nx.
Proof.
  intros [Hl Hf] H. unfold voxel in H. destruct (nth_error a k) as [p|] eqn:Ek; [|discriminate].
  destruct (nth_error p j) as [r|] eqn:Ej; [|discriminate]. rewrite Forall_forall in Hf. destruct (Hf p (nth_error_In _ _ Ek)) as [Hp Hr].
  rewrite Forall_forall in Hr. specialize (Hr r (nth_error_In _ _ Ej)).
  assert (k < length a) by (apply nth_error_Some; congruence). assert (j < length p) by (apply nth_error_Some; congruence).
  assert (i < length r) by (apply nth_error_Some; congruence). lia.
Qed.
Lemma nbins_nat b : Z.to_nat (nbins b) = bins_of b.
Proof. pose proof (nbins_ok b) as H. unfold dimz in H. destruct (nbins b <? 0)%Z; [discriminate|]. injection H as ->. reflexivity. Qed.
Lemma bins_pos b : x_vals b <> [] -> 0 < bins_of b.
Proof. unfold bins_of. destruct (x_vals b) as [|x l]; [contradiction|]. intros _. destruct (x_tag b); cbn [length]; try destruct (_ =? _); lia. Qed.
Lemma len1 {A} (x : list A) : Z.to_nat (Z.of_nat (length x) - 1) = length x - 1.
Proof. lia. Qed.

(** what the header of the window says about the placement *)
Definition org_of (s : tally_text placement) : list Q :=
  match bd_trsf (t_bounds s) with
  | Some p => if bd_cyl (t_bounds s) && negb (zero3 (pl_origin p)) then [v3 (pl_origin p); v2 (pl_origin p); v1 (pl_origin p)] else [0; 0; 0]%Q
  | None => [0; 0; 0]%Q
  end.
Definition dirs_of (s : tally_text placement) : option (list Q * list Q) :=
  match bd_trsf (t_bounds s) with
  | Some p => if bd_cyl (t_bounds s) then Some (vlist (pl_axis p), vlist match pl_vec p with Some v => v | None => if Qeq_bool (v1 (pl_axis p)) 1 then (0, 1, 0)%Q else (1, 0, 0)%Q end) else None
  | None => None
  end.
Lemma header_ok (s : tally_text placement) (x : FmeshModel.fmesh (R := placement)) :
  f_trsf x = option_map (fun p => (pl_origin p, p)) (bd_trsf (t_bounds s)) -> md_cyl (f_mesh x) = bd_cyl (t_bounds s) ->
  length (x_vals (md_e (f_mesh x))) <= 2 -> (bd_cyl (t_bounds s) = true -> exists p, bd_trsf (t_bounds s) = Some p) ->
  let n (l : list Q) := (Z.of_nat (length l) - 1)%Z in let m := f_mesh x in
  header_of x = Ok (mkheader 1 1 1 (if bd_cyl (t_bounds s) then 16 else 10)%Z (s2l "Generated by f4enix_ww") [1%Z] (n (md_x1 m)) (n (md_x2 m)) (n (md_x3 m)) (org_of s)
                      (n (md_x1 m)) (n (md_x2 m)) (n (md_x3 m)) (dirs_of s)).
Proof.
  intros Ht Hc He Hp n m. unfold header_of, org_of, dirs_of. fold m. fold m in Hc, He. rewrite Ht, Hc. destruct (Z.ltb_spec 1 (Z.of_nat (length (x_vals (md_e m))) - 1)); [lia|].
  destruct (bd_cyl (t_bounds s)).
  - destruct (Hp eq_refl) as (p & ->). cbn [option_map]. destruct (zero3 (pl_origin p)); reflexivity.
  - destruct (bd_trsf (t_bounds s)); reflexivity.
Qed.

Lemma gvr_main sn cs old pow ss f asked (s : tally_text placement) r :
  FileText (get_transformation true) ss f -> Chosen ss asked s -> OneGroup s -> SomeFlux s -> Placed s -> (-1 < r)%Q ->
  exists gi gj gk w x3 sl m vi vj vk,
    create_gvr sn cs old pow f asked r 1 = Some (Ok (mkGeo gi gj gk (org_of s) (dirs_of s), w))
    /\ Slices (bd_cyl (t_bounds s)) (bd_x3 (t_bounds s)) x3 sl
    /\ axis_vector gi = Ok vi /\ qlist_eq vi (bd_x1 (t_bounds s)) /\ axis_vector gj = Ok vj /\ qlist_eq vj (bd_x2 (t_bounds s))
    /\ axis_vector gk = Ok vk /\ qlist_eq vk x3
    /\ (0 < m)%Q /\ sizes s (fun nz ny nx => Peak nz ny nx (flux s) m)
    /\ (forall k j i, k < intervals x3 -> j < intervals (bd_x2 (t_bounds s)) -> i < intervals (bd_x1 (t_bounds s)) ->
          exists q, at_ (vals w) Neutron 100%Q (k, j, i) = Some q /\ (q == flux s (sl k) j i / m * (2 / (r + 1)))%Q)
    /\ (forall p e k j i q, at_ (vals w) p e (k, j, i) = Some q -> p = Neutron /\ (e == 100)%Q
          /\ k < intervals x3 /\ j < intervals (bd_x2 (t_bounds s)) /\ i < intervals (bd_x1 (t_bounds s)))
    /\ consistent Qops w /\ ge w = drawn (mkGeo gi gj gk (org_of s) (dirs_of s)).
Proof.
  intros HF HC (Ht & He & He2 & X1 & X2 & X3) HS HP Hr.
  destruct (scan_file _ ss f HF) as (d & Ed & _).
  unfold create_gvr, read_meshtally. rewrite Ed. cbn [orun]. rewrite (choose _ ss f d s asked HF Ed HC). cbn [orun].
  destruct HC as (Hs & Hn & _).
  destruct (read_one _ old ss f d s HF Ed Hs Hn) as (m & Em & Etal & Ebd & _ & _ & Hval). rewrite Em. cbn [orun mapM].
  destruct (fmesh_form sn cs m) as (x & sl & Ex & Tr & Cy & E1 & E2 & Ee & Et & SL & Da); [rewrite Ebd; intros _; exact X3|].
  cbn [snd fst]. rewrite Ex. cbn [bind dget]. rewrite Z.eqb_refl. cbn [of_opt bind].
  rewrite Ebd in *. unfold trsf_of in Tr. rewrite Ebd in Tr.
  rewrite (header_ok s x Tr Cy) by (rewrite ?Ee; try lia; intros C; destruct (HP C) as (p & Ep & _); exists p; exact Ep). cbn [bind].
  destruct (slices_len _ _ _ _ SL X3) as (X3' & S1 & S2).
  destruct (ones_vector (md_x1 (f_mesh x))) as (bi & gi & vi & Bi & Di & Vi & Qi & _); [rewrite E1; destruct (bd_x1 (t_bounds s)); cbn [length] in *; [lia|discriminate]|].
  destruct (ones_vector (md_x2 (f_mesh x))) as (bj & gj & vj & Bj & Dj & Vj & Qj & _); [rewrite E2; destruct (bd_x2 (t_bounds s)); cbn [length] in *; [lia|discriminate]|].
  destruct (ones_vector (md_x3 (f_mesh x))) as (bk & gk & vk & Bk & Dk & Vk & Qk & Lk); [destruct (md_x3 (f_mesh x)); cbn [length] in *; [lia|discriminate]|].
  rewrite Bi, Bj, Bk. cbn [bind].
  assert (Nt : (nt (f_mesh x) =? 0) = false) by (apply Nat.eqb_neq; unfold nt; rewrite Et, nbins_nat; pose proof (bins_pos _ Ht); lia).
  assert (Ne : (ne (f_mesh x) =? 0) = false) by (apply Nat.eqb_neq; unfold ne; rewrite Ee, nbins_nat; pose proof (bins_pos _ He); lia).
  rewrite Nt, Ne. cbn [orb orun]. unfold create_geometry. cbn [p_b2i p_b2j p_b2k p_header h_dirs h_origin]. rewrite Di, Dj, Dk. cbn [bind].
  assert (Up : match dirs_of s with Some (a, _) => downward a | None => false end = false).
  { unfold dirs_of. destruct (bd_trsf (t_bounds s)) as [p|] eqn:Ep; [|reflexivity]. destruct (bd_cyl (t_bounds s)) eqn:C; [|reflexivity].
    destruct (HP C) as (p' & Ep' & U). rewrite Ep in Ep'. injection Ep' as <-. unfold vlist, downward. destruct (pl_axis p) as [[a1 a2] a3]. unfold v1, v2, v3, up in *. cbn [fst snd].
    destruct (Qeq_bool a1 0) eqn:A1; [|reflexivity]. destruct (Qeq_bool a2 0) eqn:A2; [|reflexivity]. destruct (Qle_bool a3 0) eqn:A3; [|reflexivity].
    apply Qeq_bool_iff in A1, A2. apply Qle_bool_iff in A3. contradiction U. auto. }
  rewrite Up. cbn [bind h_ni h_nfx h_nfy h_nfz p_energies p_values]. rewrite !len1.
  set (nx := length (md_x1 (f_mesh x)) - 1). set (ny := length (md_x2 (f_mesh x)) - 1). set (nz := length (md_x3 (f_mesh x)) - 1).
  set (fl := ravel (f_mesh x) 0 0 fst). destruct (ravel_ok (f_mesh x) 0 0 fst) as [Lf Nf]. fold fl in Lf, Nf. unfold nx1, nx2, nx3 in Lf, Nf. fold nx ny nz in Lf, Nf.
  assert (Px : 0 < nx) by (unfold nx; rewrite E1; lia). assert (Py : 0 < ny) by (unfold ny; rewrite E2; lia). assert (Pz : 0 < nz) by (unfold nz; lia).
  destruct (reshape_spec 1 nz ny nx fl Pz Py Px) as (as_ & Er & La & Ra & _ & Ha); [rewrite Lf; lia|].
  destruct as_ as [|a [|? ?]]; [discriminate La| |discriminate La].
  unfold nested_to_values. change (particles_of_count (Z.to_nat 1)) with [Neutron]. cbn [combine seq foldM nth_error of_opt bind length]. rewrite Er. cbn [bind].
  unfold energy_dict. cbn [combine fold_left fst snd dset]. cbn [dget particle_eqb of_opt bind].
  assert (Rect : rect nz ny nx a) by (inversion Ra; assumption).
  assert (Vox : forall k j i, k < nz -> j < ny -> i < nx -> voxel a (k, j, i) = Some (flux s (sl k) j i)).
  { intros k j i Hk Hj Hi. destruct (Ha 0 k j i) as (a' & Ea & Ev); [lia|lia|lia|lia|]. injection Ea as <-. rewrite Ev.
    change ((((0 * nz + k) * ny + j) * nx + i)) with ((k * ny + j) * nx + i). unfold flux. apply Nf; try assumption. rewrite Da. apply Hval.
    - apply bins_pos; exact Ht. - apply bins_pos; exact He. - apply S1. exact Hk. - unfold intervals. rewrite <- E2. exact Hj. - unfold intervals. rewrite <- E1. exact Hi. }
  set (b := [(100%Q, a)]).
  assert (Eb : forall e y, ebin_at b e y = if Qeq_bool e 100 then voxel a y else None) by (intros e y; unfold ebin_at, b; cbn [dget]; destruct (Qeq_bool e 100); reflexivity).
  assert (Q100 : Qeq_bool 100 100 = true) by reflexivity.
  destruct HS as [Hnn (k0 & j0 & i0 & Hk0 & Hj0 & Hi0 & Hpos)].
  destruct (S2 k0 Hk0) as (k1 & Hk1 & Ek1).
  assert (Ix : intervals (bd_x1 (t_bounds s)) = nx) by (unfold intervals, nx; rewrite E1; reflexivity).
  assert (Iy : intervals (bd_x2 (t_bounds s)) = ny) by (unfold intervals, ny; rewrite E2; reflexivity).
  rewrite Ix in *. rewrite Iy in *.
  destruct (gvr_spec r b) as (b' & mm & Eg & Hm & Hval2 & (e3 & [[k3 j3] i3] & g3 & Hg3 & Hmax) & _).
  { unfold distinct_energies, b, dkeys. cbn [map fst]. repeat constructor. }
  { exact Hr. }
  { intros e [[k j] i] v. rewrite Eb. destruct (Qeq_bool e 100); [|discriminate]. intros Hv. destruct (rect_in _ _ _ _ _ _ _ _ Rect Hv) as (A & B & C).
    rewrite (Vox k j i A B C) in Hv. injection Hv as <-. apply Hnn; auto. }
  { exists 100%Q, (k1, j0, i0), (flux s k0 j0 i0). rewrite Eb, Q100, (Vox k1 j0 i0 Hk1 Hj0 Hi0), Ek1. auto. }
  fold b. rewrite Eg. cbn [bind dset particle_eqb].
  assert (At : forall p e y, at_ [(Neutron, b')] p e y = if particle_eqb p Neutron then ebin_at b' e y else None).
  { intros p e y. unfold at_, ebin_at. cbn [dget]. destruct (particle_eqb p Neutron); reflexivity. }
  exists gi, gj, gk, (new_ww Qops (drawn (mkGeo gi gj gk (org_of s) (dirs_of s))) [(Neutron, b')]), (md_x3 (f_mesh x)), sl, mm, vi, vj, vk.
  rewrite E1 in Qi. rewrite E2 in Qj.
  split; [reflexivity|]. split; [exact SL|]. repeat (split; [assumption|]).
  assert (Vals : vals (new_ww Qops (drawn (mkGeo gi gj gk (org_of s) (dirs_of s))) [(Neutron, b')]) = [(Neutron, b')]) by reflexivity.
  assert (Val : forall k j i, k < nz -> j < ny -> i < nx -> exists q, at_ [(Neutron, b')] Neutron 100%Q (k, j, i) = Some q /\ (q == flux s (sl k) j i / mm * (2 / (r + 1)))%Q /\ (q <= 2 / (r + 1))%Q).
  { intros k j i Hk Hj Hi. rewrite At. cbn [particle_eqb]. pose proof (Hval2 100%Q (k, j, i)) as G. rewrite Eb, Q100, (Vox k j i Hk Hj Hi) in G.
    destruct (ebin_at b' 100%Q (k, j, i)) as [q|]; [|contradiction]. destruct G as (G1 & [_ G2] & _). exists q. auto. }
  assert (Pc : (0 < 2 / (r + 1))%Q) by (apply Qlt_shift_div_l; lra).
  split; [|split; [|split; [|split; [reflexivity|reflexivity]]]].
  - red. rewrite Ix, Iy. split.
    + intros k j i Hk Hj Hi. destruct (S2 k Hk) as (k' & Hk' & <-). destruct (Val k' j i Hk' Hj Hi) as (q & _ & Eq & Le). rewrite Eq in Le.
      assert (L1 : (flux s (sl k') j i / mm <= 1)%Q).
      { apply Qnot_lt_le. intros L. assert (2 / (r + 1) < flux s (sl k') j i / mm * (2 / (r + 1)))%Q by nra. lra. }
      assert (Em' : (flux s (sl k') j i == flux s (sl k') j i / mm * mm)%Q) by (field; lra). rewrite Em'. nra.
    + pose proof (Hval2 e3 (k3, j3, i3)) as G. rewrite Hg3, Eb in G. destruct (Qeq_bool e3 100); [|contradiction]. destruct (voxel a (k3, j3, i3)) as [v|] eqn:Ev; [|contradiction].
      destruct G as (G1 & _). destruct (rect_in _ _ _ _ _ _ _ _ Rect Ev) as (A & B & C). rewrite (Vox k3 j3 i3 A B C) in Ev. injection Ev as <-.
      exists (sl k3), j3, i3. split; [exact (S1 k3 A)|]. split; [exact B|]. split; [exact C|].
      assert (L1 : (flux s (sl k3) j3 i3 / mm == 1)%Q). { rewrite Hmax in G1. assert ((flux s (sl k3) j3 i3 / mm - 1) * (2 / (r + 1)) == 0)%Q as Z by lra. apply Qmult_integral in Z. destruct Z as [Z|Z]; lra. }
      assert (Em' : (flux s (sl k3) j3 i3 == flux s (sl k3) j3 i3 / mm * mm)%Q) by (field; lra). rewrite Em', L1. ring.
  - intros k j i Hk Hj Hi. destruct (Val k j i Hk Hj Hi) as (q & A & B & _). exists q. rewrite Vals. auto.
  - intros p e k j i q. rewrite Vals, At. destruct p; cbn [particle_eqb]; [|discriminate]. intros Hq. pose proof (Hval2 e (k, j, i)) as G. rewrite Hq, Eb in G.
    destruct (Qeq_bool e 100) eqn:Ee'; [|contradiction]. destruct (voxel a (k, j, i)) as [v|] eqn:Ev; [|contradiction].
    destruct (rect_in _ _ _ _ _ _ _ _ Rect Ev) as (A & B & C). split; [reflexivity|]. split; [apply Qeq_bool_iff; exact Ee'|]. auto.
Qed.

(** refusals *)
Lemma gvr_upto sn cs old pow ss f asked (s : tally_text placement) r soft : FileText (get_transformation true) ss f -> Chosen ss asked s ->
  (bd_cyl (t_bounds s) = true -> 2 <= length (bd_x3 (t_bounds s))) ->
  exists x, f_trsf x = option_map (fun p => (pl_origin p, p)) (bd_trsf (t_bounds s)) /\ md_cyl (f_mesh x) = bd_cyl (t_bounds s)
    /\ md_e (f_mesh x) = bd_e (t_bounds s)
    /\ forall e, header_of x = Err e -> create_gvr sn cs old pow f asked r soft = Some (Err e).
Proof.
  intros HF HC X3. destruct (scan_file _ ss f HF) as (d & Ed & _).
  unfold create_gvr, read_meshtally. rewrite Ed. cbn [orun]. rewrite (choose _ ss f d s asked HF Ed HC). cbn [orun].
  destruct HC as (Hs & Hn & _).
  destruct (read_one _ old ss f d s HF Ed Hs Hn) as (m & Em & Etal & Ebd & _ & _ & Hval). rewrite Em. cbn [orun mapM].
  destruct (fmesh_form sn cs m) as (x & sl & Ex & Tr & Cy & E1 & E2 & Ee & Et & SL & Da); [rewrite Ebd; exact X3|].
  exists x. unfold trsf_of in Tr. rewrite Ebd in *. split; [exact Tr|]. split; [exact Cy|]. split; [exact Ee|]. intros e He.
  cbn [snd fst]. rewrite Ex. cbn [bind dget]. rewrite Z.eqb_refl. cbn [of_opt bind]. rewrite He. reflexivity.
Qed.
Lemma gvr_soft sn cs old pow f asked r soft :
  create_gvr sn cs old pow f asked r soft =
  match create_gvr sn cs old pow f asked r 1 with
  | Some (Ok (g, w)) => Some (Ok (g, soften Qops pow w soft))
  | o => o
  end.
Proof.
  unfold create_gvr. destruct (read_meshtally sn cs old f asked) as [[p|e]|]; try reflexivity. cbn [orun].
  destruct (create_geometry p) as [g|e]; [|reflexivity]. cbn [bind].
  destruct (nested_to_values _ _ _ _ _ _) as [v|e]; [|reflexivity]. cbn [bind].
  destruct (of_opt KeyError (dget particle_eqb Neutron v)) as [b|e]; [|reflexivity]. cbn [bind].
  destruct (flux_to_gvr Qops (2 / (r + 1))%Q b) as [b'|e]; [|reflexivity]. cbn [bind].
  change (Qeq_bool 1 1) with true. cbn match. unfold soften. cbn [oeqb Qops o1]. destruct (Qeq_bool soft 1); reflexivity.
Qed.
Lemma gvr_down sn cs old pow ss f asked (s : tally_text placement) r soft p : FileText (get_transformation true) ss f -> Chosen ss asked s ->
  OneGroup s -> bd_cyl (t_bounds s) = true -> bd_trsf (t_bounds s) = Some p -> ~ up (pl_axis p) -> create_gvr sn cs old pow f asked r soft = Some (Err ValueError).
Proof.
  intros HF HC (Ht & He & He2 & X1 & X2 & X3) C Ep U.
  destruct (scan_file _ ss f HF) as (d & Ed & _).
  unfold create_gvr, read_meshtally. rewrite Ed. cbn [orun]. rewrite (choose _ ss f d s asked HF Ed HC). cbn [orun].
  destruct HC as (Hs & Hn & _).
  destruct (read_one _ old ss f d s HF Ed Hs Hn) as (m & Em & Etal & Ebd & _ & _ & Hval). rewrite Em. cbn [orun mapM].
  destruct (fmesh_form sn cs m) as (x & sl & Ex & Tr & Cy & E1 & E2 & Ee & Et & SL & Da); [rewrite Ebd; intros _; exact X3|].
  cbn [snd fst]. rewrite Ex. cbn [bind dget]. rewrite Z.eqb_refl. cbn [of_opt bind].
  rewrite Ebd in *. unfold trsf_of in Tr. rewrite Ebd in Tr.
  rewrite (header_ok s x Tr Cy) by (rewrite ?Ee; try lia; intros _; exists p; exact Ep). cbn [bind].
  destruct (slices_len _ _ _ _ SL X3) as (X3' & S1 & S2).
  destruct (ones_vector (md_x1 (f_mesh x))) as (bi & gi & vi & Bi & Di & Vi & Qi & _); [rewrite E1; destruct (bd_x1 (t_bounds s)); cbn [length] in *; [lia|discriminate]|].
  destruct (ones_vector (md_x2 (f_mesh x))) as (bj & gj & vj & Bj & Dj & Vj & Qj & _); [rewrite E2; destruct (bd_x2 (t_bounds s)); cbn [length] in *; [lia|discriminate]|].
  destruct (ones_vector (md_x3 (f_mesh x))) as (bk & gk & vk & Bk & Dk & Vk & Qk & Lk); [destruct (md_x3 (f_mesh x)); cbn [length] in *; [lia|discriminate]|].
  rewrite Bi, Bj, Bk. cbn [bind].
  assert (Nt : (nt (f_mesh x) =? 0) = false) by (apply Nat.eqb_neq; unfold nt; rewrite Et, nbins_nat; pose proof (bins_pos _ Ht); lia).
  assert (Ne : (ne (f_mesh x) =? 0) = false) by (apply Nat.eqb_neq; unfold ne; rewrite Ee, nbins_nat; pose proof (bins_pos _ He); lia).
  rewrite Nt, Ne. cbn [orb orun]. unfold create_geometry. cbn [p_b2i p_b2j p_b2k p_header h_dirs h_origin]. rewrite Di, Dj, Dk. cbn [bind].
  unfold dirs_of. rewrite Ep, C. unfold vlist at 1. unfold downward. destruct (pl_axis p) as [[a1 a2] a3]. unfold v1, v2, v3, up in *. cbn [fst snd].
  assert (B : Qeq_bool a1 0 && Qeq_bool a2 0 && Qle_bool a3 0 = true).
  { destruct (Qeq_bool a1 0) eqn:A1; [destruct (Qeq_bool a2 0) eqn:A2; [destruct (Qle_bool a3 0) eqn:A3; [reflexivity|]|]|]; exfalso; apply U; intros (Z1 & Z2 & Z3).
    - apply Qle_bool_iff in Z3. congruence. - apply Qeq_bool_iff in Z2. congruence. - apply Qeq_bool_iff in Z1. congruence. }
  rewrite B. reflexivity.
Qed.
Lemma gvr_absent sn cs old pow ss f z r soft : FileText (get_transformation true) ss f -> ~ In z (map t_num ss) -> z <> 0%Z ->
  create_gvr sn cs old pow f z r soft = Some (Err KeyError).
Proof.
  intros HF Hz Hn. destruct (scan_file _ ss f HF) as (d & Ed & _). unfold create_gvr, read_meshtally. rewrite Ed. cbn [orun].
  destruct (Z.eqb_spec z 0); [contradiction|]. cbn [orun]. rewrite (read_absent _ old ss f d z HF Ed Hz Hn). reflexivity.
Qed.
Lemma gvr_none sn cs old pow f r soft : FileText (T := placement) (get_transformation true) [] f -> create_gvr sn cs old pow f 0 r soft = Some (Err IndexError).
Proof.
  intros HF. destruct (scan_file _ [] f HF) as (d & Ed & HS). inversion HS; subst. unfold create_gvr, read_meshtally. rewrite Ed. reflexivity.
Qed.
