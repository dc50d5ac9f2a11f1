(** Proofs about the sampling errors of CUV files (C43) *)
From Coq Require Import Lia ZArith QArith Reals Lra Qreals.
From Verif Require Import PyBase PyLemmas PyStr PyStrLemmas MeshModel MeshSpec MeshProofs CuvErrModel CuvErrSpec.
Open Scope nat_scope.

Section Root.
  Context (root : Q -> Q).

  (** *** the number of one cell *)
  Notation err_of := (error_value root).

  Lemma nonneg_x q points : Fraction q -> (0 < points)%Z -> (0 <= (q - q * q) / inject_Z points)%Q.
  Proof.
    intros [H1 H2] Hp. apply Qle_shift_div_l.
    - change 0%Q with (inject_Z 0). rewrite <- Zlt_Qlt. exact Hp.
    - rewrite Qmult_0_l. setoid_replace (q - q * q)%Q with (q * (1 - q))%Q by ring.
      apply Qmult_le_0_compat; [apply Qlt_le_weak; exact H1|].
      apply -> Qle_minus_iff in H2. exact H2.
  Qed.

  Lemma sampling_ok q points : Fraction q -> (0 < points)%Z -> sampling_error root q points = Ok (Real (err_of points q)).
  Proof.
    intros Hf Hp. unfold sampling_error, error_value.
    destruct (Z.eqb_spec points 0); [lia|].
    destruct (Qeq_bool q 0) eqn:E.
    - apply Qeq_bool_iff in E. destruct Hf as [H _]. rewrite E in H. apply Qlt_irrefl in H. contradiction.
    - assert (Hx := nonneg_x q points Hf Hp). apply Qle_bool_iff in Hx. rewrite Hx. reflexivity.
  Qed.

  (** *** dictionaries filled in turn *)
  Lemma fold_dset {A V} (key : A -> Z) (val : A -> V) (l : list A) k : forall d,
    dget Z.eqb k (fold_left (fun d a => dset Z.eqb (key a) (val a) d) l d)
    = match last_with key k l with Some a => Some (val a) | None => dget Z.eqb k d end.
  Proof.
    unfold last_with. induction l as [|a l IH]; intros d; [reflexivity|]. cbn [fold_left rev]. rewrite IH.
    assert (G : forall (x y : list A), find (fun a => Z.eqb (key a) k) (x ++ y) =
      match find (fun a => Z.eqb (key a) k) x with Some b => Some b | None => find (fun a => Z.eqb (key a) k) y end).
    { induction x as [|b x IHx]; intros y; [reflexivity|]. cbn [app find]. destruct (Z.eqb (key b) k); auto. }
    rewrite G. destruct (find _ (rev l)); [reflexivity|]. cbn [find].
    destruct (Z.eqb_spec (key a) k) as [->|n].
    - apply dget_dset_same. exact Z.eqb_eq.
    - apply dget_dset_other; [exact Z.eqb_eq|congruence].
  Qed.

  Lemma last_map {A B} (key : B -> Z) (g : A -> B) k l : last_with key k (map g l) = option_map g (last_with (fun a => key (g a)) k l).
  Proof.
    unfold last_with. rewrite <- map_rev. induction (rev l) as [|a l' IH]; [reflexivity|]. cbn [map find].
    destruct (Z.eqb _ _); auto.
  Qed.

  (** *** one voxel *)
  Definition numbered (points : Z) (c : Z * Q) : Z * num := (fst c, Real (err_of points (snd c))).

  Lemma read_cell_ok points c l r : CellLine c l -> Fraction (snd c) -> (0 < points)%Z ->
    read_cell root points (l :: r) = Ok (numbered points c, r).
  Proof.
    intros (w0 & w1 & ws & Hs & H0 & H1) Hf Hp. unfold read_cell. cbn [readline hd tl]. rewrite Hs, H0. cbn [bind].
    rewrite H1. cbn [bind]. rewrite (sampling_ok _ _ Hf Hp). reflexivity.
  Qed.

  Lemma read_cells_ok points cs : forall ls r, Forall2 CellLine cs ls -> Forall (fun c => Fraction (snd c)) cs -> (0 < points)%Z ->
    loop (length cs) (read_cell root points) (ls ++ r) = Ok (map (numbered points) cs, r).
  Proof.
    induction cs as [|c cs IH]; intros ls r H Hf Hp; inversion H; subst; [reflexivity|]. cbn [length loop app].
    inversion Hf; subst. rewrite (read_cell_ok points c) by assumption. cbn [bind].
    rewrite (IH _ r) by assumption. reflexivity.
  Qed.

  Definition dict_of (points : Z) (v : pvoxel) : list (Z * num) :=
    fold_left (fun d c => dset Z.eqb (fst c) (snd c) d) (map (numbered points) (pv_cells v)) [].

  Lemma dict_of_get points v c : dget Z.eqb c (dict_of points v)
    = option_map (fun x => Real (err_of points (snd x))) (last_with fst c (pv_cells v)).
  Proof.
    unfold dict_of. rewrite fold_dset. rewrite last_map.
    change (fun a : Z * Q => fst (numbered points a)) with (fun a : Z * Q => fst a).
    change (last_with (fun a : Z * Q => fst a) c (pv_cells v)) with (last_with fst c (pv_cells v)).
    destruct (last_with fst c (pv_cells v)); reflexivity.
  Qed.

  Notation fractions := Fractions.

  Lemma read_head points v h : HeadLine v h -> forall f,
    read_voxel root points (h :: f) =
      do '(cs, f2) <- loop (length (pv_cells v)) (read_cell root points) f;
      Ok (((pv_index v - 1)%Z, fold_left (fun d c => dset Z.eqb (fst c) (snd c) d) cs []), skipline (2 * length (pv_cells v)) f2).
  Proof.
    intros (w0 & w1 & w2 & w3 & w4 & w5 & ws & Hs & H0 & H5) f. unfold read_voxel. cbn [readline hd tl]. rewrite Hs, H0.
    cbn [bind nth_error]. rewrite H5. cbn [bind]. rewrite Nat2Z.id.
    replace (Z.to_nat (2 * Z.of_nat (length (pv_cells v)))) with (2 * length (pv_cells v)) by lia. reflexivity.
  Qed.

  Lemma read_voxel_ok points v ls r : PVoxelText v ls -> fractions v -> (0 < points)%Z ->
    read_voxel root points (ls ++ r) = Ok (((pv_index v - 1)%Z, dict_of points v), r).
  Proof.
    intros (h & cs & vals & -> & Hh & Hc & Hv) Hf Hp. cbn [app].
    rewrite (read_head points v h Hh). rewrite <- app_assoc.
    rewrite (read_cells_ok points (pv_cells v) cs _ Hc Hf Hp). cbn [bind].
    unfold dict_of. rewrite (skip_app vals r _ Hv). reflexivity.
  Qed.

  Lemma voxel_nonempty v ls : PVoxelText v ls -> 1 <= length ls.
  Proof. intros (h & cs & vals & -> & _). cbn. lia. Qed.

  Lemma stops points r : Stops r -> read_voxel root points r = Err IndexError.
  Proof. intros [->|(l & r' & -> & H)]; [reflexivity|]. unfold read_voxel. cbn [readline hd tl]. rewrite H. reflexivity. Qed.

  Lemma read_data_ok points r : (0 < points)%Z -> read_voxel root points r = Err IndexError ->
    forall vs ts d fuel, Forall2 PVoxelText vs ts -> Forall fractions vs -> length (concat ts) < fuel ->
    read_cuv_data root fuel points d (concat ts ++ r)
    = Ok (fold_left (fun d v => dset Z.eqb (pv_index v - 1)%Z (dict_of points v) d) vs d).
  Proof.
    intros Hp Hr. induction vs as [|v vs IH]; intros ts d fuel H Hf Hl; inversion H; subst.
    - destruct fuel; [lia|]. cbn [concat app read_cuv_data]. rewrite Hr. reflexivity.
    - inversion Hf; subst. destruct fuel; [lia|]. cbn [concat read_cuv_data fold_left] in *. rewrite <- app_assoc.
      rewrite (read_voxel_ok points v) by assumption. cbn [fst snd]. apply IH; [assumption..|].
      rewrite app_length in Hl. pose proof (voxel_nonempty v y ltac:(assumption)). lia.
  Qed.

  Lemma find_index points pre f : Preamble pre -> volume_errors root points (pre ++ f) = read_cuv_data root (S (length f)) points [] f.
  Proof.
    intros (bef & l & -> & Hm & Hb). induction bef as [|b bef IH]; cbn [app volume_errors].
    - apply has_iff in Hm. rewrite Hm. reflexivity.
    - inversion Hb; subst. rewrite (has_not "INDEX" b) by assumption. apply IH. assumption.
  Qed.

  Definition all_voxels (points : Z) (vs : list pvoxel) : list (Z * list (Z * num)) :=
    fold_left (fun d v => dset Z.eqb (pv_index v - 1)%Z (dict_of points v) d) vs [].

  Lemma volume_ok points pre vs ls r : (0 < points)%Z -> Preamble pre -> PVoxels vs ls -> read_voxel root points r = Err IndexError ->
    Forall fractions vs -> volume_errors root points (pre ++ ls ++ r) = Ok (all_voxels points vs).
  Proof.
    intros Hp Hpre (ts & -> & Ht) Hr Hf. rewrite (find_index points pre _ Hpre).
    apply read_data_ok; auto. rewrite app_length. lia.
  Qed.

  Lemma all_voxels_get points vs i : dget Z.eqb i (all_voxels points vs) = option_map (dict_of points) (last_with pv_index (i + 1) vs).
  Proof.
    unfold all_voxels. rewrite fold_dset.
    assert (E : last_with (fun v => (pv_index v - 1)%Z) i vs = last_with pv_index (i + 1) vs).
    { unfold last_with. induction (rev vs) as [|v l IH]; [reflexivity|]. cbn [find].
      destruct (Z.eqb_spec (pv_index v - 1) i), (Z.eqb_spec (pv_index v) (i + 1)); try lia; auto. }
    rewrite E. destruct (last_with pv_index (i + 1) vs); reflexivity.
  Qed.

  (** *** the maximum *)
  Lemma max_num_ok l : forall m, Forall (fun x => exists q, x = Real q) l ->
    exists e, max_num m l = Ok e /\ (e = m \/ In (Real e) l) /\ (m <= e)%Q /\ forall q, In (Real q) l -> (q <= e)%Q.
  Proof.
    induction l as [|x l IH]; intros m H.
    - exists m. repeat split; auto; [apply Qle_refl|intros q []].
    - inversion H as [|? ? (q & ->) H2]; subst. cbn [max_num].
      destruct (IH (if Qle_bool q m then m else q) H2) as (e & E & He & Hm & Ha). exists e. split; [exact E|].
      assert (Hqm : (q <= (if Qle_bool q m then m else q))%Q /\ (m <= (if Qle_bool q m then m else q))%Q).
      { destruct (Qle_bool q m) eqn:L.
        - apply Qle_bool_iff in L. split; [exact L|apply Qle_refl].
        - split; [apply Qle_refl|]. apply Qlt_le_weak, Qnot_le_lt. intros C. apply Qle_bool_iff in C. congruence. }
      split; [|split].
      + destruct He as [He|He]; [|right; right; exact He]. destruct (Qle_bool q m); [left; exact He|right; left; congruence].
      + eapply Qle_trans; [apply (proj2 Hqm)|exact Hm].
      + intros q' [Eq|Hin]; [|apply Ha; exact Hin]. injection Eq as <-. eapply Qle_trans; [apply (proj1 Hqm)|exact Hm].
  Qed.

  Lemma dset_real (points : Z) c x d : Forall (fun y => exists q, snd y = Real q) d -> (exists q, x = Real q) ->
    Forall (fun y : Z * num => exists q, snd y = Real q) (dset Z.eqb c x d).
  Proof.
    intros H Hx. induction d as [|(k, y) d IH]; cbn [dset]; [constructor; auto|]. inversion H; subst.
    destruct (Z.eqb c k); constructor; auto.
  Qed.
  Lemma dict_real points v : Forall (fun y => exists q, snd y = Real q) (dict_of points v).
  Proof.
    unfold dict_of. assert (G : forall cs d, Forall (fun y : Z * num => exists q, snd y = Real q) d ->
      Forall (fun y => exists q, snd y = Real q) (fold_left (fun d c => dset Z.eqb (fst c) (snd c) d) (map (numbered points) cs) d)).
    { induction cs as [|c cs IH]; intros d Hd; [exact Hd|]. cbn [map fold_left]. apply IH. apply dset_real; [exact points|exact Hd|].
      exists (err_of points (snd c)). reflexivity. }
    apply G. constructor.
  Qed.

  Lemma dget_In (k : Z) (x : num) d : dget Z.eqb k d = Some x -> In (k, x) d.
  Proof.
    induction d as [|(k', y) d IH]; cbn [dget]; [discriminate|]. destruct (Z.eqb_spec k k') as [->|n].
    - intros E. injection E as <-. left; reflexivity.
    - intros E. right. auto.
  Qed.

  Lemma nodup_keys_fold cs : forall (d : list (Z * num)), NoDup (map fst d) ->
    NoDup (map fst (fold_left (fun d (c : Z * num) => dset Z.eqb (fst c) (snd c) d) cs d)).
  Proof.
    induction cs as [|c cs IH]; intros d H; [exact H|]. cbn [fold_left]. apply IH.
    clear IH. induction d as [|(k, y) d IHd]; cbn [dset map fst]; [constructor; [intros []|constructor]|].
    cbn [map fst] in H. inversion H; subst. destruct (Z.eqb_spec (fst c) k) as [E|n]; cbn [map fst]; [constructor; assumption|].
    constructor; [|apply IHd; assumption]. intros Hin.
    assert (G : In k (map fst (dset Z.eqb (fst c) (snd c) d)) -> In k (map fst d)).
    { clear - n. induction d as [|(k', y') d IH]; cbn [dset map fst In].
      - intros [E|[]]. destruct (n E).
      - destruct (Z.eqb (fst c) k'); cbn [map fst In]; intuition. }
    auto.
  Qed.

  Lemma In_dget (k : Z) (x : num) d : NoDup (map fst d) -> In (k, x) d -> dget Z.eqb k d = Some x.
  Proof.
    induction d as [|(k', y) d IH]; cbn [map fst In dget]; [intros _ []|]. intros H [E|Hin]; inversion H; subst.
    - injection E as -> ->. rewrite Z.eqb_refl. reflexivity.
    - destruct (Z.eqb_spec k k') as [->|n]; [|auto]. exfalso. apply H2. apply (in_map fst) in Hin. exact Hin.
  Qed.

  Lemma dict_in points v c x : In (c, x) (dict_of points v) <->
    exists q, last_with fst c (pv_cells v) = Some q /\ x = Real (err_of points (snd q)).
  Proof.
    assert (N : NoDup (map fst (dict_of points v))) by (apply nodup_keys_fold; constructor).
    pose proof (dict_of_get points v c) as G. split.
    - intros H. rewrite (In_dget c x _ N H) in G. destruct (last_with fst c (pv_cells v)) as [q|]; [|discriminate G].
      injection G as ->. eauto.
    - intros (q & E & ->). rewrite E in G. apply dget_In. exact G.
  Qed.

  (* the error a grid cell gets *)
  Lemma cell_error_ok points vs i :
    exists e, cell_error (all_voxels points vs) i = Ok e /\
      match last_with pv_index (Z.of_nat i + 1) vs with
      | None => e = 0%Q
      | Some v => (pv_cells v = [] /\ e = 0%Q)
                  \/ ((exists c cq, last_with fst c (pv_cells v) = Some cq /\ e = err_of points (snd cq))
                      /\ forall c cq, last_with fst c (pv_cells v) = Some cq -> (err_of points (snd cq) <= e)%Q)
      end.
  Proof.
    unfold cell_error. rewrite all_voxels_get. destruct (last_with pv_index (Z.of_nat i + 1) vs) as [v|]; cbn [option_map]; [|eauto].
    pose proof (dict_real points v) as Hr. pose proof (fun c x => dict_in points v c x) as Hin.
    destruct (dict_of points v) as [|(c, [q|]) d].
    - exists 0%Q. split; [reflexivity|]. left. split; [|reflexivity].
      destruct (pv_cells v) as [|c cs] eqn:Ec; [reflexivity|]. exfalso.
      assert (exists q, last_with fst (fst c) (c :: cs) = Some q) as (q & Hq).
      { unfold last_with. assert (Hi : In c (rev (c :: cs))) by (apply in_rev; rewrite rev_involutive; left; reflexivity).
        induction (rev (c :: cs)) as [|b l IH]; [destruct Hi|]. cbn [find]. destruct (Z.eqb_spec (fst b) (fst c)); [eauto|].
        destruct Hi as [->|Hi]; [congruence|auto]. }
      destruct (Hin (fst c) (Real (err_of points (snd q)))) as [_ H]. destruct H; eauto.
    - inversion Hr as [|? ? _ Hr2]; subst.
      destruct (max_num_ok (map snd d) q) as (e & E & He & Hm & Ha).
      { apply Forall_map. eapply Forall_impl; [|exact Hr2]. auto. }
      exists e. split; [exact E|]. right. split.
      + destruct He as [->|He].
        * destruct (proj1 (Hin c (Real q))) as (cq & H1 & H2); [left; reflexivity|]. injection H2 as ->. eauto.
        * apply in_map_iff in He. destruct He as ((c', x) & Hx & Hi). cbn [snd] in Hx. subst x.
          destruct (proj1 (Hin c' (Real e))) as (cq & H1 & H2); [right; exact Hi|]. injection H2 as ->. eauto.
      + intros c' cq Hc. destruct (proj2 (Hin c' (Real (err_of points (snd cq))))) as [Ex|Hi]; [eauto| |].
        * injection Ex as -> <-. exact Hm.
        * apply Ha. apply (in_map snd) in Hi. exact Hi.
    - inversion Hr as [|? ? [q Hq] _]. discriminate Hq.
  Qed.
End Root.

(** *** the formula *)
Lemma formula_R p n : (0 < p)%R -> (0 < n)%R -> (sqrt ((p - p * p) / n) / p = sqrt (n * p * (1 - p)) / (n * p))%R.
Proof.
  intros Hp Hn. replace (n * p * (1 - p))%R with ((n * n) * ((p - p * p) / n))%R by (field; lra).
  rewrite sqrt_mult_alt by nra. rewrite sqrt_square by lra. field. lra.
Qed.

Lemma deviation_decreases p q n : (0 < p)%R -> (p <= q)%R -> (q <= 1)%R -> (0 < n)%R -> (relative_deviation q n <= relative_deviation p n)%R.
Proof.
  intros Hp Hpq Hq Hn. unfold relative_deviation.
  assert (G : forall x, (0 < x)%R -> (sqrt (n * x * (1 - x)) / (n * x) = sqrt ((/ x - 1) / n))%R).
  { intros x Hx. replace (n * x * (1 - x))%R with ((n * x) * (n * x) * ((/ x - 1) / n))%R by (field; lra).
    rewrite sqrt_mult_alt by nra. rewrite sqrt_square by nra. field. lra. }
  rewrite !G by lra. apply sqrt_le_1_alt. unfold Rdiv. apply Rmult_le_compat_r.
  - left. apply Rinv_0_lt_compat. exact Hn.
  - assert (/ q <= / p)%R by (apply Rinv_le_contravar; assumption). lra.
Qed.
