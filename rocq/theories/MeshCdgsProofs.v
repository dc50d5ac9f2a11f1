(** Proofs about CDGS sources (C55) *)
From Coq Require Import Lia ZArith Qfield.
From Verif Require Import PyBase PyLemmas PyStr PyStrLemmas D1SProofs2 WWTextProofs MatProofs RssaProofs2 MeshModel MeshSpec MeshProofs MeshCuvModel MeshCuvSpec MeshCuvProofs.
Open Scope nat_scope.

Lemma no_words (z : list str) : concat (map split z) = [] -> forall y, In y z -> split y = [].
Proof.
  induction z as [|a z IHz]; intros E y Hy; [contradiction|]. cbn [map concat] in E.
  apply app_eq_nil in E as [E1 E2]. destruct Hy as [<-|Hy]; auto.
Qed.
Lemma last_in (m : list str) : forall x, In (last (x :: m) []) (x :: m).
Proof. induction m as [|y m IHm]; intros x; [left; reflexivity|]. right. apply IHm. Qed.
Lemma last_words (m : list str) x : split (last (x :: m) []) <> [] -> concat (map split (x :: m)) <> [].
Proof. intros H E. apply H. apply (no_words _ E). apply last_in. Qed.
Lemma multi_ok n ls : forall acc r, length (acc ++ concat (map split ls)) = n -> (ls = [] \/ split (last ls []) <> []) ->
  multi_words n acc (ls ++ r) = Some (acc ++ concat (map split ls), r).
Proof.
  induction ls as [|l ls IH]; intros acc r L H.
  - cbn [map concat] in *. rewrite app_nil_r in *. cbn [app]. destruct r; cbn [multi_words]; rewrite L, Nat.leb_refl; reflexivity.
  - destruct H as [H|H]; [discriminate H|]. cbn [app multi_words map concat].
    cbn [map concat] in L.
    assert (Hlt : length acc < n).
    { rewrite !app_length in L. destruct ls as [|l2 ls].
      - cbn [last] in H. destruct (split l); [contradiction|]. cbn [length] in L. lia.
      - assert (K : concat (map split (l2 :: ls)) <> []) by (apply last_words; exact H).
        destruct (concat (map split (l2 :: ls))); [contradiction|]. cbn [length] in L. lia. }
    destruct (Nat.leb_spec n (length acc)); [lia|].
    rewrite (IH (acc ++ split l) r).
    + rewrite <- app_assoc. reflexivity.
    + rewrite <- app_assoc. exact L.
    + destruct ls as [|l2 ls]; [left; reflexivity|right; exact H].
Qed.
Lemma wrapped_ok n v ls r : Wrapped n v ls -> multilines n (ls ++ r) = Some (Ok (row n v, r)).
Proof.
  intros (ws & E & L & Hl & Hn). unfold multilines. rewrite (multi_ok n ls [] r); [|cbn [app]; rewrite E; exact L|exact Hl].
  cbn [app]. rewrite E. destruct (mapM_numerals ws v Hn) as (qs & Eq & Lq & Hq). rewrite Eq. cbn [bind].
  assert (Eqs : qs = row n v); [|rewrite Eqs; reflexivity].
  apply nth_error_ext. intros c. destruct (Nat.lt_ge_cases c (length ws)) as [Hc|Hc].
  - rewrite (Hq c Hc). unfold row. rewrite nth_error_map.
    rewrite (nth_error_nth' (seq 0 n) 0) by (rewrite seq_length; lia). rewrite seq_nth by lia. reflexivity.
  - rewrite (proj2 (nth_error_None qs c)) by lia. symmetry. apply nth_error_None. rewrite row_len. lia.
Qed.
Lemma row_snoc n v : row (S n) v = row n v ++ [v n].
Proof. unfold row. rewrite seq_S, map_app. reflexivity. Qed.
Lemma src_cell_ok n c ls r : SrcCell n c ls ->
  read_cdgs_cell n (ls ++ r) = Some (Ok (((vc_num c, vc_frac c), (row (axis n) (vc_val c), row (axis n) (vc_err c))), r)).
Proof.
  intros (h & w0 & w1 & ws & lv & le & -> & Hs & (q & Hq & Eq) & Hf & Ht & Hv & He). unfold read_cdgs_cell. cbn [readline app hd tl].
  rewrite Hs, Hq. cbn [bind]. rewrite Hf. cbn [bind mbind]. rewrite (ints_ok w0 _ _ Hq Eq). rewrite <- app_assoc, (wrapped_ok n _ lv _ Hv). cbn [mbind].
  rewrite (wrapped_ok n _ le _ He). cbn [mbind]. unfold axis, TotalText in *. destruct (Nat.eqb_spec n 1) as [->|Hn]; [reflexivity|].
  rewrite !row_snoc. destruct ws as [|a [|b ws]].
  - destruct Ht as [E1 E2]. cbn [bind]. unfold qsum. rewrite E1, E2. reflexivity.
  - destruct Ht as [E1 E2]. rewrite E1. cbn [bind]. rewrite E2. reflexivity.
  - destruct Ht as [E1 E2]. rewrite E1. cbn [bind]. rewrite E2. reflexivity.
Qed.
Lemma src_cells_ok n cs cts r : Forall2 (SrcCell n) cs cts ->
  mloop (length cs) (read_cdgs_cell n) (concat cts ++ r) = Some (Ok (map (fun c => ((vc_num c, vc_frac c), (row (axis n) (vc_val c), row (axis n) (vc_err c)))) cs, r)).
Proof.
  induction 1 as [|c p cs cts Hc H IH]; [reflexivity|]. cbn [length mloop concat map]. rewrite <- app_assoc, (src_cell_ok n c p _ Hc). cbn [mbind]. rewrite IH. reflexivity.
Qed.

Definition Src (ne : nat) (v : voxel) (ve : list Q * list Q) : Prop :=
  is_value ne (fun k => wsum (fun c => vc_val c k) (vx_cells v)) (fst ve) /\ length (snd ve) = ne
  /\ forall k, k < ne -> exists q, nth_error (snd ve) k = Some q /\ (~ wsum (fun c => vc_val c k) (vx_cells v) == 0 -> q == error_of None v k)%Q.

Lemma sum_fracs cs : (qsum (map (fun c : vcell => vc_frac c) cs) == wsum one cs)%Q.
Proof. induction cs as [|c cs IH]; [reflexivity|]. cbn [map qsum fold_right wsum]. unfold qsum in IH. rewrite IH. unfold one at 2. cbn [wsum]. unfold wsum. ring. Qed.
Lemma not_end w z : Ints w z -> str_eqb w (s2l "end_source_data") = false.
Proof.
  intros (q & Hq & _). destruct (str_eqb w (s2l "end_source_data")) eqn:E; [|reflexivity]. apply str_eqb_eq in E. subst w. discriminate Hq.
Qed.
(* the element reader on a described voxel *)
Lemma element_form n i v ls r : SrcVoxel n (i, v) ls ->
  cdgs_element n (ls ++ r) =
    if Qeq_bool (qsum (map (fun c : vcell => vc_frac c) (vx_cells v))) 0 then Some (Err ValueError)
    else Some (do '(a, e) <- (if 1 <? length (vx_cells v)
                              then mean_value (map (fun c => (vc_num c, vc_frac c)) (vx_cells v)) (map (fun c => row (axis n) (vc_val c)) (vx_cells v)) (map (fun c => row (axis n) (vc_err c)) (vx_cells v))
                              else match map (fun c => row (axis n) (vc_val c)) (vx_cells v), map (fun c => row (axis n) (vc_err c)) (vx_cells v) with a :: _, b :: _ => Ok (a, b) | _, _ => Err IndexError end);
               Ok (Some (Z.of_nat (S i), (a, e)), r)).
Proof.
  intros (h & pre & w0 & wv & wn & cts & -> & Hs & Hi & Hvol & (qn & Hqn & Eqn) & Hc). cbn [fst snd] in *.
  unfold cdgs_element. cbn [readline app hd tl]. rewrite Hs, (not_end _ _ Hi).
  destruct Hi as (q & Hq & Eq). rewrite Hq. cbn [bind mbind]. rewrite (ints_ok w0 _ _ Hq Eq).
  assert (R : rev (w0 :: pre ++ [wv; wn]) = wn :: wv :: rev (w0 :: pre)).
  { change (w0 :: pre ++ [wv; wn]) with ((w0 :: pre) ++ [wv; wn]). rewrite rev_app_distr. reflexivity. }
  rewrite R. rewrite Hvol. cbn [bind]. rewrite Hqn. cbn [bind mbind]. rewrite (ints_ok wn _ _ Hqn Eqn), Nat2Z.id.
  rewrite (src_cells_ok n _ cts r Hc). cbn [mbind]. rewrite !map_map. cbn [fst snd]. reflexivity.
Qed.
Lemma src_element_ok n i v ls r : SrcVoxel n (i, v) ls -> Fills v -> LoneFull v ->
  exists ve, cdgs_element n (ls ++ r) = Some (Ok (Some (Z.of_nat (S i), ve), r)) /\ Src (axis n) v ve.
Proof.
  intros H Hf Hl. rewrite (element_form n i v ls r H).
  assert (E0 : Qeq_bool (qsum (map (fun c : vcell => vc_frac c) (vx_cells v))) 0 = false).
  { destruct (Qeq_bool _ 0) eqn:E; [|reflexivity]. apply Qeq_bool_eq in E. rewrite sum_fracs in E. contradiction. }
  rewrite E0. assert (Hne : vx_cells v <> []). { intros E. apply Hf. rewrite E. reflexivity. }
  destruct (Nat.ltb_spec 1 (length (vx_cells v))) as [Hlen|Hlen].
  - destruct (mean_ok (axis n) (vx_cells v) Hne) as (a & e & E & Hv & Le & He). rewrite E. cbn [bind]. exists (a, e). split; [reflexivity|]. split; [exact Hv|]. split; [exact Le|]. exact He.
  - unfold LoneFull in Hl. destruct (vx_cells v) as [|c [|c2 cs]] eqn:Ec; [contradiction| |cbn [length] in Hlen; lia].
    cbn [map bind]. eexists. split; [reflexivity|]. unfold Src, error_of, chosen. rewrite Ec. split; [|split; [apply row_len|]]; cbn [fst snd].
    + apply (is_value_comp _ (vc_val c)); [apply row_value|]. intros k _. cbn [wsum fold_right]. rewrite Hl. ring.
    + intros k Hk. destruct (row_value (axis n) (vc_err c)) as [_ G]. destruct (G k Hk) as (q & Eq & Hq). exists q. split; [exact Eq|].
      cbn [wsum fold_right]. rewrite Hq, Hl. intros Hz. field. intros H0. apply Hz. rewrite H0. ring.
Qed.

Definition Cell (ne m : nat) (src : list (nat * voxel)) (ve : list Q * list Q) : Prop :=
  is_value ne (intensity m src) (fst ve) /\ length (snd ve) = ne
  /\ forall k, k < ne -> exists q, nth_error (snd ve) k = Some q /\ (~ intensity m src k == 0 -> q == src_error m src k)%Q.
Lemma listed_low lo hi src : Listed lo hi src -> forall i v, In (i, v) src -> lo <= i.
Proof.
  revert lo. induction src as [|[j w] src IH]; intros lo H i v Hin; [contradiction|]. destruct H as [H1 H2].
  destruct Hin as [E|Hin]; [injection E as -> _; lia|]. specialize (IH _ H2 i v Hin). lia.
Qed.
Lemma intensity_absent lo hi src m e : Listed lo hi src -> m < lo -> intensity m src e = 0%Q.
Proof.
  intros H Hm. unfold intensity, find_voxel. destruct (find (fun iv => fst iv =? m) src) as [[j w]|] eqn:E; [|reflexivity].
  apply find_some in E as [Hin Hj]. cbn [fst] in Hj. apply Nat.eqb_eq in Hj. subst j. pose proof (listed_low _ _ _ H _ _ Hin). lia.
Qed.
Lemma intensity_head i v src e : intensity i ((i, v) :: src) e = wsum (fun c => vc_val c e) (vx_cells v).
Proof. unfold intensity, find_voxel. cbn [find fst]. rewrite Nat.eqb_refl. reflexivity. Qed.
Lemma intensity_tail i v src m e : m <> i -> intensity m ((i, v) :: src) e = intensity m src e.
Proof. intros H. unfold intensity, find_voxel. cbn [find fst]. destruct (Nat.eqb_spec i m); [congruence|]. reflexivity. Qed.

Lemma error_head i v src e : src_error i ((i, v) :: src) e = error_of None v e.
Proof. unfold src_error, find_voxel. cbn [find fst]. rewrite Nat.eqb_refl. reflexivity. Qed.
Lemma error_tail i v src m e : m <> i -> src_error m ((i, v) :: src) e = src_error m src e.
Proof. intros H. unfold src_error, find_voxel. cbn [find fst]. destruct (Nat.eqb_spec i m); [congruence|]. reflexivity. Qed.

Lemma zero_cell ne m src : (forall e, intensity m src e = 0%Q) -> Cell ne m src (repeat 0%Q ne, repeat 0%Q ne).
Proof. intros H. 
  split; cbn [fst snd]; [|split; [apply repeat_length|]].
  - apply (is_value_comp ne (fun _ => 0%Q)); [apply zeros|]. intros k _. rewrite H. reflexivity.
  - intros k Hk. exists 0%Q. split; [apply nth_error_repeat; exact Hk|]. intros Hz. rewrite H in Hz. contradiction Hz. reflexivity.
Qed.

Definition AllIn (ne : nat) (m0 : nat) (src : list (nat * voxel)) (res : list (list Q * list Q)) : Prop :=
  forall d, d < length res -> exists ve, nth_error res d = Some ve /\ Cell ne (m0 + d) src ve.
Lemma allin_cons ne m0 src ve res : Cell ne m0 src ve -> AllIn ne (S m0) src res -> AllIn ne m0 src (ve :: res).
Proof.
  intros H1 H2 [|d] Hd; [exists ve; rewrite Nat.add_0_r; auto|]. cbn [length] in Hd. destruct (H2 d) as (w & E & Hw); [lia|].
  exists w. cbn [nth_error]. split; [exact E|]. replace (m0 + S d) with (S m0 + d) by lia. exact Hw.
Qed.

Lemma loop_end ne n is : forall f, cdgs_loop ne n is (Some None) f = Some (Ok (map (fun _ => (repeat 0%Q ne, repeat 0%Q ne)) is)).
Proof. induction is as [|i is IH]; intros f; [reflexivity|]. cbn [cdgs_loop mbind map]. rewrite IH. reflexivity. Qed.

Lemma assign_value ne f l : is_value ne f l -> assign ne l = Ok l.
Proof. intros [L _]. unfold assign. rewrite L, Nat.eqb_refl. reflexivity. Qed.

Lemma cdgs_ok n m : forall m0 src vts e ws tail,
  split e = s2l "end_source_data" :: ws -> Forall2 (SrcVoxel n) src vts -> Listed m0 (m0 + m) src ->
  (forall i v, In (i, v) src -> Fills v /\ LoneFull v) ->
  (exists res, cdgs_loop (axis n) n (seq m0 m) None (concat vts ++ e :: tail) = Some (Ok res) /\ length res = m /\ AllIn (axis n) m0 src res)
  /\ (forall i v ve p, Src (axis n) v ve -> Fills v -> LoneFull v -> SrcVoxel n (i, v) p -> m0 <= i < m0 + m -> Listed (S i) (m0 + m) src ->
      exists res, cdgs_loop (axis n) n (seq m0 m) (Some (Some (Z.of_nat (S i), ve))) (concat vts ++ e :: tail) = Some (Ok res) /\ length res = m /\ AllIn (axis n) m0 ((i, v) :: src) res).
Proof.
  induction m as [|m IH]; intros m0 src vts e ws tail He HF HL Hgood.
  { split; [exists []; cbn [seq cdgs_loop]; split; [reflexivity|split; [reflexivity|]]; intros d Hd; cbn [length] in Hd; lia|intros; lia]. }
  assert (Pending : forall src vts, Forall2 (SrcVoxel n) src vts -> (forall i v, In (i, v) src -> Fills v /\ LoneFull v) ->
    forall i v ve p, Src (axis n) v ve -> Fills v -> LoneFull v -> SrcVoxel n (i, v) p -> m0 <= i < m0 + S m -> Listed (S i) (m0 + S m) src ->
      exists res, cdgs_loop (axis n) n (seq m0 (S m)) (Some (Some (Z.of_nat (S i), ve))) (concat vts ++ e :: tail) = Some (Ok res) /\ length res = S m /\ AllIn (axis n) m0 ((i, v) :: src) res).
  { clear src vts HF HL Hgood. intros src vts HF Hgood i v ve p HS Hfv Hlv Hp Hi HL. cbn [seq cdgs_loop mbind]. destruct ve as [vv ee].
    destruct (Z.eqb_spec (Z.of_nat m0) (Z.of_nat (S i) - 1)) as [E|E].
    - assert (m0 = i) by lia. subst m0. destruct HS as (Hv & Le & He2). cbn [fst snd] in *.
      rewrite (assign_value _ _ _ Hv). cbn [bind]. unfold assign. rewrite Le, Nat.eqb_refl. cbn [bind mbind].
      replace (i + S m) with (S i + m) in HL by lia.
      destruct (IH (S i) src vts e ws tail He HF HL Hgood) as [(res & Er & Lr & Hr) _]. rewrite Er. cbn [mbind].
      eexists. split; [reflexivity|]. split; [cbn [length]; lia|]. apply allin_cons.
      + split; cbn [fst snd]; [|split; [exact Le|intros k Hk; rewrite intensity_head, error_head; exact (He2 k Hk)]]. apply (is_value_comp _ (fun k => wsum (fun c => vc_val c k) (vx_cells v))); [exact Hv|]. intros k _. rewrite intensity_head. reflexivity.
      + intros d Hd. destruct (Hr d Hd) as (w & Ew & Hw1 & Hw2 & Hw3). exists w. split; [exact Ew|].
        split; [|split; [exact Hw2|intros k Hk; rewrite intensity_tail, error_tail by lia; exact (Hw3 k Hk)]].
        apply (is_value_comp _ (intensity (S i + d) src)); [exact Hw1|]. intros k _. rewrite intensity_tail by lia. reflexivity.
    - replace (m0 + S m) with (S m0 + m) in HL by lia.
      assert (HL0 : Listed (S m0) (S m0 + m) src).
      { destruct src as [|[j w] src']; [exact I|]. destruct HL as [HL1 HL2]. split; [lia|exact HL2]. }
      destruct (IH (S m0) src vts e ws tail He HF HL0 Hgood) as [_ IHp].
      destruct (IHp i v (vv, ee) p HS Hfv Hlv Hp ltac:(lia) HL) as (res & Er & Lr & Hr). rewrite Er. cbn [mbind].
      eexists. split; [reflexivity|]. split; [cbn [length]; lia|]. apply allin_cons; [|exact Hr].
      apply zero_cell. intros k. apply (intensity_absent (S m0) (S m0 + m)); [|lia]. split; [lia|exact HL]. }
  split.
  - destruct HF as [|[i v] p src vts Hp HF].
    + cbn [concat app seq cdgs_loop]. unfold cdgs_element at 1. cbn [readline hd tl]. rewrite He.
      rewrite (proj2 (str_eqb_eq _ _) eq_refl). cbn [mbind]. rewrite loop_end. cbn [mbind].
      eexists. split; [reflexivity|]. split; [cbn [length]; rewrite map_length, seq_length; reflexivity|].
      intros d Hd. exists (repeat 0%Q (axis n), repeat 0%Q (axis n)). split.
      * destruct d as [|d]; [reflexivity|]. cbn [nth_error]. rewrite nth_error_map. cbn [length] in Hd. rewrite map_length, seq_length in Hd.
        rewrite (nth_error_nth' (seq (S m0) m) 0) by (rewrite seq_length; lia). reflexivity.
      * apply zero_cell. reflexivity.
    + destruct (Hgood i v (or_introl eq_refl)) as [Hfv Hlv]. cbn [Listed] in HL. destruct HL as [HLi HL].
      destruct (src_element_ok n i v p (concat vts ++ e :: tail) Hp Hfv Hlv) as (ve & Ee & HS).
      destruct (Pending src vts HF (fun a b h => Hgood a b (or_intror h)) i v ve p HS Hfv Hlv Hp HLi HL) as (res & Er & Lr & Hr).
      exists res. split; [|auto]. rewrite <- Er. cbn [concat]. rewrite <- app_assoc.
      cbn [seq cdgs_loop]. rewrite Ee. cbn [mbind]. reflexivity.
  - intros i v ve p H1 H2 H3 H4 H5 H6. apply (Pending src vts HF Hgood i v ve p); auto.
Qed.

Lemma cdgs_mesh_ok skip n nz ny nx src hdr ls : n <> 0 -> length hdr = skip -> SrcText n src ls -> Listed 0 (nx * ny * nz) src ->
  (forall i v, In (i, v) src -> Fills v /\ LoneFull v) ->
  exists a, cdgs_data skip (axis n) nz ny nx (hdr ++ ls) = Some (Ok a)
    /\ forall e k j i, e < axis n -> k < nz -> j < ny -> i < nx -> exists v er, a 0 e k j i = Some (v, er)
        /\ (v == intensity ((i * ny + j) * nz + k) src e)%Q
        /\ (~ intensity ((i * ny + j) * nz + k) src e == 0 -> er == src_error ((i * ny + j) * nz + k) src e)%Q.
Proof.
  intros Hn0 Hh (vts & e & ws & tail & -> & He & HF) HL Hg. unfold cdgs_data. rewrite (skip_app hdr _ skip Hh).
  assert (En : (if axis n =? 1 then axis n else axis n - 1) = n).
  { unfold axis. destruct (Nat.eqb_spec n 1) as [->|Hn]; [reflexivity|]. destruct (Nat.eqb_spec (S n) 1); lia. }
  rewrite En.
  destruct (cdgs_ok n (nx * ny * nz) 0 src vts e ws tail He HF HL Hg) as [(res & Er & Lr & Hr) _]. rewrite Er. cbn [mbind].
  eexists. split; [reflexivity|]. intros e0 k j i He0 Hk Hj Hi.
  destruct (Hr ((i * ny + j) * nz + k)) as (ve & Ev & Hv1 & Hv2 & Hv3); [rewrite Lr; apply index_bound; assumption|].
  unfold voxel_array. rewrite Ev. destruct ve as [v er]. cbn [fst snd] in *. destruct Hv1 as [_ Hv1]. destruct (Hv1 e0 He0) as (q & Eq & Hq). rewrite Eq.
  destruct (Hv3 e0 He0) as (u & Eu & Hu). rewrite Eu. cbn [Nat.eqb]. exists q, u. auto.
Qed.
