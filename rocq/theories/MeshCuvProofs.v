(** Proofs about CUV meshes (C54) *)
From Coq Require Import Lia ZArith Qfield.
From Verif Require Import PyBase PyLemmas PyStr PyStrLemmas WWTextProofs MatProofs RssaProofs2 MeshModel MeshSpec MeshProofs MeshCuvModel MeshCuvSpec.
Open Scope nat_scope.

(** ** nested pieces *)
Lemma each_app a b (P : nat -> Txt) l1 l2 : Each a P l1 -> Each b (fun i => P (a + i)) l2 -> Each (a + b) P (l1 ++ l2).
Proof.
  intros (p1 & -> & L1 & H1) (p2 & -> & L2 & H2). exists (p1 ++ p2). rewrite concat_app, app_length. repeat split; [lia|].
  intros i p Hp. destruct (Nat.lt_ge_cases i a) as [Hi|Hi].
  - rewrite nth_error_app1 in Hp by lia. exact (H1 i p Hp).
  - rewrite nth_error_app2 in Hp by lia. replace i with (a + (i - length p1)) by lia. exact (H2 _ _ Hp).
Qed.
Lemma each_ext n (P R : nat -> Txt) : (forall i p, i < n -> P i p -> R i p) -> forall ls, Each n P ls -> Each n R ls.
Proof.
  intros H ls (ps & E & L & Hp). exists ps. repeat split; auto. intros i p Hi. apply H; [|auto].
  rewrite <- L. apply nth_error_Some. rewrite Hi. discriminate.
Qed.
Lemma each_flat a b : forall (P : nat -> nat -> Txt) ls, Each a (fun i => Each b (P i)) ls -> Each (a * b) (fun n => P (n / b) (n mod b)) ls.
Proof.
  induction a as [|a IH]; intros P ls (ps & -> & L & H).
  - destruct ps; [|discriminate L]. exists []. repeat split. intros [|i] p Hp; discriminate Hp.
  - destruct ps as [|p ps]; [discriminate L|]. cbn [concat]. cbn [Nat.mul].
    assert (H0 := H 0 p eq_refl). cbn beta in H0.
    destruct b as [|b].
    + destruct H0 as (qs & -> & Lq & _). destruct qs; [|discriminate Lq]. cbn [concat app]. replace (0 + a * 0) with (a * 0) by lia.
      assert (G := IH (fun i => P (S i)) (concat ps)). rewrite Nat.mul_0_r in *.
      assert (K : Each a (fun i => Each 0 (P (S i))) (concat ps)).
      { exists ps. repeat split; [injection L; auto|]. intros i q Hq. exact (H (S i) q Hq). }
      destruct (G K) as (rs & E & Lr & _). destruct rs; [|discriminate Lr]. exists []. rewrite E. repeat split. intros [|i] q Hq; discriminate Hq.
    + apply each_app.
      * revert H0. apply each_ext. intros i q Hi. rewrite Nat.div_small, Nat.mod_small by lia. auto.
      * assert (K : Each a (fun i => Each (S b) (P (S i))) (concat ps)).
        { exists ps. repeat split; [injection L; auto|]. intros i q Hq. exact (H (S i) q Hq). }
        apply IH in K. revert K. apply each_ext. intros i q Hi.
        replace (S b + i) with (i + 1 * S b) by lia. rewrite Nat.div_add, Nat.mod_add by lia. rewrite Nat.add_1_r. auto.
Qed.
Lemma decode ny nz k j i : j < ny -> k < nz ->
  let n := (i * ny + j) * nz + k in n mod nz = k /\ (n / nz) mod ny = j /\ (n / nz) / ny = i.
Proof.
  intros Hj Hk n. assert (E : n / nz = i * ny + j).
  { unfold n. rewrite Nat.add_comm, Nat.div_add, Nat.div_small by lia. lia. }
  split; [unfold n; rewrite Nat.add_comm, Nat.mod_add, Nat.mod_small by lia; lia|].
  rewrite E. split.
  - rewrite Nat.add_comm, Nat.mod_add, Nat.mod_small by lia. lia.
  - rewrite Nat.add_comm, Nat.div_add, Nat.div_small by lia. lia.
Qed.
Lemma index_bound ny nz nx k j i : i < nx -> j < ny -> k < nz -> (i * ny + j) * nz + k < nx * ny * nz.
Proof. intros. assert ((i * ny + j) + 1 <= nx * ny) by nia. nia. Qed.

(** ** reading a voxel *)
Definition row (ne : nat) (v : nat -> Q) : list Q := map v (seq 0 ne).
Lemma nums_ok ne v l : Nums ne v l -> floats l = Ok (row ne v).
Proof.
  intros [L H]. unfold floats. destruct (mapM_numerals (split l) v H) as (qs & -> & Lq & Hq). f_equal.
  apply nth_error_ext. intros c. destruct (Nat.lt_ge_cases c (length (split l))) as [Hc|Hc].
  - rewrite (Hq c Hc). unfold row. rewrite nth_error_map.
    rewrite (nth_error_nth' (seq 0 ne) 0) by (rewrite seq_length; lia). rewrite seq_nth by lia. reflexivity.
  - rewrite (proj2 (nth_error_None qs c)) by lia. symmetry. apply nth_error_None. unfold row. rewrite map_length, seq_length. lia.
Qed.
Lemma ints_ok w z q : numeral w q -> (q == inject_Z z)%Q -> qtrunc q = z.
Proof.
  intros _ H. rewrite (qtrunc_comp _ _ H). unfold qtrunc, inject_Z. cbn [Qnum Qden]. apply Z.quot_1_r.
Qed.
Lemma head_ok tot c l r : CellHead tot c l -> read_cuv_head (l :: r) = Ok ((vc_num c, vc_frac c, tot), r).
Proof.
  intros (w0 & w1 & ws & Hs & (q & Hq & Eq) & Hf & Ht). unfold read_cuv_head. cbn [readline hd tl]. rewrite Hs, Hq. cbn [bind].
  rewrite Hf. cbn [bind]. rewrite (ints_ok w0 _ _ Hq Eq). destruct tot.
  - destruct Ht as (a & b & qa & qb & -> & Ha & Hb). rewrite Ha. cbn [bind]. rewrite Hb. reflexivity.
  - subst ws. reflexivity.
Qed.
Lemma heads_ok tot cs heads r : Forall2 (CellHead tot) cs heads ->
  loop (length cs) read_cuv_head (heads ++ r) = Ok (map (fun c => (vc_num c, vc_frac c, tot)) cs, r).
Proof.
  induction 1 as [|c l cs heads Hc H IH]; [reflexivity|]. cbn [length loop app map]. rewrite (head_ok tot c l _ Hc). cbn [bind]. rewrite IH. reflexivity.
Qed.
Lemma vals_ok ne cs vals r : Forall2 (CellVals ne) cs vals ->
  loop (length cs) read_cuv_vals (concat vals ++ r) = Ok (map (fun c => (row ne (vc_val c), row ne (vc_err c))) cs, r).
Proof.
  induction 1 as [|c p cs vals (lv & le & -> & Hv & He) H IH]; [reflexivity|]. cbn [length loop concat app map].
  unfold read_cuv_vals at 1. cbn [readline hd tl]. rewrite (nums_ok _ _ _ Hv). cbn [bind]. rewrite (nums_ok _ _ _ He). cbn [bind].
  rewrite IH. reflexivity.
Qed.
Lemma exists_all (b : bool) {A} (f : A -> cinfo) (cs : list A) :
  existsb snd (map (fun c => (f c, b)) cs) && negb (forallb snd (map (fun c => (f c, b)) cs)) = false.
Proof.
  destruct b.
  - assert (E : forallb snd (map (fun c => (f c, true)) cs) = true) by (induction cs; auto). rewrite E. apply andb_false_r.
  - assert (E : existsb snd (map (fun c => (f c, false)) cs) = false) by (induction cs; auto). rewrite E. reflexivity.
Qed.
Lemma cells_ok tot ne cs heads vals r : Forall2 (CellHead tot) cs heads -> Forall2 (CellVals ne) cs vals ->
  read_cuv_cells (length cs) (heads ++ concat vals ++ r)
  = Ok ((map (fun c => (vc_num c, vc_frac c)) cs, map (fun c => row ne (vc_val c)) cs, map (fun c => row ne (vc_err c)) cs), r).
Proof.
  intros H1 H2. unfold read_cuv_cells. rewrite (heads_ok tot cs heads _ H1). cbn [bind]. rewrite (vals_ok ne cs vals r H2). cbn [bind].
  match goal with |- context [if ?b then _ else _] => replace b with false by (symmetry; apply (exists_all tot (fun c => (vc_num c, vc_frac c)) cs)) end.
  rewrite !map_map. reflexivity.
Qed.

(** ** the mean *)
Lemma memb_existsb z l : memb Z.eqb z l = existsb (Z.eqb z) l.
Proof. induction l as [|x l IH]; [reflexivity|]. cbn [memb existsb]. rewrite IH. destruct (Z.eqb z x); reflexivity. Qed.
Lemma select_ok ne l cs : exists s,
  select_cells l (map (fun c => (vc_num c, vc_frac c)) cs) (map (fun c => row ne (vc_val c)) cs) (map (fun c => row ne (vc_err c)) cs)
  = (s, (map (fun c => (vc_num c, vc_frac c)) (filter (fun c => existsb (Z.eqb (vc_num c)) l) cs),
         map (fun c => row ne (vc_val c)) (filter (fun c => existsb (Z.eqb (vc_num c)) l) cs),
         map (fun c => row ne (vc_err c)) (filter (fun c => existsb (Z.eqb (vc_num c)) l) cs)))
  /\ (s == wsum one (filter (fun c => existsb (Z.eqb (vc_num c)) l) cs))%Q.
Proof.
  induction cs as [|c cs (s & E & Hs)]; [exists 0%Q; split; reflexivity|]. cbn [map select_cells filter]. rewrite E. cbn [fst snd].
  rewrite memb_existsb. destruct (existsb (Z.eqb (vc_num c)) l).
  - exists (vc_frac c + s)%Q. split; [reflexivity|]. cbn [wsum fold_right]. unfold one at 1. unfold wsum in Hs. rewrite Hs. ring.
  - exists s. split; [reflexivity|exact Hs].
Qed.
Lemma row_nth ne v k : k < ne -> nth k (row ne v) 0%Q = v k.
Proof. intros H. unfold row. rewrite (nth_indep _ 0%Q (v 0)) by (rewrite map_length, seq_length; exact H). rewrite map_nth, seq_nth by exact H. reflexivity. Qed.
Lemma row_len ne v : length (row ne v) = ne.
Proof. unfold row. rewrite map_length, seq_length. reflexivity. Qed.
Lemma dot_ok ne k (g : vcell -> nat -> Q) cs : k < ne ->
  (dot (map vc_frac cs) (column k (map (fun c => row ne (g c)) cs)) == wsum (fun c => g c k) cs)%Q.
Proof.
  intros H. unfold dot, column. induction cs as [|c cs IH]; [reflexivity|].
  cbn [map combine qsum fold_right wsum fst snd]. unfold qsum in IH. rewrite IH. rewrite (row_nth ne (g c) k H). reflexivity.
Qed.
Lemma times_row ne a b : map (fun q => (fst q * snd q)%Q) (combine (row ne a) (row ne b)) = row ne (fun k => (a k * b k)%Q).
Proof. unfold row. induction (seq 0 ne) as [|x l IH]; [reflexivity|]. cbn [map combine fst snd]. rewrite IH. reflexivity. Qed.
Lemma times_ok ne cs : times_rows (map (fun c => row ne (vc_val c)) cs) (map (fun c => row ne (vc_err c)) cs)
  = map (fun c => row ne (fun k => vc_val c k * vc_err c k)%Q) cs.
Proof. unfold times_rows. induction cs as [|c cs IH]; [reflexivity|]. cbn [map combine fst snd]. rewrite IH, times_row. reflexivity. Qed.
Lemma all_len ne (g : vcell -> nat -> Q) cs : forallb (fun r => length r =? ne) (map (fun c => row ne (g c)) cs) = true.
Proof. apply forallb_forall. intros r Hr. apply in_map_iff in Hr as (c & <- & _). rewrite row_len. apply Nat.eqb_refl. Qed.

Definition is_value (ne : nat) (f : nat -> Q) (l : list Q) : Prop := length l = ne /\ forall k, k < ne -> exists q, nth_error l k = Some q /\ (q == f k)%Q.
Lemma map_seq_value ne (g f : nat -> Q) : (forall k, k < ne -> (g k == f k)%Q) -> is_value ne f (map g (seq 0 ne)).
Proof.
  intros H. split; [rewrite map_length, seq_length; reflexivity|]. intros k Hk. exists (g k). split; [|auto].
  rewrite nth_error_map, (nth_error_nth' (seq 0 ne) 0) by (rewrite seq_length; exact Hk). rewrite seq_nth by exact Hk. reflexivity.
Qed.
Lemma mean_ok ne cs : cs <> [] -> exists v e,
  mean_value (map (fun c => (vc_num c, vc_frac c)) cs) (map (fun c => row ne (vc_val c)) cs) (map (fun c => row ne (vc_err c)) cs) = Ok (v, e)
  /\ is_value ne (fun k => wsum (fun c => vc_val c k) cs) v
  /\ length e = ne /\ forall k, k < ne -> exists q, nth_error e k = Some q
       /\ (~ wsum (fun c => vc_val c k) cs == 0 -> q == wsum (fun c => vc_val c k * vc_err c k) cs / wsum (fun c => vc_val c k) cs)%Q.
Proof.
  intros Hne. unfold mean_value.
  assert (E0 : forall X (a : X) (b : list Q -> list (list Q) -> X), match map (fun c => row ne (vc_val c)) cs with [] => a | v0 :: t => b v0 t end
     = b (row ne (vc_val (hd (mkVC 0 0 (fun _ => 0%Q) (fun _ => 0%Q)) cs))) (map (fun c => row ne (vc_val c)) (tl cs))) by (destruct cs; [contradiction|reflexivity]).
  rewrite E0. clear E0. cbv beta zeta. rewrite row_len, !all_len. cbn [andb].
  rewrite map_map. cbn [snd]. change (map (fun x => vc_frac x) cs) with (map vc_frac cs). rewrite times_ok.
  eexists. eexists. split; [reflexivity|]. split; [|split].
  - apply map_seq_value. intros k Hk. apply dot_ok. exact Hk.
  - rewrite map_length, seq_length. reflexivity.
  - intros k Hk. eexists. split.
    + rewrite nth_error_map, (nth_error_nth' (seq 0 ne) 0) by (rewrite seq_length; exact Hk). rewrite seq_nth by exact Hk. cbn [option_map Nat.add]. reflexivity.
    + cbv beta zeta. set (vm := map _ (seq 0 ne)).
      assert (Ev : (nth k vm 0 == wsum (fun c => vc_val c k) cs)%Q).
      { unfold vm. pose proof (row_nth ne (fun k => dot (map vc_frac cs) (column k (map (fun c => row ne (vc_val c)) cs))) k Hk) as R. unfold row at 1 in R.
        rewrite R. apply dot_ok. exact Hk. }
      intros Hnz. destruct (Qeq_bool (nth k vm 0%Q) 0%Q) eqn:Eq.
      * apply Qeq_bool_eq in Eq. rewrite Ev in Eq. contradiction.
      * rewrite Ev, (dot_ok ne k (fun c k => vc_val c k * vc_err c k)%Q cs Hk). reflexivity.
Qed.

(** ** one voxel *)
Definition Good (ne : nat) (total : bool) (filt : option (list Z)) (v : voxel) (ve : list Q * list Q) : Prop :=
  is_value ne (value_of total filt v) (fst ve)
  /\ length (snd ve) = ne /\ forall k, k < ne -> exists q, nth_error (snd ve) k = Some q
       /\ (~ wsum (fun c => vc_val c k) (chosen filt v) == 0 -> ~ filled filt v == 0 -> q == error_of filt v k)%Q.

Lemma is_value_comp ne f g l : is_value ne f l -> (forall k, k < ne -> (f k == g k)%Q) -> is_value ne g l.
Proof. intros [L H] E. split; [exact L|]. intros k Hk. destruct (H k Hk) as (q & Eq & Hq). exists q. split; [exact Eq|]. rewrite Hq. apply E. exact Hk. Qed.
Lemma is_value_map ne f l h : is_value ne f l -> (forall a b, (a == b)%Q -> (h a == h b)%Q) -> is_value ne (fun k => h (f k)) (map h l).
Proof.
  intros [L H] C. split; [rewrite map_length; exact L|]. intros k Hk. destruct (H k Hk) as (q & Eq & Hq). exists (h q).
  rewrite nth_error_map, Eq. split; [reflexivity|]. apply C. exact Hq.
Qed.
Lemma row_value ne v : is_value ne v (row ne v).
Proof. apply map_seq_value. reflexivity. Qed.
Lemma zeros ne : is_value ne (fun _ => 0%Q) (repeat 0%Q ne).
Proof. split; [apply repeat_length|]. intros k Hk. exists 0%Q. split; [|reflexivity]. apply nth_error_repeat. exact Hk. Qed.

Lemma finish ne filt v (total : bool) (s : Q) vv ee (f2 : file) :
  (~ filled filt v == 0)%Q -> (total = false -> s == filled filt v)%Q ->
  is_value ne (fun k => wsum (fun c => vc_val c k) (chosen filt v)) vv ->
  (length ee = ne /\ forall k, k < ne -> exists q, nth_error ee k = Some q /\
     (~ wsum (fun c => vc_val c k) (chosen filt v) == 0 -> q == error_of filt v k)%Q) ->
  exists ve, (match Some total with
              | Some true => Ok ((map (fun x => x * vx_vol v)%Q vv, ee), f2)
              | Some false => Ok ((map (fun x => x / s)%Q vv, ee), f2)
              | None => Err ValueError
              end = Ok (ve, f2)) /\ Good ne total filt v ve.
Proof.
  intros Hnz Hs Hv [Le He].
  assert (Z : Qeq_bool (filled filt v) 0 = false). { destruct (Qeq_bool (filled filt v) 0) eqn:E; [apply Qeq_bool_eq in E; contradiction|reflexivity]. }
  assert (HE : length ee = ne /\ forall k, k < ne -> exists q, nth_error ee k = Some q
       /\ (~ wsum (fun c => vc_val c k) (chosen filt v) == 0 -> ~ filled filt v == 0 -> q == error_of filt v k)%Q).
  { split; [exact Le|]. intros k Hk. destruct (He k Hk) as (q & E & H). exists q. split; [exact E|]. intros; auto. }
  destruct total.
  - eexists. split; [reflexivity|]. split; [|exact HE]. cbn [fst]. unfold value_of. rewrite Z.
    exact (is_value_map ne _ vv (fun x => x * vx_vol v)%Q Hv (fun a b E => Qmult_comp _ _ E _ _ (Qeq_refl _))).
  - eexists. split; [reflexivity|]. split; [|exact HE]. cbn [fst]. unfold value_of. rewrite Z.
    apply (is_value_comp ne (fun k => (wsum (fun c => vc_val c k) (chosen filt v) / s)%Q)).
    + exact (is_value_map ne _ vv (fun x => x / s)%Q Hv (fun a b E => Qdiv_comp _ _ E _ _ (Qeq_refl _))).
    + intros k _. rewrite (Hs eq_refl). reflexivity.
Qed.

Lemma element_ok tot ne total filt v ls r : VoxelText tot ne v ls -> vx_cells v <> [] -> Regular filt v ->
  exists ve, cuv_element (Some total) filt (ls ++ r) = Ok (ve, r) /\ Good ne total filt v ve.
Proof.
  intros (h & heads & vals & -> & (w0 & w1 & w2 & w3 & wv & wn & ws & Hs & Hvol & (qn & Hqn & Eqn)) & H1 & H2) Hne Hreg.
  unfold cuv_element. cbn [readline app hd tl]. rewrite Hs. cbn [nth_error]. rewrite Hvol. cbn [bind]. rewrite Hqn. cbn [bind].
  rewrite (ints_ok wn _ _ Hqn Eqn), Nat2Z.id, <- app_assoc, (cells_ok tot ne _ heads vals r H1 H2). cbn [bind].
  set (cs := vx_cells v) in *.
  assert (E0 : forall X (a : X) (b : list Q -> list (list Q) -> X), match map (fun c => row ne (vc_val c)) cs with [] => a | v0 :: t => b v0 t end
     = b (row ne (vc_val (hd (mkVC 0 0 (fun _ => 0%Q) (fun _ => 0%Q)) cs))) (map (fun c => row ne (vc_val c)) (tl cs))) by (destruct cs; [contradiction|reflexivity]).
  rewrite E0. clear E0. cbv beta. rewrite row_len.
  assert (Sel : exists s, match filt with
                          | Some l => select_cells l (map (fun c => (vc_num c, vc_frac c)) cs) (map (fun c => row ne (vc_val c)) cs) (map (fun c => row ne (vc_err c)) cs)
                          | None => (1%Q, (map (fun c => (vc_num c, vc_frac c)) cs, map (fun c => row ne (vc_val c)) cs, map (fun c => row ne (vc_err c)) cs))
                          end = (s, (map (fun c => (vc_num c, vc_frac c)) (chosen filt v), map (fun c => row ne (vc_val c)) (chosen filt v), map (fun c => row ne (vc_err c)) (chosen filt v)))
                    /\ (s == filled filt v)%Q).
  { destruct filt as [l|].
    - destruct (select_ok ne l cs) as (s & E & Es). exists s. split; [exact E|exact Es].
    - exists 1%Q. split; [reflexivity|]. symmetry. exact Hreg. }
  destruct Sel as (s & -> & Es).
  destruct (Qeq_bool s 0) eqn:E0.
  - apply Qeq_bool_eq in E0. rewrite Es in E0.
    assert (Z : Qeq_bool (filled filt v) 0 = true) by (apply Qeq_bool_iff; exact E0).
    eexists. split; [reflexivity|]. split; cbn [fst snd].
    + unfold value_of. rewrite Z. apply zeros.
    + split; [apply repeat_length|]. intros k Hk. exists 0%Q. split; [apply nth_error_repeat; exact Hk|]. intros _ Hf. contradiction.
  - assert (Hnz : (~ filled filt v == 0)%Q). { rewrite <- Es. intros E. apply Qeq_bool_iff in E. congruence. }
    assert (Hch : chosen filt v <> []). { intros E. apply Hnz. unfold filled. rewrite E. reflexivity. }
    destruct (Nat.ltb_spec 1 (length cs)) as [Hl|Hl].
    + destruct (mean_ok ne (chosen filt v) Hch) as (vv & ee & -> & Hv & He). cbn [bind].
      apply finish; auto.
    + assert (Hc1 : exists c, cs = [c]). { destruct cs as [|c [|c2 cs']]; [contradiction|eauto|cbn [length] in Hl; lia]. }
      destruct Hc1 as (c & Ec).
      assert (Hf1 : (vc_frac c == 1)%Q).
      { unfold Regular, filled, chosen, wsum in Hreg. fold cs in Hreg. rewrite Ec in Hreg. destruct filt; [exact Hreg|]. cbn [fold_right] in Hreg. unfold one in Hreg.
        rewrite <- Hreg. ring. }
      assert (Hc2 : chosen filt v = [c]).
      { unfold chosen in *. fold cs in Hch |- *. rewrite Ec in *. destruct filt; [|reflexivity]. cbn [filter] in *. destruct (existsb _ _); [reflexivity|contradiction]. }
      rewrite Hc2. cbn [map bind]. apply finish; auto.
      * rewrite Hc2. apply (is_value_comp ne (vc_val c)); [apply row_value|]. intros k _. cbn [wsum fold_right]. rewrite Hf1. ring.
      * split; [apply row_len|]. intros k Hk. exists (vc_err c k). split.
        { unfold row. rewrite nth_error_map, (nth_error_nth' (seq 0 ne) 0) by (rewrite seq_length; exact Hk). rewrite seq_nth by exact Hk. reflexivity. }
        unfold error_of. rewrite Hc2. cbn [wsum fold_right]. rewrite Hf1. intros Hz. field. intros E. apply Hz. rewrite E. ring.
Qed.

Lemma cuv_ok tot ne total filt nz ny nx vox ls rest : CuvText tot ne nz ny nx vox ls ->
  (forall k j i, k < nz -> j < ny -> i < nx -> vx_cells (vox k j i) <> [] /\ Regular filt (vox k j i)) ->
  exists a, cuv_data (Some total) filt ne nz ny nx (ls ++ rest) = Ok a
    /\ forall e k j i, e < ne -> k < nz -> j < ny -> i < nx -> exists v er, a 0 e k j i = Some (v, er)
        /\ (v == value_of total filt (vox k j i) e)%Q
        /\ (~ wsum (fun c => vc_val c e) (chosen filt (vox k j i)) == 0 -> ~ filled filt (vox k j i) == 0 -> er == error_of filt (vox k j i) e)%Q.
Proof.
  intros (a & b & -> & Ha & Hb) Hr. unfold cuv_data. rewrite <- app_assoc, (skip_app a _ 1 Ha).
  assert (Hb2 : Each (nx * ny) (fun m => Each nz (fun k => VoxelText tot ne (vox k (m mod ny) (m / ny)))) b) by (apply (each_flat nx ny (fun i j => Each nz (fun k => VoxelText tot ne (vox k j i))) b); exact Hb).
  apply (each_flat (nx * ny) nz (fun m k => VoxelText tot ne (vox k (m mod ny) (m / ny)))) in Hb2.
  edestruct (fun Hq => loop_each _ (fun f => do '((v, e), f1) <- cuv_element (Some total) filt f; do v' <- assign ne v; do e' <- assign ne e; Ok ((v', e'), f1))
    (fun n ve => Good ne total filt (vox (n mod nz) ((n / nz) mod ny) (n / nz / ny)) ve) _ _ b rest Hq Hb2) as (els & E & L & Hel).
  - intros n p r Hn Hp. cbv beta in Hp.
    assert (Bz : nz <> 0) by (intros ->; lia). assert (By : ny <> 0) by (intros ->; lia).
    destruct (Hr (n mod nz) ((n / nz) mod ny) (n / nz / ny)) as [Hne Hreg].
    + apply Nat.mod_upper_bound; exact Bz.
    + apply Nat.mod_upper_bound; exact By.
    + apply Nat.div_lt_upper_bound; [exact By|]. apply Nat.div_lt_upper_bound; [exact Bz|]. nia.
    + destruct (element_ok tot ne total filt _ p r Hp Hne Hreg) as ([v e] & Ee & HG). rewrite Ee. cbn [bind].
      destruct HG as ([Lv Hv] & Le & He). cbn [fst snd] in *.
      unfold assign. rewrite Lv, Le, Nat.eqb_refl. cbn [bind]. exists (v, e). split; [reflexivity|]. split; [split; auto|split; auto].
  - rewrite E. cbn [bind]. eexists. split; [reflexivity|]. intros e k j i He Hk Hj Hi.
    destruct (Hel _ (index_bound ny nz nx k j i Hi Hj Hk)) as (ve & En & HG).
    destruct (decode ny nz k j i Hj Hk) as (D1 & D2 & D3). cbv zeta in D1, D2, D3. rewrite D1, D2, D3 in HG.
    unfold voxel_array. rewrite En. destruct ve as [v er]. destruct HG as ([_ Hv] & _ & Her). cbn [fst snd] in *.
    destruct (Hv e He) as (q & Eq & Hq). destruct (Her e He) as (q2 & Eq2 & Hq2). rewrite Eq, Eq2. cbn [Nat.eqb].
    exists q, q2. auto.
Qed.
