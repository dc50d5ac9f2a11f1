From Coq Require Import Lia ZArith Lqa.
From Verif Require Import PyBase PyLemmas PyStr PyStrLemmas PyText D1SModel D1SProofs2 DataModel B2Model B2Spec B2Proofs WWModel WWSpec WWProofs3 WWTextModel MeshModel MeshSpec MeshProofs2 FmeshModel FmeshSpec FmeshProofs2 FmeshProofs3 TrsfModel GvrModel GvrSpec.
Open Scope nat_scope.

(** the smallest number *)
Lemma insert_head z l : hd_error (insert_z z l) = Some (match l with [] => z | x :: _ => Z.min z x end).
Proof. destruct l as [|x l]; [reflexivity|]. cbn [insert_z]. destruct (Z.leb_spec z x); cbn [hd_error]; f_equal; lia. Qed.
Lemma sort_min l m : In m l -> (forall x, In x l -> (m <= x)%Z) -> nth_error (fold_right insert_z [] l) 0 = Some m.
Proof.
  assert (H0 : forall (k : list Z), nth_error k 0 = hd_error k) by (intros [|]; reflexivity). rewrite H0.
  assert (G : forall l, match l with [] => True | _ => exists y, hd_error (fold_right insert_z [] l) = Some y /\ In y l /\ forall x, In x l -> (y <= x)%Z end).
  { clear. induction l as [|x l IH]; [exact I|]. cbn [fold_right]. rewrite insert_head. destruct l as [|x' l].
    - cbn [fold_right]. exists x. split; [reflexivity|]. split; [left; reflexivity|]. intros y [->|[]]. lia.
    - destruct IH as (y & E & Hin & Hle). destruct (fold_right insert_z [] (x' :: l)) as [|y' r]; [discriminate|]. cbn [hd_error] in E. injection E as ->.
      exists (Z.min x y). split; [reflexivity|]. split.
      + destruct (Z.min_spec x y) as [[_ ->]|[_ ->]]; [left; reflexivity|right; exact Hin].
      + intros z [->|Hz]; [lia|]. specialize (Hle z Hz). lia. }
  specialize (G l). destruct l as [|x l]; [intros []|]. destruct G as (y & -> & Hin & Hle). intros Hm Hall. f_equal. specialize (Hle m Hm). specialize (Hall y Hin). lia.
Qed.
Lemma mapM_ids {T} (ss : list (tally_text T)) d : Forall2 seen ss d -> mapM parse_int (dkeys d) = Ok (map t_num ss).
Proof.
  unfold dkeys. induction 1 as [|s kv ss d [Ek _] H IH]; [reflexivity|]. cbn [map mapM]. rewrite Ek, parse_str_of_Z. cbn [bind]. rewrite IH. reflexivity.
Qed.

(** one mesh of the file *)
Lemma read_one {T} (trsf : str -> res (option T)) old ss f d s : FileText trsf ss f -> scan_meshfile f = Ok d -> In s ss -> t_num s <> 0%Z ->
  exists m, read_mesh trsf old (One (t_num s)) d = Some (Ok [(t_num s, m)]) /\ MeshOf s m.
Proof.
  intros HF Hd Hs Hn. destruct (read_some trsf old ss f d [t_num s] HF Hd) as (r & Er & H1 & _).
  { intros z [<-|[]]. apply in_map. exact Hs. } { discriminate. }
  destruct (H1 s Hs (or_introl eq_refl)) as (m & Em & Hm). exists m. split; [|exact Hm].
  unfold read_mesh in *. destruct (Z.eqb_spec (t_num s) 0); [contradiction|]. cbn [map read_list] in *.
  destruct (get_fmesh trsf old (str_of_Z (t_num s)) d) as [[m'|]|]; try discriminate. injection Er as <-. cbn [dset dget] in *.
  rewrite Z.eqb_refl in Em. injection Em as ->. reflexivity.
Qed.
Lemma choose {T} (trsf : str -> res (option T)) ss f d s asked : FileText trsf ss f -> scan_meshfile f = Ok d -> Chosen ss asked s ->
  (if (asked =? 0)%Z then do ids <- mesh_ids d; of_opt IndexError (nth_error ids 0) else Ok asked) = Ok (t_num s).
Proof.
  intros HF Hd (Hs & Hn & Ha). destruct (scan_file trsf ss f HF) as (d' & Ed & HS). rewrite Hd in Ed. injection Ed as <-.
  destruct Ha as [->|[-> Hmin]].
  - destruct (Z.eqb_spec (t_num s) 0); [contradiction|reflexivity].
  - cbn [Z.eqb]. unfold mesh_ids. rewrite (mapM_ids _ _ HS). cbn [bind].
    rewrite (sort_min (map t_num ss) (t_num s)); [reflexivity|apply in_map; exact Hs|].
    intros x Hx. apply in_map_iff in Hx as (s' & <- & Hs'). apply Hmin. exact Hs'.
Qed.

(** the mesh vectors *)
Lemma ones_zsum n : zsum (repeat 1%Z n) = Z.of_nat n.
Proof. induction n; [reflexivity|]. cbn [repeat zsum fold_right]. fold (zsum (repeat 1%Z n)). rewrite IHn. lia. Qed.
Lemma ones_index i : forall n, i <= n -> fine_index (repeat 1%Z n) i = i.
Proof.
  induction i as [|i IH]; intros n H; [destruct n; reflexivity|]. destruct n as [|n]; [lia|]. cbn [repeat fine_index]. rewrite IH by lia. reflexivity.
Qed.
Lemma ones_vector x : x <> [] -> exists b2 g v, b2_of x = Ok b2 /\ decompose_b2 b2 = Ok g /\ axis_vector g = Ok v /\ qlist_eq v x
  /\ length (fst g) = length x.
Proof.
  intros Hx. unfold b2_of. assert (L : length x = S (length (repeat 1%Z (length x - 1)))) by (rewrite repeat_length; destruct x; [contradiction|cbn [length]; lia]).
  destruct (compose_decompose x (repeat 1%Z (length x - 1)) L) as (b2 & c & E1 & E2 & Hc).
  assert (Lc : length c = length x) by (clear - Hc; induction Hc; cbn [length]; congruence).
  destruct (build_1d_spec (repeat 1%Z (length x - 1)) c) as (v & Ev & Lv & _ & Hv & _); [lia|apply Forall_forall; intros n Hn; apply repeat_spec in Hn; lia|].
  exists b2, (c, repeat 1%Z (length x - 1)), v. split; [exact E1|]. split; [exact E2|]. split; [exact Ev|]. split; [|exact Lc].
  assert (Lvx : length v = length x) by (rewrite Lv, ones_zsum, repeat_length in *; lia).
  assert (G : forall (a b : list Q), length a = length b -> (forall i y, nth_error b i = Some y -> exists x, nth_error a i = Some x /\ x == y) -> Forall2 Qeq a b).
  { clear. induction a as [|x a IH]; intros [|y b] L H; try discriminate; constructor.
    - destruct (H 0 y eq_refl) as (z & E & Hz). injection E as <-. exact Hz.
    - apply IH; [cbn [length] in L; lia|]. intros i z Hz. exact (H (S i) z Hz). }
  apply G; [exact Lvx|]. intros i y Hy.
  assert (Hi : i < length x) by (apply nth_error_Some; congruence).
  assert (Hcy : exists z, nth_error c i = Some z /\ z == y).
  { clear - Hc Hy. revert i Hy. induction Hc as [|a b c x Hab H IH]; intros i Hy; [destruct i; discriminate|]. destruct i; [injection Hy as <-; exists a; auto|exact (IH i Hy)]. }
  destruct Hcy as (z & Ez & Hz). destruct (Hv i z Ez) as (w & Ew & Hw). rewrite ones_index in Ew by lia. exists w. split; [exact Ew|]. rewrite Hw. exact Hz.
Qed.

(** the mesh object *)
Lemma cols_unrelated : Unrelated (fst column_labels) (snd column_labels).
Proof. split; intros s H; discriminate H. Qed.
Lemma fmesh_form sn cs (m : MeshModel.fmesh placement) : (bd_cyl (fm_bounds m) = true -> 2 <= length (bd_x3 (fm_bounds m))) ->
  exists x sl, fmesh_of sn cs m = Ok x /\ f_trsf x = trsf_of m /\ md_cyl (f_mesh x) = bd_cyl (fm_bounds m)
   /\ md_x1 (f_mesh x) = bd_x1 (fm_bounds m) /\ md_x2 (f_mesh x) = bd_x2 (fm_bounds m)
   /\ md_e (f_mesh x) = bd_e (fm_bounds m) /\ md_t (f_mesh x) = bd_t (fm_bounds m)
   /\ Slices (bd_cyl (fm_bounds m)) (bd_x3 (fm_bounds m)) (md_x3 (f_mesh x)) sl
   /\ forall t e k j i, md_a (f_mesh x) t e k j i = fm_data m t e (sl k) j i.
Proof.
  intros H. unfold fmesh_of.
  destruct (create_total sn cs (data_of m) (trsf_of m) column_labels cols_unrelated) as [[m' g] E]; [exact H|].
  unfold make_fmesh. rewrite E. cbn [bind].
  assert (K : m' = data_of m /\ bd_cyl (fm_bounds m) = false \/ cut_turn (data_of m) = Ok m').
  { unfold create_grid in E. destruct (md_cyl (data_of m)) eqn:C.
    - destruct (cut_turn (data_of m)) as [m1|]; [|destruct (trsf_of m); discriminate E]. cbn [bind] in E.
      destruct (bin_arrays m1 column_labels); [|destruct (trsf_of m); discriminate E]. destruct (trsf_of m); injection E as <- _; right; reflexivity.
    - destruct (trsf_of m); [right|left].
      + destruct (cut_turn (data_of m)) as [m1|]; [|discriminate E]. cbn [bind] in E. destruct (bin_arrays m1 column_labels); [|discriminate E]. injection E as <- _. reflexivity.
      + destruct (bin_arrays (data_of m) column_labels); [|discriminate E]. injection E as <- _. split; [reflexivity|exact C]. }
  destruct K as [[-> C]|K].
  - exists (mkF (data_of m) (fm_tally m) (trsf_of m) None g), (fun k => k). repeat split. constructor. rewrite C. discriminate.
  - unfold cut_turn in K. cbn [data_of md_cyl md_x1 md_x2 md_x3 md_e md_t md_a] in K. destruct (bd_cyl (fm_bounds m)) eqn:C.
    + destruct (bd_x3 (fm_bounds m)) as [|a [|b xs]] eqn:X; [discriminate K|discriminate K|].
      destruct (Qle_bool b (1 # 2)) eqn:B; injection K as <-.
      * exists (mkF (data_of m) (fm_tally m) (trsf_of m) None g), (fun k => k). repeat split; cbn [f_mesh data_of md_cyl md_x3]; [exact C|].
        rewrite X. constructor. intros _ y Hy. injection Hy as <-. apply Qle_bool_iff. exact B.
      * eexists (mkF _ (fm_tally m) (trsf_of m) None g), pred. repeat split. cbn [f_mesh md_x3]. constructor; [reflexivity|].
        destruct (Qlt_le_dec (1 # 2) b) as [|L]; [assumption|]. apply Qle_bool_iff in L. congruence.
    + injection K as <-. exists (mkF (data_of m) (fm_tally m) (trsf_of m) None g), (fun k => k). repeat split; [exact C|]. constructor. discriminate.
Qed.
