(** What CUV reading refuses or gets wrong (C54) *)
From Coq Require Import Lia ZArith Qfield.
From Verif Require Import PyBase PyLemmas PyStr PyStrLemmas WWTextProofs MatProofs RssaProofs2 MeshModel MeshSpec MeshProofs MeshCuvModel MeshCuvSpec MeshCuvProofs.
Open Scope nat_scope.

Lemma first_piece n P ls : Each n P ls -> n <> 0 -> exists p r, ls = p ++ r /\ P 0 p.
Proof. intros (ps & -> & L & H) Hn. destruct ps as [|p ps]; [cbn in L; lia|]. exists p, (concat ps). split; [reflexivity|]. exact (H 0 p eq_refl). Qed.
Lemma first_voxel tot ne nz ny nx vox ls rest : CuvText tot ne nz ny nx vox ls -> nx <> 0 -> ny <> 0 -> nz <> 0 ->
  exists p r, skipline 1 (ls ++ rest) = p ++ r /\ VoxelText tot ne (vox 0 0 0) p.
Proof.
  intros (a & b & -> & Ha & Hb) Hx Hy Hz. rewrite <- app_assoc, (skip_app a _ 1 Ha).
  destruct (first_piece _ _ _ Hb Hx) as (p & r & -> & H1). destruct (first_piece _ _ _ H1 Hy) as (p2 & r2 & -> & H2).
  destruct (first_piece _ _ _ H2 Hz) as (p3 & r3 & -> & H3). exists p3, (r3 ++ r2 ++ r ++ rest). split; [|exact H3].
  repeat rewrite <- app_assoc. reflexivity.
Qed.
Lemma loop_err A n (body : file -> res (A * file)) f e : n <> 0 -> body f = Err e -> loop n body f = Err e.
Proof. destruct n; [contradiction|]. intros _ H. cbn [loop]. rewrite H. reflexivity. Qed.

(** what the element reader does with a described voxel, up to the choice of the cells *)
Lemma element_step tot ne norm filt v ls r : VoxelText tot ne v ls -> vx_cells v <> [] ->
  exists s, (s == match filt with None => 1 | Some _ => filled filt v end)%Q /\
  cuv_element norm filt (ls ++ r) =
   if Qeq_bool s 0 then Ok ((repeat 0%Q ne, repeat 0%Q ne), r)
   else do '(v', e') <- (if 1 <? length (vx_cells v)
                         then mean_value (map (fun c => (vc_num c, vc_frac c)) (chosen filt v)) (map (fun c => row ne (vc_val c)) (chosen filt v)) (map (fun c => row ne (vc_err c)) (chosen filt v))
                         else match map (fun c => row ne (vc_val c)) (chosen filt v), map (fun c => row ne (vc_err c)) (chosen filt v) with a :: _, b :: _ => Ok (a, b) | _, _ => Err IndexError end);
        match norm with
        | Some true => Ok ((map (fun x => x * vx_vol v)%Q v', e'), r)
        | Some false => Ok ((map (fun x => x / s)%Q v', e'), r)
        | None => Err ValueError
        end.
Proof.
  intros (h & heads & vals & -> & (w0 & w1 & w2 & w3 & wv & wn & ws & Hs & Hvol & (qn & Hqn & Eqn)) & H1 & H2) Hne.
  unfold cuv_element. cbn [readline app hd tl]. rewrite Hs. cbn [nth_error]. rewrite Hvol. cbn [bind]. rewrite Hqn. cbn [bind].
  rewrite (ints_ok wn _ _ Hqn Eqn), Nat2Z.id, <- app_assoc, (cells_ok tot ne _ heads vals r H1 H2). cbn [bind].
  set (cs := vx_cells v) in *.
  assert (E0 : forall X (a : X) (b : list Q -> list (list Q) -> X), match map (fun c => row ne (vc_val c)) cs with [] => a | v0 :: t => b v0 t end
     = b (row ne (vc_val (hd (mkVC 0 0 (fun _ => 0%Q) (fun _ => 0%Q)) cs))) (map (fun c => row ne (vc_val c)) (tl cs))) by (destruct cs; [contradiction|reflexivity]).
  rewrite E0. clear E0. cbv beta. rewrite row_len.
  destruct filt as [l|].
  - destruct (select_ok ne l cs) as (s & E & Es). exists s. split; [exact Es|]. rewrite E. reflexivity.
  - exists 1%Q. split; reflexivity.
Qed.
Lemma mean_rows ne cs : cs <> [] -> exists v e, length v = ne /\ length e = ne /\
  mean_value (map (fun c => (vc_num c, vc_frac c)) cs) (map (fun c => row ne (vc_val c)) cs) (map (fun c => row ne (vc_err c)) cs) = Ok (v, e).
Proof. intros H. destruct (mean_ok ne cs H) as (v & e & E & [Lv _] & Le & _). exists v, e. auto. Qed.
Lemma pick_rows ne filt v : chosen filt v <> [] -> exists a b, length a = ne /\ length b = ne /\
  (if 1 <? length (vx_cells v)
                         then mean_value (map (fun c => (vc_num c, vc_frac c)) (chosen filt v)) (map (fun c => row ne (vc_val c)) (chosen filt v)) (map (fun c => row ne (vc_err c)) (chosen filt v))
                         else match map (fun c => row ne (vc_val c)) (chosen filt v), map (fun c => row ne (vc_err c)) (chosen filt v) with a :: _, b :: _ => Ok (a, b) | _, _ => Err IndexError end) = Ok (a, b).
Proof.
  intros H. destruct (1 <? length (vx_cells v)).
  - destruct (mean_rows ne _ H) as (a & b & La & Lb & E). exists a, b. auto.
  - destruct (chosen filt v) as [|c cs]; [contradiction|]. cbn [map]. do 2 eexists. split; [|split]; [| |reflexivity]; apply row_len.
Qed.

Lemma no_norm tot ne nz ny nx vox ls rest : CuvText tot ne nz ny nx vox ls -> nx <> 0 -> ny <> 0 -> nz <> 0 -> vx_cells (vox 0 0 0) <> [] ->
  cuv_data None None ne nz ny nx (ls ++ rest) = Err ValueError.
Proof.
  intros H Hx Hy Hz Hne. destruct (first_voxel _ _ _ _ _ _ _ rest H Hx Hy Hz) as (p & r & Ep & Hp). unfold cuv_data.
  rewrite (loop_err _ _ _ _ ValueError); [reflexivity|nia|]. rewrite Ep.
  destruct (element_step tot ne None None _ p r Hp Hne) as (s & Es & ->).
  destruct (Qeq_bool s 0) eqn:E. { apply Qeq_bool_eq in E. rewrite E in Es. discriminate Es. }
  destruct (pick_rows ne None (vox 0 0 0) Hne) as (a & b & _ & _ & ->). reflexivity.
Qed.

Lemma wrong_length tot m ne total filt nz ny nx vox ls rest : CuvText tot m nz ny nx vox ls -> nx <> 0 -> ny <> 0 -> nz <> 0 -> vx_cells (vox 0 0 0) <> [] ->
  m <> ne -> m <> 1 -> cuv_data (Some total) filt ne nz ny nx (ls ++ rest) = Err ValueError.
Proof.
  intros H Hx Hy Hz Hne Hm H1. destruct (first_voxel _ _ _ _ _ _ _ rest H Hx Hy Hz) as (p & r & Ep & Hp). unfold cuv_data.
  rewrite (loop_err _ _ _ _ ValueError); [reflexivity|nia|]. rewrite Ep.
  assert (A : forall l : list Q, length l = m -> assign ne l = Err ValueError).
  { intros l L. unfold assign. rewrite L. destruct (Nat.eqb_spec m ne); [contradiction|]. destruct l as [|x [|y l]]; [reflexivity|cbn in L; lia|reflexivity]. }
  destruct (element_step tot m (Some total) filt _ p r Hp Hne) as (s & Es & ->).
  destruct (Qeq_bool s 0) eqn:E.
  - cbn [bind]. rewrite A by apply repeat_length. reflexivity.
  - assert (Hch : chosen filt (vox 0 0 0) <> []).
    { intros Ec. destruct filt as [l|]; [|contradiction]. unfold filled in Es. rewrite Ec in Es. cbn in Es. apply Qeq_bool_iff in Es. congruence. }
    destruct (pick_rows m filt (vox 0 0 0) Hch) as (a & b & La & Lb & ->). cbn [bind]. destruct total; cbn [bind]; rewrite A by (rewrite map_length; exact La); reflexivity.
Qed.

Lemma lone_cell tot ne l c vol ls r : VoxelText tot ne (mkVox vol [c]) ls -> In (vc_num c) l -> (~ vc_frac c == 0)%Q ->
  exists v e, cuv_element (Some false) (Some l) (ls ++ r) = Ok ((v, e), r) /\ is_value ne (fun k => vc_val c k / vc_frac c)%Q v.
Proof.
  intros H Hin Hf. destruct (element_step tot ne (Some false) (Some l) _ ls r H ltac:(discriminate)) as (s & Es & ->).
  assert (Ec : chosen (Some l) (mkVox vol [c]) = [c]).
  { unfold chosen. cbn [vx_cells filter]. assert (E : existsb (Z.eqb (vc_num c)) l = true).
    { apply existsb_exists. exists (vc_num c). split; [exact Hin|apply Z.eqb_refl]. } rewrite E. reflexivity. }
  assert (Es2 : (s == vc_frac c)%Q). { rewrite Es. unfold filled. rewrite Ec. cbn [wsum fold_right]. unfold one. ring. }
  destruct (Qeq_bool s 0) eqn:E0. { apply Qeq_bool_eq in E0. rewrite Es2 in E0. contradiction. }
  rewrite Ec. cbn [vx_cells length Nat.ltb Nat.leb map bind]. do 2 eexists. split; [reflexivity|].
  apply (is_value_comp ne (fun k => vc_val c k / s)%Q).
  - exact (is_value_map ne _ _ (fun x => x / s)%Q (row_value ne (vc_val c)) (fun a b E => Qdiv_comp _ _ E _ _ (Qeq_refl _))).
  - intros k _. rewrite Es2. reflexivity.
Qed.
