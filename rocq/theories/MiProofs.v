(** Proofs about meshinfo files. *)
From Coq Require Import Lia ZArith Permutation Sorted.
From Verif Require Import PyBase PyLemmas PyStr PyText D1SProofs2 DataModel MeshModel MeshSpec MeshProofs MiModel MiSpec.
Open Scope nat_scope.

(** ** sorting *)
Lemma key_leb_iff a b : key_leb (fst a) (fst b) = true <-> before a b.
Proof.
  destruct a as [[[v m] c] q], b as [[[w n] d] p]. unfold key_leb, before, r_voxel, r_mat, r_cell. cbn [fst snd].
  rewrite !Bool.orb_true_iff, !Bool.andb_true_iff, !Bool.orb_true_iff, !Bool.andb_true_iff, !Z.ltb_lt, !Z.eqb_eq, Z.leb_le. tauto.
Qed.
Lemma before_total a b : before a b \/ before b a. Proof. unfold before. lia. Qed.
Lemma before_trans a b c : before a b -> before b c -> before a c. Proof. unfold before. lia. Qed.
Lemma insert_perm x l : Permutation (insert_row x l) (x :: l).
Proof.
  induction l as [|y l IH]; [reflexivity|]. cbn [insert_row]. destruct (key_leb (fst x) (fst y)); [reflexivity|]. rewrite IH. apply perm_swap.
Qed.
Lemma sort_perm l : Permutation (sort_index l) l.
Proof. induction l as [|x l IH]; [reflexivity|]. cbn [sort_index fold_right]. rewrite insert_perm. apply perm_skip. exact IH. Qed.
Lemma insert_ss x l : StronglySorted before l -> StronglySorted before (insert_row x l).
Proof.
  induction 1 as [|y l HS IH HF]; cbn [insert_row]; [repeat constructor|]. destruct (key_leb (fst x) (fst y)) eqn:E.
  - apply key_leb_iff in E. constructor; [constructor; assumption|]. constructor; [exact E|]. eapply Forall_impl; [|exact HF]. intros z Hz. eapply before_trans; eassumption.
  - assert (B : before y x) by (destruct (before_total y x) as [B|B]; [exact B|]; apply key_leb_iff in B; congruence).
    constructor; [exact IH|]. apply Forall_forall. intros z Hz. apply (Permutation_in _ (insert_perm x l)) in Hz. destruct Hz as [<-|Hz]; [exact B|]. rewrite Forall_forall in HF. apply HF. exact Hz.
Qed.
Lemma sort_ss l : StronglySorted before (sort_index l).
Proof. induction l as [|x l IH]; [constructor|]. cbn [sort_index fold_right]. apply insert_ss. exact IH. Qed.
Lemma sort_sorted l : StronglySorted before l -> sort_index l = l.
Proof.
  induction 1 as [|x l HS IH HF]; [reflexivity|]. cbn [sort_index fold_right]. change (fold_right insert_row [] l) with (sort_index l). rewrite IH.
  destruct l as [|y l]; [reflexivity|]. cbn [insert_row]. inversion HF; subst. replace (key_leb (fst x) (fst y)) with true by (symmetry; apply key_leb_iff; assumption). reflexivity.
Qed.

(** ** voxels *)
Lemma cell_ok vol c l f : CellLine c l -> read_cell_part vol (l :: f) = Ok ((c_cell c, c_mat c, (vol * c_fraction c * c_density c)%Q), f).
Proof.
  intros (w1 & w2 & w3 & w4 & E & H1 & H2 & H3 & H4). unfold read_cell_part, readline. cbn [hd tl]. rewrite E. cbn [unpack4 bind]. rewrite H1, H2, H3, H4. reflexivity.
Qed.
Lemma cells_ok vol cs ls f : Forall2 (fun x c => CellLine c x) ls cs ->
  loop (length cs) (read_cell_part vol) (ls ++ f) = Ok (map (fun c => (c_cell c, c_mat c, (vol * c_fraction c * c_density c)%Q)) cs, f).
Proof. induction 1 as [|l c ls cs H HF IH]; [reflexivity|]. cbn [length loop app]. rewrite (cell_ok _ _ _ _ H). cbn [bind]. rewrite IH. reflexivity. Qed.
Lemma voxel_ok v ls f : VoxelText v ls -> read_one_voxel (ls ++ f) = Ok (map (fun c => ((v_id v, c_mat c, c_cell c), mass_of v c)) (v_cells v), f).
Proof.
  intros (l & cs & -> & (w1 & w2 & w3 & E & H1 & H2 & H3) & HF). unfold read_one_voxel, readline. cbn [app hd tl]. rewrite E. cbn [unpack3 bind]. rewrite H1, H2, H3. cbn [bind].
  rewrite Nat2Z.id, (cells_ok _ _ _ _ HF). cbn [bind]. rewrite map_map. reflexivity.
Qed.
Lemma voxels_ok vs : forall ls f, Voxels vs ls ->
  loop (length vs) read_one_voxel (ls ++ f) = Ok (map (fun v => map (fun c => ((v_id v, c_mat c, c_cell c), mass_of v c)) (v_cells v)) vs, f).
Proof.
  induction vs as [|v vs IH]; intros ls f H; cbn [Voxels] in H; [subst; reflexivity|]. destruct H as (a & b & -> & H1 & H2).
  rewrite <- app_assoc. cbn [length loop]. rewrite (voxel_ok _ _ _ H1). cbn [bind]. rewrite (IH _ _ H2). reflexivity.
Qed.
Lemma rows_map g vs : map (fun r => (fst r, g (r_mass r))) (rows_of (fun q => q) vs) = rows_of g vs.
Proof.
  unfold rows_of. rewrite concat_map, map_map. f_equal. apply map_ext. intros v. rewrite map_map. reflexivity.
Qed.

(** ** angles *)
Lemma angle_found w s : angle_text w -> angle_at (w ++ s) = Some (w, s).
Proof.
  intros (c & r & -> & Hc & Hl & Hr). cbn [angle_at app]. rewrite Hc, Ascii.eqb_refl. cbn [andb].
  assert (F8 : firstn 8 (r ++ s) = r) by (rewrite <- Hl, firstn_app, Nat.sub_diag, firstn_all; cbn; apply app_nil_r).
  assert (S8 : skipn 8 (r ++ s) = s) by (rewrite <- Hl, skipn_app, Nat.sub_diag, skipn_all; reflexivity).
  rewrite F8, S8. replace (8 <=? length (r ++ s)) with true by (symmetry; apply Nat.leb_le; rewrite app_length; lia).
  replace (forallb is_digit r) with true; [reflexivity|]. symmetry. apply forallb_forall. rewrite Forall_forall in Hr. exact Hr.
Qed.
Lemma gap_skip g : forall s n, gap g -> length (g ++ s) <= n -> find_angles n (g ++ s) = find_angles (n - length g) s.
Proof.
  induction g as [|c g IH]; intros s n Hg Hn; [cbn; f_equal; lia|]. inversion Hg as [|? ? Hc Hg']; subst. destruct n as [|n]; [cbn in Hn; lia|].
  cbn [app find_angles length Nat.sub]. assert (E : angle_at (c :: g ++ s) = None) by (unfold angle_at; destruct (g ++ s); [reflexivity|]; rewrite Hc; reflexivity).
  rewrite E. apply IH; [exact Hg'|cbn in Hn; lia].
Qed.
Lemma angles_found parts : forall n, length (concat (map (fun p : str * str => fst p ++ snd p) parts)) <= n ->
  Forall (fun p => angle_text (fst p) /\ gap (snd p)) parts -> find_angles n (concat (map (fun p => fst p ++ snd p) parts)) = map fst parts.
Proof.
  induction parts as [|[w g] parts IH]; intros n Hn HF; [destruct n; reflexivity|]. inversion HF as [|? ? [Hw Hg] HF']; subst. cbn [fst snd map concat] in *.
  rewrite <- app_assoc in Hn |- *. assert (Lw : length w = 10) by (destruct Hw as (c & r & -> & _ & Hl & _); cbn; lia).
  destruct n as [|n]; [exfalso; assert (Hx := Hn); rewrite app_length in Hx; unfold str in *; lia|]. cbn [find_angles].
  pose proof (angle_found w (g ++ concat (map (fun p => fst p ++ snd p) parts)) Hw) as E. destruct w as [|c w]; [discriminate Lw|]. cbn [app] in E |- *. rewrite E. f_equal.
  rewrite app_length in Hn. cbn [length] in Hn, Lw. set (T := concat (map (fun p : str * str => fst p ++ snd p) parts)) in *.
  assert (Lg : length (g ++ T) = length g + length T) by apply app_length.
  rewrite gap_skip; [|exact Hg|change (length (g ++ T) <= n); lia]. apply IH; [change (length T <= n - length g); lia|exact HF'].
Qed.
Lemma mapM_num ws qs : Forall2 numeral ws qs -> mapM parse_float ws = Ok qs.
Proof. induction 1 as [|w q ws qs H HF IH]; [reflexivity|]. cbn [mapM]. rewrite H. cbn [bind]. rewrite IH. reflexivity. Qed.
Lemma angle_line tp qs l : AngleLine qs l -> mapM (fun w => do x <- parse_float w; Ok (x / tp)%Q) (find_angles (length l) l) = Ok (map (fun q => q / tp)%Q qs).
Proof.
  intros (pre & parts & -> & Hp & HF). rewrite gap_skip by (try exact Hp; lia). rewrite angles_found.
  - clear Hp. induction HF as [|[w g] q parts qs (H1 & H2 & H3) HF IH]; [reflexivity|]. cbn [map fst mapM] in *. rewrite H3. cbn [bind]. rewrite IH. reflexivity.
  - rewrite app_length, Nat.add_comm, Nat.add_sub. apply Nat.le_refl.
  - clear Hp. induction HF as [|p q parts qs (H1 & H2 & H3) HF IH]; constructor; auto.
Qed.
Lemma labelled_ok qs l : Labelled qs l -> mapM parse_float (skipn 2 (split l)) = Ok qs.
Proof. intros (a & b & ws & -> & H). cbn [skipn]. apply mapM_num. exact H. Qed.

(** ** the head of a mesh *)
Definition kept_k (tp : Q) (m : mesh) : list Q := match h_extra m with None => h_k m | Some _ => map (fun q => q / tp)%Q (h_k m) end.
Definition is_cyl (m : mesh) : bool := match h_extra m with None => false | Some _ => true end.
Lemma slice_mid {A} (a b c : list A) n k : length a = n -> n + length b = k -> slice n k (a ++ b ++ c) = b.
Proof.
  intros <- <-. unfold slice. rewrite skipn_app, skipn_all, Nat.sub_diag. cbn [app skipn]. replace (length a + length b - length a) with (length b) by lia.
  rewrite firstn_app, Nat.sub_diag, firstn_all. cbn. apply app_nil_r.
Qed.
Lemma head_ok tp m a ls rest : length a = 3 -> HeadText m ls ->
  read_individual_mesh tp (a ++ ls ++ rest) =
    do '(rows, f3) <- read_voxels tp (is_cyl m) (h_i m) (h_j m) (kept_k tp m) rest;
    Ok (mkMi (is_cyl m) (h_extra m) (h_i m) (h_j m) (kept_k tp m) (Some rows), f3).
Proof.
  intros Ha H. unfold read_individual_mesh. rewrite skipn_app, <- Ha, skipn_all, Nat.sub_diag. cbn [app skipn].
  unfold HeadText, kept_k, is_cyl in *. destruct (h_extra m) as [[[o x] v]|].
  - destruct H as (l0 & l1 & l2 & l3 & -> & H1 & H2 & H3 & at_ & ws1 & p & q & ws2 & c & d & e & ws3 & more & E & L1 & L2 & L3 & F1 & F2 & F3).
    unfold readline. cbn [app hd tl]. rewrite E. cbn [nth_error of_opt bind]. change (str_eqb (s2l "origin") (s2l "origin")) with true. cbn iota.
    unfold read_header_cyl.
    assert (S1 : slice 2 5 (s2l "origin" :: at_ :: ws1 ++ [p; q] ++ ws2 ++ [c; d; e] ++ ws3 ++ more) = ws1).
    { apply (slice_mid [s2l "origin"; at_] ws1); [reflexivity|rewrite L1; reflexivity]. }
    assert (S2 : slice 7 10 (s2l "origin" :: at_ :: ws1 ++ [p; q] ++ ws2 ++ [c; d; e] ++ ws3 ++ more) = ws2).
    { replace (s2l "origin" :: at_ :: ws1 ++ [p; q] ++ ws2 ++ [c; d; e] ++ ws3 ++ more) with (([s2l "origin"; at_] ++ ws1 ++ [p; q]) ++ ws2 ++ [c; d; e] ++ ws3 ++ more) by (rewrite <- !app_assoc; reflexivity).
      apply slice_mid; [rewrite !app_length, L1; reflexivity|rewrite L2; reflexivity]. }
    assert (S3 : slice 13 16 (s2l "origin" :: at_ :: ws1 ++ [p; q] ++ ws2 ++ [c; d; e] ++ ws3 ++ more) = ws3).
    { replace (s2l "origin" :: at_ :: ws1 ++ [p; q] ++ ws2 ++ [c; d; e] ++ ws3 ++ more) with (([s2l "origin"; at_] ++ ws1 ++ [p; q] ++ ws2 ++ [c; d; e]) ++ ws3 ++ more) by (rewrite <- !app_assoc; reflexivity).
      apply slice_mid; [rewrite !app_length, L1, L2; reflexivity|rewrite L3; reflexivity]. }
    rewrite S1, S2, S3, (mapM_num _ _ F1), (mapM_num _ _ F2), (mapM_num _ _ F3). cbn [bind].
    unfold readline. cbn [hd tl]. rewrite (labelled_ok _ _ H1). cbn [bind]. rewrite (labelled_ok _ _ H2). cbn [bind]. rewrite (angle_line tp _ _ H3). cbn [bind]. reflexivity.
  - destruct H as (l1 & l2 & l3 & -> & H1 & H2 & H3 & Hn). unfold readline. cbn [app hd tl].
    pose proof H1 as (p & q & ws & E & _). rewrite E in *. cbn [nth_error of_opt bind] in *.
    destruct (str_eqb p (s2l "origin")) eqn:Eo; [apply str_eqb_eq in Eo; subst; exfalso; apply Hn; reflexivity|].
    unfold read_header_cart, readline. rewrite <- E, (labelled_ok _ _ H1). cbn [bind hd tl]. rewrite (labelled_ok _ _ H2). cbn [bind]. rewrite (labelled_ok _ _ H3). cbn [bind]. reflexivity.
Qed.
Lemma count_ok tp m : proper m -> voxel_count (h_i m) (h_j m) (kept_k tp m) = grid_size m.
Proof.
  intros (H1 & H2 & H3). assert (Lk : length (kept_k tp m) = length (h_k m)) by (unfold kept_k; destruct (h_extra m); [apply map_length|reflexivity]).
  unfold voxel_count, grid_size. rewrite Lk. destruct (h_i m) as [|a i], (h_j m) as [|b j], (h_k m) as [|c k]; try contradiction. cbn [length pred]. lia.
Qed.
Lemma mesh_ok tp m ls rest : MeshText m ls -> exists r, read_individual_mesh tp (ls ++ rest) = Ok (r, rest) /\ KeptAs tp m r.
Proof.
  intros (Hp & Hn & a & b & -> & Ha & c & d & -> & Hh & Hv). rewrite <- !app_assoc. rewrite (head_ok tp m a c _ Ha Hh).
  unfold read_voxels. rewrite (count_ok tp m Hp), <- Hn, (voxels_ok _ _ _ Hv). cbn [bind]. eexists. split; [reflexivity|].
  unfold KeptAs, is_cyl, kept_k. cbn [m_extra m_cyl m_i m_j m_k m_mass]. repeat split.
  eexists. split; [reflexivity|]. split; [|apply sort_ss]. rewrite sort_perm. destruct (h_extra m) as [p|].
  - match goal with |- Permutation ?x ?y => replace x with y; [reflexivity|] end. symmetry. exact (rows_map (fun q => q / tp)%Q (h_voxels m)).
  - reflexivity.
Qed.

(** ** the file *)
Lemma other_skip tp ls : forall rest n info, Other ls -> length (ls ++ rest) <= n -> from_file tp n info (ls ++ rest) = from_file tp (n - length ls) info rest.
Proof.
  induction ls as [|l ls IH]; intros rest n info H Hn; [cbn; f_equal; lia|]. inversion H as [|? ? Hl H']; subst. destruct n as [|n]; [cbn in Hn; lia|].
  cbn [app from_file]. rewrite has_not by exact Hl. cbn [length Nat.sub]. apply IH; [exact H'|cbn in Hn; lia].
Qed.
Lemma from_nil tp n info : from_file tp n info [] = Ok info. Proof. destruct n; reflexivity. Qed.
Lemma title_mesh tp i m a b c rest n info : Other a -> TitleLine i b -> MeshText m c -> length (a ++ b ++ c ++ rest) <= n ->
  exists r k, KeptAs tp m r /\ length rest <= k /\ from_file tp n info (a ++ b ++ c ++ rest) = from_file tp k (dset Z.eqb i r info) rest.
Proof.
  intros Ha (l & w & -> & Hm & Hw & Hi) Hc Hn. rewrite (other_skip tp a _ n info Ha Hn). rewrite !app_length in Hn. cbn [length app] in *.
  remember (n - length a) as k eqn:Ek. destruct k as [|k]; [lia|]. cbn [from_file].
  replace (has "Mesh tally number:" l) with true by (symmetry; apply has_iff; exact Hm). rewrite Hw. cbn [of_opt bind]. rewrite Hi. cbn [bind].
  destruct (mesh_ok tp m c rest Hc) as (r & E & HK). rewrite E. cbn [bind]. exists r, k. split; [exact HK|]. split; [lia|reflexivity].
Qed.
Theorem file_ok tp ms : forall f n info, FileText ms f -> length f <= n ->
  exists rs, Forall2 (fun a b => fst a = fst b /\ KeptAs tp (snd a) (snd b)) ms rs
    /\ from_file tp n info f = Ok (fold_left (fun d kv => dset Z.eqb (fst kv) (snd kv) d) rs info).
Proof.
  induction ms as [|[i m] ms IH]; intros f n info H Hn; cbn [FileText] in H.
  - exists []. split; [constructor|]. pose proof (other_skip tp f [] n info H ltac:(rewrite app_nil_r; exact Hn)) as E. rewrite app_nil_r in E. rewrite E. apply from_nil.
  - destruct H as (a & x & -> & Ha & b & y & -> & Hb & c & rest & -> & Hc & Hr).
    destruct (title_mesh tp i m a b c rest n info Ha Hb Hc Hn) as (r & k & HK & Lk & ->).
    destruct (IH rest k (dset Z.eqb i r info) Hr Lk) as (rs & HF & E). exists ((i, r) :: rs). split; [constructor; [split; [reflexivity|exact HK]|exact HF]|exact E].
Qed.
Lemma cells_short vol n cs parts : length cs < n -> Forall2 (fun x c => CellLine c x) cs parts -> exists e, loop n (read_cell_part vol) cs = Err e.
Proof.
  intros Hn HF. revert n Hn. induction HF as [|l c cs parts H HF IH]; intros n Hn; (destruct n as [|n]; [cbn in Hn; lia|]); cbn [loop].
  - eexists. reflexivity.
  - rewrite (cell_ok _ _ _ _ H). cbn [bind]. destruct (IH n ltac:(cbn in Hn; lia)) as (e & ->). eexists; reflexivity.
Qed.
Lemma voxels_short vs : forall n ls last, length vs < n -> Voxels vs ls ->
  (last = [] \/ exists l cs i vol k parts, last = l :: cs /\ VoxelLine i vol k l /\ length cs < k /\ Forall2 (fun x c => CellLine c x) cs parts) ->
  exists e, loop n read_one_voxel (ls ++ last) = Err e.
Proof.
  induction vs as [|v vs IH]; intros n ls last Hn H Hl; cbn [Voxels] in H; (destruct n as [|n]; [cbn in Hn; lia|]); cbn [loop].
  - subst ls. cbn [app]. destruct Hl as [->|(l & cs & i & vol & k & parts & -> & (w1 & w2 & w3 & E & H1 & H2 & H3) & Hk & HF)]; [eexists; reflexivity|].
    unfold read_one_voxel, readline. cbn [hd tl]. rewrite E. cbn [unpack3 bind]. rewrite H1, H2, H3. cbn [bind]. rewrite Nat2Z.id.
    destruct (cells_short vol k cs parts Hk HF) as (e & ->). eexists; reflexivity.
  - destruct H as (a & b & -> & H1 & H2). rewrite <- app_assoc, (voxel_ok _ _ _ H1). cbn [bind].
    destruct (IH n b last ltac:(cbn in Hn; lia) H2 Hl) as (e & ->). eexists; reflexivity.
Qed.
Theorem cut_refused tp ms i m f : (Series ms >> Other >> TitleLine i >> CutMesh m) f -> exists e, read_meshinfo tp f = Err e.
Proof.
  intros (x & y & -> & HS & a & z & -> & Ha & b & c & -> & Hb & Hp & a3 & d & -> & H3 & h & v & -> & Hh & vs & Hn & vx & last & -> & Hv & Hl).
  unfold read_meshinfo. assert (G : forall ms x n info, Series ms x -> length (x ++ a ++ b ++ a3 ++ h ++ vx ++ last) <= n -> exists e, from_file tp n info (x ++ a ++ b ++ a3 ++ h ++ vx ++ last) = Err e).
  { clear ms x HS. induction ms as [|[i0 m0] ms IH]; intros x n info HS Hlen; cbn [Series] in HS.
    - subst x. cbn [app] in *. rewrite (other_skip tp a _ n info Ha Hlen). destruct Hb as (l & w & -> & Hm & Hw & Hi). rewrite app_length in Hlen. cbn [length app] in *.
      remember (n - length a) as k eqn:Ek. destruct k as [|k]; [lia|]. cbn [from_file].
      replace (has "Mesh tally number:" l) with true by (symmetry; apply has_iff; exact Hm). rewrite Hw. cbn [of_opt bind]. rewrite Hi. cbn [bind].
      rewrite (head_ok tp m a3 h _ H3 Hh). unfold read_voxels. rewrite (count_ok tp m Hp).
      destruct (voxels_short vs (grid_size m) vx last Hn Hv Hl) as (e & ->). eexists; reflexivity.
    - destruct HS as (p & q & -> & Ho & t & u & -> & Ht & mm & r & -> & Hmm & HS). rewrite <- !app_assoc in *.
      destruct (title_mesh tp i0 m0 p t mm _ n info Ho Ht Hmm Hlen) as (rr & k & _ & Lk & ->). apply IH; assumption. }
  apply (G ms x _ [] HS). reflexivity.
Qed.

(** ** queries *)
Lemma memz_in z l : memz z l = true <-> In z l.
Proof. unfold memz. rewrite existsb_exists. split; [intros (x & H & E); apply Z.eqb_eq in E; subst; exact H|intros H; exists z; split; [exact H|apply Z.eqb_refl]]. Qed.
Lemma unique_ok l : forall seen, NoDup (unique seen l) /\ forall z, In z (unique seen l) <-> In z l /\ ~ In z seen.
Proof.
  induction l as [|x l IH]; intros seen; cbn [unique]; [split; [constructor|intros z; split; [intros []|intros [[] _]]]|].
  destruct (memz x seen) eqn:E.
  - apply memz_in in E. destruct (IH seen) as [H1 H2]. split; [exact H1|]. intros z. rewrite H2. cbn [In]. split; [tauto|]. intros [[<-|H] N]; [contradiction|auto].
  - assert (N : ~ In x seen) by (intros X; apply memz_in in X; congruence). destruct (IH (x :: seen)) as [H1 H2]. split.
    + constructor; [rewrite H2; cbn [In]; tauto|exact H1].
    + intros z. cbn [In]. rewrite H2. cbn [In]. destruct (Z.eq_dec x z) as [->|D]; [tauto|]. split; [tauto|]. intros [[H|H] N']; [contradiction|]. right. tauto.
Qed.
Lemma insert_z_in x l z : In z (insert_z x l) <-> z = x \/ In z l.
Proof.
  induction l as [|y l IH]; cbn [insert_z In]; [intuition|]. destruct (x <? y)%Z; [cbn [In]; intuition|]. destruct (Z.eqb_spec x y) as [->|N]; cbn [In]; [intuition|]. rewrite IH. intuition.
Qed.
Lemma insert_z_sorted x l : StronglySorted Z.lt l -> StronglySorted Z.lt (insert_z x l).
Proof.
  induction 1 as [|y l HS IH HF]; cbn [insert_z]; [repeat constructor|]. destruct (Z.ltb_spec x y).
  - constructor; [constructor; assumption|]. constructor; [assumption|]. eapply Forall_impl; [|exact HF]. intros; cbn; lia.
  - destruct (Z.eqb_spec x y) as [->|N]; [constructor; assumption|]. constructor; [exact IH|]. apply Forall_forall. intros z Hz. apply insert_z_in in Hz as [->|Hz]; [lia|]. rewrite Forall_forall in HF. apply HF. exact Hz.
Qed.
Lemma materials_ok df : StronglySorted Z.lt (materials df) /\ forall z, In z (materials df) <-> exists r, In r df /\ r_mat r = z.
Proof.
  unfold materials. induction df as [|r df [H1 H2]]; cbn [map fold_right]; [split; [constructor|intros z; split; [intros []|intros (r & [] & _)]]|]. split.
  - apply insert_z_sorted. exact H1.
  - intros z. rewrite insert_z_in, H2. cbn [In]. split; [intros [->|(r' & A & B)]; [exists r; auto|exists r'; auto]|intros (r' & [<-|A] & B); [left; auto|right; exists r'; auto]].
Qed.
Lemma filtered_in v m c df r : In r (get_filtered v m c df) <-> In r df /\ wanted v (r_voxel r) = true /\ wanted m (r_mat r) = true /\ wanted c (r_cell r) = true.
Proof. unfold get_filtered. rewrite filter_In, !Bool.andb_true_iff. tauto. Qed.
