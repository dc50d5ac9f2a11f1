(** Proofs about whole .eeout files. *)
From Coq Require Import Lia ZArith.
From Verif Require Import PyBase PyLemmas PyStr PyText D1SModel D1SProofs2 DataModel MeshModel MeshSpec MeshProofs MctalProofs EliteProofs3 OutModel OutSpec OutProofs OutProofs2 OutProofs4 FispModel FispProofs EeoutModel EeoutSpec EeoutProofs EeoutProofs2 EeoutProofs3 EeoutProofs4.
Open Scope nat_scope.

Ltac assoc := cbn [app]; repeat (progress (rewrite <- ?app_assoc; cbn [app])); reflexivity.
Lemma last_values bs : forall f, (exists b, In b bs /\ b_errors b = false) -> exists v, f_values (fold_left upd bs f) = Some v /\ LastBlock false bs v.
Proof.
  induction bs as [|b bs IH] using rev_ind; intros f (b0 & Hb & Hf); [destruct Hb|]. rewrite fold_left_app. cbn [fold_left]. unfold upd at 1. destruct (b_errors b) eqn:E.
  - apply in_app_or in Hb as [Hb|[->|[]]]; [|congruence]. destruct (IH f (ex_intro _ b0 (conj Hb Hf))) as (v & Ev & a & x & c & -> & Hx & Hv & Hc). exists v. split; [exact Ev|].
    exists a, x, (c ++ [b]). rewrite <- app_assoc. split; [reflexivity|]. split; [exact Hx|]. split; [exact Hv|]. apply Forall_app. split; [exact Hc|constructor; [exact E|constructor]].
  - exists (b_values b). split; [reflexivity|]. exists bs, b, []. auto.
Qed.
Lemma last_errors bs : forall f, (exists b, In b bs /\ b_errors b = true) -> exists v, f_errors (fold_left upd bs f) = Some v /\ LastBlock true bs v.
Proof.
  induction bs as [|b bs IH] using rev_ind; intros f (b0 & Hb & Hf); [destruct Hb|]. rewrite fold_left_app. cbn [fold_left]. unfold upd at 1. destruct (b_errors b) eqn:E.
  - exists (b_values b). split; [reflexivity|]. exists bs, b, []. auto.
  - apply in_app_or in Hb as [Hb|[->|[]]]; [|congruence]. destruct (IH f (ex_intro _ b0 (conj Hb Hf))) as (v & Ev & a & x & c & -> & Hx & Hv & Hc). exists v. split; [exact Ev|].
    exists a, x, (c ++ [b]). rewrite <- app_assoc. split; [reflexivity|]. split; [exact Hx|]. split; [exact Hv|]. apply Forall_app. split; [exact Hc|constructor; [exact E|constructor]].
Qed.
Lemma fits_cells {A} p n (l : list A) : length l = n \/ length l = p -> fits p n l = Ok tt.
Proof. intros [E|E]; unfold fits; rewrite E, Nat.eqb_refl, ?Bool.orb_true_r; reflexivity. Qed.
Lemma arrays_ok p n ts : Forall (fun t => (exists b, In b (t_blocks t) /\ b_errors b = false) /\ (exists b, In b (t_blocks t) /\ b_errors b = true) /\ Forall (fun b => length (b_values b) = n \/ length (b_values b) = p) (t_blocks t)) ts ->
  exists fs, mapM (edit_arrays p n) (map (fun t => (edit_name t, field_of t)) ts) = Ok fs /\ Forall2 Arrays ts fs.
Proof.
  induction 1 as [|t ts (H1 & H2 & H3) _ (fs & E & F)]; [exists []; split; [reflexivity|constructor]|]. cbn [map mapM].
  destruct (last_values (t_blocks t) (mkField None None) H1) as (v & Ev & Lv). destruct (last_errors (t_blocks t) (mkField None None) H2) as (e & Ee & Le).
  assert (S : forall er q, LastBlock er (t_blocks t) q -> length q = n \/ length q = p). { intros er q (a & x & c & Eb & _ & <- & _). rewrite Forall_forall in H3. apply H3. rewrite Eb. apply in_or_app; right; left; reflexivity. }
  unfold edit_arrays at 1. cbn [fst snd]. unfold field_of at 1. rewrite Ev. cbn [of_opt bind]. rewrite (fits_cells p n v (S _ _ Lv)). cbn [bind]. unfold field_of at 1. rewrite Ee. cbn [of_opt bind]. rewrite (fits_cells p n e (S _ _ Le)). cbn [bind].
  rewrite E. cbn [bind]. eexists. split; [reflexivity|]. constructor; [|exact F]. exists v, e. auto.
Qed.
Lemma plain_parts l : Plain l -> ~ mentions "PARTICLE LIST" l /\ says_none ["NODES X"; "NODES Y"; "NODES Z"]%string l /\ ~ MaterialsTitle l /\ ~ ElementType l.
Proof. intros (H & H1 & H2). unfold says_none, start_titles in *. repeat rewrite Forall_cons_iff in H. destruct H as (A & B & C & D & _). split; [exact A|]. split; [repeat constructor; assumption|auto]. Qed.
Lemma begin_parts c a : BeginText c a -> forall rest,
  read_info false [] (a ++ rest) = Ok (k_counts c) /\ NoDup (map fst (k_counts c))
  /\ materials (Z.of_nat (length (k_materials c))) (a ++ rest) = Ok (k_materials c) /\ particle_list (a ++ rest) = Ok (k_particles c)
  /\ Forall (says_none ["NODES X"; "NODES Y"; "NODES Z"]%string) a /\ Forall (fun l => ~ ElementType l) a.
Proof.
  intros (a0 & cs & a1 & pt & pl & a2 & mt & ms & a3 & -> & P0 & N0 & Pc & Hc & P1 & Hpt & Ppl & Hpl & P2 & Hmt & Pm & Hm & P3) rest.
  assert (Pt : says_none ["NODES X"; "NODES Y"; "NODES Z"]%string pt /\ ~ MaterialsTitle pt /\ ~ ElementType pt).
  { split; [repeat constructor; intros X; apply has_iff in X; [rewrite (title_hasnt _ "NODES X" _ Hpt eq_refl) in X|rewrite (title_hasnt _ "NODES Y" _ Hpt eq_refl) in X|rewrite (title_hasnt _ "NODES Z" _ Hpt eq_refl) in X]; discriminate X|].
    split.
    - intros X. apply mat_title_iff in X. destruct Hpt as (r & -> & _). discriminate X.
    - intros X. apply elem_type_iff in X. destruct Hpt as (r & -> & _). discriminate X. }
  assert (Pm' : says_none ["NODES X"; "NODES Y"; "NODES Z"]%string mt /\ ~ ElementType mt /\ MaterialsTitle mt).
  { split; [repeat constructor; intros X; apply has_iff in X; [rewrite (title_hasnt _ "NODES X" _ Hmt eq_refl) in X|rewrite (title_hasnt _ "NODES Y" _ Hmt eq_refl) in X|rewrite (title_hasnt _ "NODES Z" _ Hmt eq_refl) in X]; discriminate X|].
    split.
    - intros X. apply elem_type_iff in X. destruct Hmt as (r & -> & _). discriminate X.
    - destruct Hmt as (r & -> & _). exists [sp], r. split; [reflexivity|]. split; [discriminate|constructor; [reflexivity|constructor]]. }
  destruct Pt as (Pt1 & Pt2 & Pt3), Pm' as (Pm1 & Pm2 & Pm3).
  assert (FM : forall l, Forall Plain l -> Forall (fun l => ~ MaterialsTitle l) l) by (intros l; apply Forall_impl; intros x Hx; apply (plain_parts x Hx)).
  assert (FP : forall l, Forall Plain l -> Forall (fun l => ~ mentions "PARTICLE LIST" l) l) by (intros l; apply Forall_impl; intros x Hx; apply (plain_parts x Hx)).
  assert (FN : forall l, Forall Plain l -> Forall (says_none ["NODES X"; "NODES Y"; "NODES Z"]%string) l) by (intros l; apply Forall_impl; intros x Hx; apply (plain_parts x Hx)).
  assert (FE : forall l, Forall Plain l -> Forall (fun l => ~ ElementType l) l) by (intros l; apply Forall_impl; intros x Hx; apply (plain_parts x Hx)).
  split; [rewrite <- !app_assoc; apply info_ok; assumption|]. split; [apply Hc|]. split; [|split; [|split]].
  - replace ((a0 ++ cs ++ a1 ++ pt :: pl :: a2 ++ mt :: ms ++ a3) ++ rest) with ((a0 ++ cs ++ a1 ++ pt :: pl :: a2) ++ mt :: ms ++ (a3 ++ rest)) by assoc.
    apply materials_ok; [|exact Pm3|exact Hm]. rewrite !Forall_app, !Forall_cons_iff. repeat split; auto. apply (plain_parts pl Ppl).
  - replace ((a0 ++ cs ++ a1 ++ pt :: pl :: a2 ++ mt :: ms ++ a3) ++ rest) with ((a0 ++ cs ++ a1) ++ pt :: pl :: ((a2 ++ mt :: ms ++ a3) ++ rest)) by assoc.
    apply particles_ok; [rewrite !Forall_app; auto|apply has_iff; exact (title_has _ _ Hpt)|exact Hpl].
  - rewrite !Forall_app, !Forall_cons_iff, !Forall_app, Forall_cons_iff, Forall_app. repeat split; auto. apply (plain_parts pl Ppl).
  - rewrite !Forall_app, !Forall_cons_iff, !Forall_app, Forall_cons_iff, Forall_app. repeat split; auto. apply (plain_parts pl Ppl).
Qed.
Lemma tetra_ok c : HeadCounts c (if k_second c then 0%Z else elements_counted c) (if k_second c then elements_counted c else 0%Z) -> k_elements c <> [] ->
  tetra (if k_second c then 0%Z else elements_counted c) (if k_second c then elements_counted c else 0%Z) = Ok (k_second c, elements_counted c).
Proof.
  intros _ Hne. assert (P : (0 < elements_counted c)%Z) by (unfold elements_counted; destruct (k_elements c); [congruence|cbn [length]; lia]).
  unfold tetra. destruct (k_second c); replace (0 <? elements_counted c)%Z with true by (symmetry; apply Z.ltb_lt; exact P); reflexivity.
Qed.
(* what comes before the elements *)
Lemma head_read c a h rest : BeginText c a -> MeshHead c h -> length (k_y c) = length (k_x c) -> length (k_z c) = length (k_x c) ->
  exists i, read_nodes 0 no_nodes (a ++ h ++ rest) = Ok (combine (combine (k_x c) (k_y c)) (k_z c), i)
  /\ forall tc r, rest = tc :: r -> mentions "CONNECTIVITY DATA" tc -> read_material i false [] (skipn i (a ++ h ++ rest)) = Ok (k_ids c, length (a ++ h)).
Proof.
  intros Hb (tx & xs & rx & ty & ys & ry & tz & zs & rz & te & es & tm & ms & rm & Eh & Htx & Hxs & Hrx & Hty & Hys & Hry & Htz & Hzs & Hrz & Hte & Hes & Htm & Hms & Hrm) Ly Lz.
  destruct (begin_parts c a Hb rest) as (_ & _ & _ & _ & PN & PE).
  set (pre := a ++ tx :: xs ++ rx :: ty :: ys ++ ry :: tz :: zs ++ [rz]).
  assert (L1 : a ++ h ++ rest = pre ++ te :: es ++ tm :: ms ++ rm :: rest) by (unfold pre; rewrite Eh; assoc).
  exists (length pre). split; [rewrite L1; unfold pre; eapply nodes_ok; eassumption|]. intros tc r -> Htc.
  replace (skipn (length pre) (a ++ h ++ tc :: r)) with (te :: es ++ tm :: ms ++ rm :: tc :: r) by (rewrite L1, skipn_app, skipn_all, Nat.sub_diag; reflexivity).
  rewrite (material_ok te es tm ms rm tc _ _ _ Hte Hes Htm Hms Hrm Htc). f_equal. f_equal.
  replace (a ++ h) with (pre ++ te :: es ++ tm :: ms ++ [rm]) by (unfold pre; rewrite Eh; assoc). rewrite app_length. reflexivity.
Qed.
Lemma file_read c lines : FileText c lines -> Consistent c -> exists fs, Forall2 Arrays (k_edits c) fs /\ read_eeout lines = Ok
  (mkEeout (k_counts c) (Z.of_nat (length (k_x c))) (Z.of_nat (length (k_elements c))) (k_second c) (k_particles c) (combine (combine (k_x c) (k_y c)) (k_z c))
           (map (map (fun z => (z - 1)%Z)) (k_elements c)) (map (material_of c) (k_ids c)) (k_density c) (k_volume c) (concat fs)).
Proof.
  intros (a & b & d & -> & Hb & Hm & Hr) (HC & C2 & Ly & Lz & Hne & He & Hi & Li & Ld & Lv & Hn & Ht).
  destruct (begin_parts c a Hb (b ++ d)) as (R1 & Nd & R2 & R3 & PN & PE).
  destruct Hm as (h & tc & cs & rc & Eb & Hh & Htc & Hs & Hcs & Hrc).
  destruct Hr as (tn & a4 & eds & cx & b4 & dd & ds & e4 & v4 & vs & e2 & Ed & Htn & Hs2 & Qn & Qa & Feds & Hcx & Hb4 & Hdd & Hds & He4 & Hv4 & Hvs & He2).
  assert (Lc : length (combine (combine (k_x c) (k_y c)) (k_z c)) = length (k_x c)) by (rewrite !combine_length; lia).
  unfold Sized in Li, Ld, Lv, Ht. rewrite <- Lc in Li, Ld, Lv, Ht.
  destruct (arrays_ok (length (combine (combine (k_x c) (k_y c)) (k_z c))) (length (k_elements c)) (k_edits c) Ht) as (fs & Efs & Ffs). exists fs. split; [exact Ffs|].
  pose proof (tetra_ok c HC Hne) as T. destruct HC as (C1 & C3 & C4 & C5).
  unfold read_eeout. rewrite R1. cbn [bind]. rewrite (counted_get _ _ _ Nd C1). cbn [bind]. rewrite R2. cbn [bind].
  rewrite (counted_get _ _ _ Nd C4). cbn [bind]. rewrite (counted_get _ _ _ Nd C5). cbn [bind]. rewrite (counted_get _ _ _ Nd C3). cbn [bind]. rewrite T. cbn [bind].
  rewrite R3. cbn [bind]. rewrite (counted_get _ _ _ Nd C2). cbn [bind]. rewrite Z.eqb_refl. cbn [negb fst snd].
  assert (L1 : a ++ b ++ d = a ++ h ++ (tc :: cs ++ rc :: d)) by (rewrite Eb; assoc).
  destruct (head_read c a h (tc :: cs ++ rc :: d) Hb Hh Ly Lz) as (i & En & Em). specialize (Em tc _ eq_refl Htc). rewrite <- L1 in En, Em. rewrite En. cbn [bind fst snd]. rewrite Em. cbn [bind fst snd].
  set (pre2 := a ++ h).
  assert (L2 : a ++ b ++ d = pre2 ++ tc :: cs ++ rc :: d) by (rewrite L1; unfold pre2; assoc).
  replace (skipn (length pre2) (a ++ b ++ d)) with (tc :: cs ++ rc :: d) by (rewrite L2, skipn_app, skipn_all, Nat.sub_diag; reflexivity).
  rewrite Ed at 1. rewrite (conn_ok (k_second c) tc cs rc tn _ (k_elements c) Htc Hs Hcs Hrc Htn Hs2 He). cbn [bind fst snd].
  set (pre3 := pre2 ++ tc :: cs ++ [rc]).
  assert (L3 : a ++ b ++ d = pre3 ++ d). { rewrite L2. unfold pre3. assoc. }
  replace (length pre2 + S (length cs + 1)) with (length pre3) by (unfold pre3; rewrite app_length; cbn [length]; rewrite app_length; reflexivity).
  replace (skipn (length pre3) (a ++ b ++ d)) with d by (rewrite L3, skipn_app, skipn_all, Nat.sub_diag; reflexivity).
  rewrite Ed at 1. rewrite (edits_ok tn a4 eds cx _ _ _ Qn Qa Feds Hn Hcx). cbn [bind fst snd].
  set (pre4 := pre3 ++ tn :: a4 ++ concat eds).
  replace (length pre3 + length (tn :: a4 ++ concat eds)) with (length pre4) by (unfold pre4; rewrite app_length; reflexivity).
  replace (skipn (length pre4) (a ++ b ++ d)) with (cx :: b4 ++ dd :: ds ++ e4 ++ v4 :: vs ++ e2).
  2:{ rewrite L3, Ed. unfold pre4. replace (pre3 ++ tn :: a4 ++ concat eds ++ cx :: b4 ++ dd :: ds ++ e4 ++ v4 :: vs ++ e2) with ((pre3 ++ tn :: a4 ++ concat eds) ++ cx :: b4 ++ dd :: ds ++ e4 ++ v4 :: vs ++ e2) by assoc.
      rewrite skipn_app, skipn_all, Nat.sub_diag. reflexivity. }
  rewrite (rho_vol_ok cx b4 dd ds e4 v4 vs e2 _ _ Hcx Hb4 Hdd Hds He4 Hv4 Hvs He2). cbn [bind fst snd].
  rewrite map_length. unfold elements_counted. rewrite Z.eqb_refl. cbn [negb]. replace (length (k_ids c) =? 0) with false. 2:{ symmetry. apply Nat.eqb_neq. destruct (k_ids c); [congruence|cbn [length]; lia]. }
  rewrite (fits_cells _ _ (k_ids c) Li), (fits_cells _ _ (k_density c) Ld), (fits_cells _ _ (k_volume c) Lv). cbn [bind].
  rewrite Efs. cbn [bind]. reflexivity.
Qed.

(** ** refusals *)
Lemma mixed_refused c a rest t1 t2 : BeginText c a -> HeadCounts c t1 t2 -> ~ ((0 < t1)%Z /\ t2 = 0%Z \/ (0 < t2)%Z /\ t1 = 0%Z) -> read_eeout (a ++ rest) = Err NotImplementedError.
Proof.
  intros Hb (C1 & C3 & C4 & C5) H. destruct (begin_parts c a Hb rest) as (R1 & Nd & R2 & _). unfold read_eeout. rewrite R1. cbn [bind]. rewrite (counted_get _ _ _ Nd C1). cbn [bind]. rewrite R2. cbn [bind].
  rewrite (counted_get _ _ _ Nd C4). cbn [bind]. rewrite (counted_get _ _ _ Nd C5). cbn [bind]. rewrite (counted_get _ _ _ Nd C3). cbn [bind]. replace (tetra t1 t2) with (@Err (bool * Z) NotImplementedError); [reflexivity|].
  unfold tetra. destruct (Z.ltb_spec 0 t1), (Z.eqb_spec t2 0), (Z.ltb_spec 0 t2), (Z.eqb_spec t1 0); cbn [andb]; try reflexivity; exfalso; apply H; auto.
Qed.
Lemma particles_refused c a rest t1 t2 n : BeginText c a -> HeadCounts c t1 t2 -> (0 < t1)%Z /\ t2 = 0%Z \/ (0 < t2)%Z /\ t1 = 0%Z ->
  counted (k_counts c) "NUMBER OF PARTICLES" n -> n <> Z.of_nat (length (k_particles c)) -> read_eeout (a ++ rest) = Err OtherError.
Proof.
  intros Hb (C1 & C3 & C4 & C5) H C2 Hn. destruct (begin_parts c a Hb rest) as (R1 & Nd & R2 & R3 & _). unfold read_eeout. rewrite R1. cbn [bind]. rewrite (counted_get _ _ _ Nd C1). cbn [bind]. rewrite R2. cbn [bind].
  rewrite (counted_get _ _ _ Nd C4). cbn [bind]. rewrite (counted_get _ _ _ Nd C5). cbn [bind]. rewrite (counted_get _ _ _ Nd C3). cbn [bind].
  assert (T : exists x, tetra t1 t2 = Ok x). { unfold tetra. destruct H as [[P ->]|[P ->]]; rewrite (proj2 (Z.ltb_lt _ _) P); eexists; reflexivity. }
  destruct T as [x ->]. cbn [bind]. rewrite R3. cbn [bind]. rewrite (counted_get _ _ _ Nd C2). cbn [bind]. replace (_ =? n)%Z with false by (symmetry; apply Z.eqb_neq; congruence). reflexivity.
Qed.
Lemma node_ordered_refused c a h tc rest t1 t2 : BeginText c a -> MeshHead c h -> HeadCounts c t1 t2 -> (0 < t1)%Z /\ t2 = 0%Z \/ (0 < t2)%Z /\ t1 = 0%Z ->
  counted (k_counts c) "NUMBER OF PARTICLES" (Z.of_nat (length (k_particles c))) -> length (k_y c) = length (k_x c) -> length (k_z c) = length (k_x c) ->
  mentions "CONNECTIVITY DATA" tc -> mentions "NODE ORDERED" tc -> read_eeout (a ++ h ++ tc :: rest) = Err NotImplementedError.
Proof.
  intros Hb Hh (C1 & C3 & C4 & C5) H C2 Ly Lz Htc Hno. destruct (begin_parts c a Hb (h ++ tc :: rest)) as (R1 & Nd & R2 & R3 & _). unfold read_eeout. rewrite R1. cbn [bind]. rewrite (counted_get _ _ _ Nd C1). cbn [bind]. rewrite R2. cbn [bind].
  rewrite (counted_get _ _ _ Nd C4). cbn [bind]. rewrite (counted_get _ _ _ Nd C5). cbn [bind]. rewrite (counted_get _ _ _ Nd C3). cbn [bind].
  assert (T : exists x, tetra t1 t2 = Ok x). { unfold tetra. destruct H as [[P ->]|[P ->]]; rewrite (proj2 (Z.ltb_lt _ _) P); eexists; reflexivity. }
  destruct T as [x ->]. cbn [bind]. rewrite R3. cbn [bind]. rewrite (counted_get _ _ _ Nd C2). cbn [bind]. rewrite Z.eqb_refl. cbn [negb].
  destruct (head_read c a h (tc :: rest) Hb Hh Ly Lz) as (i & En & Em). specialize (Em tc _ eq_refl Htc). rewrite En. cbn [bind fst snd]. rewrite Em. cbn [bind fst snd].
  replace (skipn (length (a ++ h)) (a ++ h ++ tc :: rest)) with (tc :: rest) by (rewrite app_assoc, skipn_app, skipn_all, Nat.sub_diag; reflexivity).
  unfold read_connectivity. cbn [conn_lines]. rewrite (proj2 (has_iff _ _) Htc), (proj2 (has_iff _ _) Hno). reflexivity.
Qed.

(** ** what every file that is read satisfies *)
Lemma info_tag ls : forall b d x, read_info b d ls = Ok x -> exists l, In l ls /\ mentions "NUMBER OF EDITS" l.
Proof.
  induction ls as [|l ls IH]; intros b d x H; [discriminate H|]. cbn [read_info] in H. destruct (if b || _ then _ else _) as [d'|]; [|discriminate H]. cbn [bind] in H.
  destruct (has "NUMBER OF EDITS" l) eqn:E; [exists l; split; [left; reflexivity|apply has_iff; exact E]|]. destruct (IH _ _ _ H) as (y & Hy & My). exists y. split; [right; exact Hy|exact My].
Qed.
Lemma list_tag ls : forall x, particle_list ls = Ok x -> exists l, In l ls /\ mentions "PARTICLE LIST" l.
Proof.
  induction ls as [|l ls IH]; intros x H; [discriminate H|]. cbn [particle_list] in H. destruct (has "PARTICLE LIST" l) eqn:E; [exists l; split; [left; reflexivity|apply has_iff; exact E]|].
  destruct (IH _ H) as (y & Hy & My). exists y. split; [right; exact Hy|exact My].
Qed.
Lemma nodes_tag ls : forall i s x, read_nodes i s ls = Ok x -> exists l, In l ls /\ ElementType l.
Proof.
  induction ls as [|l ls IH]; intros i s x H; [discriminate H|]. cbn [read_nodes] in H. destruct (node_line s l) as [s'|]; [|discriminate H]. cbn [bind] in H.
  destruct (elem_type l) eqn:E; [exists l; split; [left; reflexivity|apply elem_type_iff; exact E]|]. destruct (IH _ _ _ H) as (y & Hy & My). exists y. split; [right; exact Hy|exact My].
Qed.
Lemma material_tag ls : forall i b m x, read_material i b m ls = Ok x -> exists l, In l ls /\ mentions "CONNECTIVITY DATA" l.
Proof.
  induction ls as [|l ls IH]; intros i b m x H; [discriminate H|]. cbn [read_material] in H.
  destruct (has "CONNECTIVITY DATA" l) eqn:E; [exists l; split; [left; reflexivity|apply has_iff; exact E]|]. destruct (if b then _ else _) as [m'|]; [|discriminate H]. cbn [bind] in H.
  destruct (IH _ _ _ _ H) as (y & Hy & My). exists y. split; [right; exact Hy|exact My].
Qed.
Lemma edits_tag ls : forall i s x, read_edits i s ls = Ok x -> exists l, In l ls /\ mentions "CENTROIDS X" l.
Proof.
  induction ls as [|l ls IH]; intros i s x H; [discriminate H|]. cbn [read_edits] in H. destruct (edit_line s l) as [s'|]; [|discriminate H]. cbn [bind] in H.
  destruct (has "CENTROIDS X" l) eqn:E; [exists l; split; [left; reflexivity|apply has_iff; exact E]|]. destruct (IH _ _ _ H) as (y & Hy & My). exists y. split; [right; exact Hy|exact My].
Qed.
Lemma in_skipn {A} n (l : list A) x : In x (skipn n l) -> In x l.
Proof. intros H. rewrite <- (firstn_skipn n l). apply in_or_app; right; exact H. Qed.
Lemma fits_inv {A} p n (l : list A) u : fits p n l = Ok u -> length l = p \/ length l = n.
Proof. unfold fits. destruct (Nat.eqb_spec (length l) p), (Nat.eqb_spec (length l) n); cbn [orb]; intros H; try discriminate H; auto. Qed.
Lemma arrays_inv p n fs : forall x, mapM (edit_arrays p n) fs = Ok x -> Forall (fun a => length (snd a) = p \/ length (snd a) = n) (concat x).
Proof.
  induction fs as [|[k f] fs IH]; intros x H; cbn [mapM] in H; [injection H as <-; constructor|]. unfold edit_arrays in H at 1. cbn [fst snd] in H.
  destruct (f_values f) as [v|]; [|discriminate H]. cbn [of_opt bind] in H. destruct (fits p n v) eqn:E1; [|discriminate H]. cbn [bind] in H. destruct (f_errors f) as [e|]; [|discriminate H]. cbn [of_opt bind] in H.
  destruct (fits p n e) eqn:E2; [|discriminate H]. cbn [bind] in H. destruct (mapM (edit_arrays p n) fs) as [y|]; [|discriminate H]. cbn [bind] in H. injection H as <-. cbn [concat app].
  constructor; [exact (fits_inv _ _ _ _ E1)|]. constructor; [exact (fits_inv _ _ _ _ E2)|]. apply IH. reflexivity.
Qed.
Lemma packs_each (n : nat) (l : list Z) : 0 < n -> length l mod n = 0 -> Forall (fun e => length e = n) (packs n l).
Proof.
  intros Hn. unfold packs. assert (G : forall fuel (l : list Z), length l <= fuel -> length l mod n = 0 -> Forall (fun e => length e = n) (packs_aux fuel n l)).
  { clear l. induction fuel as [|fuel IH]; intros l Hl Hm; [destruct l; [constructor|cbn [length] in Hl; lia]|]. destruct l as [|z l]; [constructor|]. cbn [packs_aux].
    assert (Ln : n <= length (z :: l)). { destruct (Nat.le_gt_cases n (length (z :: l))) as [L|L]; [exact L|]. rewrite Nat.mod_small in Hm by exact L. discriminate Hm. }
    constructor; [rewrite firstn_length; lia|]. apply IH; [rewrite skipn_length; cbn [length] in *; lia|]. rewrite skipn_length.
    replace (length (z :: l)) with ((length (z :: l) - n) + 1 * n) in Hm by lia. rewrite Nat.mod_add in Hm by lia. exact Hm. }
  apply G. reflexivity.
Qed.
Lemma read_inv lines g : read_eeout lines = Ok g ->
  (exists l, In l lines /\ mentions "NUMBER OF EDITS" l) /\ (exists l, In l lines /\ mentions "PARTICLE LIST" l) /\ (exists l, In l lines /\ ElementType l)
  /\ (exists l, In l lines /\ mentions "CONNECTIVITY DATA" l) /\ (exists l, In l lines /\ mentions "CENTROIDS X" l)
  /\ g_elems g = Z.of_nat (length (g_cells g)) /\ (0 < g_elems g)%Z /\ Forall (fun e => length e = if g_second g then 10 else 4) (g_cells g)
  /\ dget str_eqb (s2l "NUMBER OF PARTICLES") (g_info g) = Some (Z.of_nat (length (g_particles g)))
  /\ dget str_eqb (s2l (if g_second g then "NUMBER OF 2nd TETS" else "NUMBER OF 1st TETS")) (g_info g) = Some (g_elems g)
  /\ dget str_eqb (s2l (if g_second g then "NUMBER OF 1st TETS" else "NUMBER OF 2nd TETS")) (g_info g) = Some 0%Z
  /\ (forall n, n = length (g_material g) \/ n = length (g_density g) \/ n = length (g_volume g) \/ (exists a, In a (g_fields g) /\ n = length (snd a)) ->
      n = length (g_points g) \/ n = length (g_cells g)).
Proof.
  unfold read_eeout. destruct (read_info false [] lines) as [info|] eqn:E1; [|discriminate]. cbn [bind]. destruct (count "NUMBER OF MATERIALS" info) as [nm|]; [|discriminate]. cbn [bind].
  destruct (materials nm lines) as [mats|]; [|discriminate]. cbn [bind]. destruct (count "NUMBER OF 1st TETS" info) as [t1|] eqn:T1; [|discriminate]. cbn [bind]. destruct (count "NUMBER OF 2nd TETS" info) as [t2|] eqn:T2; [|discriminate]. cbn [bind].
  destruct (count "NUMBER OF NODES" info) as [nn|]; [|discriminate]. cbn [bind]. destruct (tetra t1 t2) as [[sec ne]|] eqn:T; [|discriminate]. cbn [bind]. destruct (particle_list lines) as [ps|] eqn:E2; [|discriminate]. cbn [bind].
  destruct (count "NUMBER OF PARTICLES" info) as [np|] eqn:E3; [|discriminate]. cbn [bind]. destruct (Z.eqb_spec (Z.of_nat (length ps)) np) as [Enp|]; [|discriminate]. cbn [negb].
  destruct (read_nodes 0 no_nodes lines) as [[pts i]|] eqn:E4; [|discriminate]. cbn [bind fst snd]. destruct (read_material i false [] (skipn i lines)) as [[ids j]|] eqn:E5; [|discriminate]. cbn [bind fst snd].
  destruct (read_connectivity sec (skipn j lines)) as [[cells k]|] eqn:E6; [|discriminate]. cbn [bind fst snd]. destruct (read_edits (j + k) no_edits (skipn (j + k) lines)) as [[ed q]|] eqn:E7; [|discriminate]. cbn [bind fst snd].
  destruct (read_rho_vol false false [] [] (skipn q lines)) as [[rho vol]|]; [|discriminate]. cbn [bind fst snd]. destruct (Z.eqb_spec (Z.of_nat (length cells)) ne) as [Ene|]; [|discriminate]. cbn [negb].
  destruct (length ids =? 0); [discriminate|]. destruct (fits (length pts) (length cells) ids) eqn:F1; [|discriminate]. cbn [bind]. destruct (fits (length pts) (length cells) rho) eqn:F2; [|discriminate]. cbn [bind].
  destruct (fits (length pts) (length cells) vol) eqn:F3; [|discriminate]. cbn [bind]. destruct (mapM (edit_arrays (length pts) (length cells)) ed) as [fs|] eqn:E8; [|discriminate]. cbn [bind].
  intros H. injection H as <-. cbn [g_info g_nodes g_elems g_second g_particles g_points g_cells g_material g_density g_volume g_fields].
  assert (TT : (0 < ne)%Z /\ (if sec then t2 = ne /\ t1 = 0%Z else t1 = ne /\ t2 = 0%Z)).
  { revert T. unfold tetra. destruct (Z.ltb_spec 0 t1), (Z.eqb_spec t2 0), (Z.ltb_spec 0 t2), (Z.eqb_spec t1 0); cbn [andb]; intros X; try discriminate X; injection X as <- <-; auto; try lia. }
  destruct TT as [Pos TT].
  assert (CG : forall n z, count n info = Ok z -> dget str_eqb (s2l n) info = Some z) by (intros n z; unfold count; destruct (dget str_eqb (s2l n) info); cbn; congruence).
  split; [exact (info_tag _ _ _ _ E1)|]. split; [exact (list_tag _ _ E2)|]. split; [exact (nodes_tag _ _ _ _ E4)|].
  split. { destruct (material_tag _ _ _ _ _ E5) as (l & Hl & Ml). exists l. split; [exact (in_skipn _ _ _ Hl)|exact Ml]. }
  split. { destruct (edits_tag _ _ _ _ E7) as (l & Hl & Ml). exists l. split; [exact (in_skipn _ _ _ Hl)|exact Ml]. }
  split; [symmetry; exact Ene|]. split; [exact Pos|]. split.
  { revert E6. unfold read_connectivity. destruct (conn_lines false (skipn j lines)) as [[c1 k1]|]; [|discriminate]. cbn [bind fst snd]. destruct (drop_last c1) as [c2|]; [|discriminate]. cbn [bind]. destruct (drop_last c2) as [c3|]; [|discriminate]. cbn [bind].
    destruct (mapM conn_line c3) as [c4|]; [|discriminate]. cbn [bind]. unfold reshape. destruct (Nat.eqb_spec (length (concat c4) mod (if sec then 10 else 4)) 0) as [Em|]; [|discriminate]. cbn [bind]. intros X. injection X as <- _.
    apply packs_each; [destruct sec; lia|exact Em]. }
  split; [rewrite (CG _ _ E3); congruence|].
  split; [destruct sec; destruct TT as [<- _]; apply CG; assumption|]. split; [destruct sec; destruct TT as [_ <-]; apply CG; assumption|].
  intros n [->|[->|[->|(a & Ha & ->)]]].
  - rewrite map_length. exact (fits_inv _ _ _ _ F1).
  - exact (fits_inv _ _ _ _ F2).
  - exact (fits_inv _ _ _ _ F3).
  - pose proof (arrays_inv _ _ _ _ E8) as X. rewrite Forall_forall in X. exact (X a Ha).
Qed.
