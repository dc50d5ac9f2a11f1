(** Proofs about the parts of .eeout files: counts, materials, particles, nodes, elements. *)
From Coq Require Import Lia ZArith.
From Verif Require Import PyBase PyLemmas PyStr PyText D1SModel D1SProofs2 DataModel MeshModel MeshSpec MeshProofs MctalProofs EliteProofs3 OutModel OutSpec OutProofs OutProofs2 OutProofs4 FispModel FispProofs EeoutModel EeoutSpec EeoutProofs.
Open Scope nat_scope.

Lemma foldM_app {A B} (f : A -> B -> res A) l1 : forall a l2, foldM f a (l1 ++ l2) = do a' <- foldM f a l1; foldM f a' l2.
Proof. induction l1 as [|x l1 IH]; intros a l2; [reflexivity|]. cbn [app foldM]. destruct (f a x); [cbn [bind]; apply IH|reflexivity]. Qed.

(** ** nodes *)
Lemma elem_type_iff l : elem_type l = true <-> ElementType l.
Proof.
  unfold elem_type, ElementType. destruct (strip_prefix (s2l " ELEMENT TYPE") l) as [r|] eqn:E; split; intros H; try reflexivity; try discriminate H.
  - exists r. apply strip_prefix_some. exact E.
  - destruct H as [r H]. apply strip_prefix_some in H. rewrite H in E. discriminate E.
Qed.
Lemma elem_type_not l : ~ ElementType l -> elem_type l = false.
Proof. intros H. destruct (elem_type l) eqn:E; [|reflexivity]. apply elem_type_iff in E. contradiction. Qed.
Lemma read_nodes_app a : forall i s b, Forall (fun l => elem_type l = false) a ->
  read_nodes i s (a ++ b) = do s' <- foldM node_line s a; read_nodes (i + length a) s' b.
Proof.
  induction a as [|l a IH]; intros i s b H; cbn [app foldM length].
  - cbn [bind]. rewrite Nat.add_0_r. reflexivity.
  - pose proof (Forall_inv H) as Hl. cbn beta in Hl. cbn [read_nodes]. destruct (node_line s l); [|reflexivity]. cbn [bind]. rewrite Hl. rewrite IH by exact (Forall_inv_tail H).
    replace (i + S (length a)) with (S i + length a) by lia. reflexivity.
Qed.
Lemma node_plain l x y z : says_none ["NODES X"; "NODES Y"; "NODES Z"]%string l -> node_line (mkNodes false false false x y z) l = Ok (mkNodes false false false x y z).
Proof.
  intros H. unfold says_none in H. repeat rewrite Forall_cons_iff in H. destruct H as (H1 & H2 & H3 & _).
  unfold node_line. cbn [n_rx n_ry n_rz n_x n_y n_z add_if bind orb]. rewrite (has_not _ _ H1), (has_not _ _ H2), (has_not _ _ H3). reflexivity.
Qed.
Lemma nodes_plain a x y z : Forall (says_none ["NODES X"; "NODES Y"; "NODES Z"]%string) a -> foldM node_line (mkNodes false false false x y z) a = Ok (mkNodes false false false x y z).
Proof. induction 1 as [|l a H _ IH]; [reflexivity|]. cbn [foldM]. rewrite node_plain by exact H. cbn [bind]. exact IH. Qed.
Definition silent (l : str) : Prop := has "NODES X" l = false /\ has "NODES Y" l = false /\ has "NODES Z" l = false /\ elem_type l = false.
Definition put (b : bool) (qs xs : list Q) : list Q := if b then xs ++ qs else xs.
Lemma node_step s l qs : silent l -> sci_numbers l = Ok qs ->
  node_line s l = Ok (mkNodes (n_rx s) (n_ry s) (n_rz s) (put (n_rx s) qs (n_x s)) (put (n_ry s) qs (n_y s)) (put (n_rz s) qs (n_z s))).
Proof.
  intros (H1 & H2 & H3 & _) H. unfold node_line, add_if, put. destruct s as [rx ry rz x y z]. cbn [n_rx n_ry n_rz n_x n_y n_z]. rewrite H1, H2, H3, H.
  destruct rx, ry, rz; reflexivity.
Qed.
Lemma num_elem l : (forall c, In c l -> num_char c = true) -> elem_type l = false.
Proof.
  intros H. apply elem_type_not. intros [r ->]. specialize (H "L"%char). assert (X : In "L"%char (s2l " ELEMENT TYPE" ++ r)) by (apply in_or_app; left; right; right; left; reflexivity).
  apply H in X. discriminate X.
Qed.
Lemma num_silent l : (forall c, In c l -> num_char c = true) -> silent l.
Proof. intros H. repeat split; try (apply numeric_has; [reflexivity|exact H]). apply num_elem. exact H. Qed.
Lemma nodes_numbers qss ls : Forall2 Numbers qss ls -> forall rx ry rz x y z, foldM node_line (mkNodes rx ry rz x y z) ls =
  Ok (mkNodes rx ry rz (put rx (concat qss) x) (put ry (concat qss) y) (put rz (concat qss) z)).
Proof.
  induction 1 as [|qs l qss ls H _ IH]; intros rx ry rz x y z.
  - cbn [foldM concat]. unfold put. destruct rx, ry, rz; rewrite ?app_nil_r; reflexivity.
  - cbn [foldM]. rewrite (node_step _ l qs (num_silent l (fun c => numbers_chars qs l c H)) (sci_numbers_ok qs l H)). cbn [bind n_rx n_ry n_rz n_x n_y n_z]. rewrite IH. cbn [concat].
    unfold put. destruct rx, ry, rz; rewrite <- ?app_assoc; reflexivity.
Qed.
Lemma nodes_record l rx ry rz x y z : RecordLine l -> node_line (mkNodes rx ry rz x y z) l = Ok (mkNodes rx ry rz x y z).
Proof.
  intros H. rewrite (node_step _ l [] (num_silent l (fun c => record_chars l c H)) (record_sci l H)). cbn [n_rx n_ry n_rz n_x n_y n_z]. unfold put. rewrite !app_nil_r. destruct rx, ry, rz; reflexivity.
Qed.
Ltac no_sign := let X := fresh in intros X; repeat (destruct X as [X|X]; [discriminate X|]); destruct X.
Lemma title_elem t l : (exists a b r, s2l t = a :: b :: r /\ (a, b) <> ("E"%char, "L"%char)) -> Title t l -> elem_type l = false.
Proof.
  intros (a & b & q & E & N) (r & -> & _). apply elem_type_not. intros [u X]. rewrite E in X. injection X as X1 X2. apply N. congruence.
Qed.
Lemma node_title (k : nat) l s : Title (nth k ["NODES X"; "NODES Y"; "NODES Z"]%string "NODES Z"%string) l -> k < 3 ->
  node_line s l = Ok (mkNodes (match k with 0 => true | 1 => false | _ => n_rx s end) (match k with 0 => n_ry s | 1 => true | _ => false end) (match k with 2 => true | _ => n_rz s end) (n_x s) (n_y s) (n_z s))
  /\ elem_type l = false.
Proof.
  intros H Hk. assert (S : sci_numbers l = Ok []). { destruct k as [|[|[|]]]; [| | |lia]; apply (title_sci _ l) in H; try exact H; no_sign. }
  split. 2:{ destruct k as [|[|[|]]]; [| | |lia]; (eapply title_elem; [|exact H]; eexists; eexists; eexists; split; [reflexivity|discriminate]). }
  unfold node_line, add_if. rewrite S. replace (if n_rx s then do q <- Ok []; Ok (n_x s ++ q) else Ok (n_x s)) with (Ok (n_x s)) by (destruct (n_rx s); cbn [bind]; rewrite ?app_nil_r; reflexivity).
  replace (if n_ry s then do q <- Ok []; Ok (n_y s ++ q) else Ok (n_y s)) with (Ok (n_y s)) by (destruct (n_ry s); cbn [bind]; rewrite ?app_nil_r; reflexivity).
  replace (if n_rz s then do q <- Ok []; Ok (n_z s ++ q) else Ok (n_z s)) with (Ok (n_z s)) by (destruct (n_rz s); cbn [bind]; rewrite ?app_nil_r; reflexivity).
  cbn [bind]. destruct k as [|[|[|]]]; [| | |lia]; cbn [nth] in H.
  - rewrite ?(title_has _ _ H), ?(title_hasnt _ "NODES Y" _ H eq_refl), ?(title_hasnt _ "NODES Z" _ H eq_refl). rewrite ?Bool.orb_true_r, ?Bool.orb_false_r. reflexivity.
  - rewrite ?(title_has _ _ H), ?(title_hasnt _ "NODES X" _ H eq_refl), ?(title_hasnt _ "NODES Z" _ H eq_refl). rewrite ?Bool.orb_true_r, ?Bool.orb_false_r. reflexivity.
  - rewrite ?(title_has _ _ H), ?(title_hasnt _ "NODES X" _ H eq_refl), ?(title_hasnt _ "NODES Y" _ H eq_refl). rewrite ?Bool.orb_true_r, ?Bool.orb_false_r. reflexivity.
Qed.
Lemma numbers_no_elem qss ls : Forall2 Numbers qss ls -> Forall (fun l => elem_type l = false) ls.
Proof. induction 1 as [|qs l qss ls H _ IH]; constructor; [apply num_elem; intros c; apply (numbers_chars qs l c H)|exact IH]. Qed.
Lemma record_elem l : RecordLine l -> elem_type l = false. Proof. intros H. apply num_elem. intros c. apply record_chars. exact H. Qed.
Lemma columns3_ok x : forall y z, length y = length x -> length z = length x -> columns3 x y z = Ok (combine (combine x y) z).
Proof. induction x as [|a x IH]; intros [|b y] [|c z] Hy Hz; try discriminate; [reflexivity|]. cbn [columns3 combine]. rewrite IH by (cbn [length] in *; lia). reflexivity. Qed.
Lemma nodes_ok a tx xs rx ty ys ry tz zs rz te rest qx qy qz : 
  Forall (says_none ["NODES X"; "NODES Y"; "NODES Z"]%string) a -> Forall (fun l => ~ ElementType l) a ->
  Title "NODES X" tx -> NumberLines qx xs -> RecordLine rx -> Title "NODES Y" ty -> NumberLines qy ys -> RecordLine ry ->
  Title "NODES Z" tz -> NumberLines qz zs -> RecordLine rz -> Title "ELEMENT TYPE" te -> length qy = length qx -> length qz = length qx ->
  let pre := a ++ tx :: xs ++ rx :: ty :: ys ++ ry :: tz :: zs ++ [rz] in
  read_nodes 0 no_nodes (pre ++ te :: rest) = Ok (combine (combine qx qy) qz, length pre).
Proof.
  intros Ha Ha2 Htx (qsx & -> & Hxs) Hrx Hty (qsy & -> & Hys) Hry Htz (qsz & -> & Hzs) Hrz Hte Ly Lz pre.
  destruct (node_title 0 tx (mkNodes false false false [] [] []) Htx) as [E1 F1]; [lia|].
  destruct (node_title 1 ty (mkNodes true false false ([] ++ concat qsx) [] []) Hty) as [E2 F2]; [lia|].
  destruct (node_title 2 tz (mkNodes false true false ([] ++ concat qsx) ([] ++ concat qsy) []) Htz) as [E3 F3]; [lia|].
  rewrite read_nodes_app.
  2:{ unfold pre. apply Forall_app. split; [revert Ha2; apply Forall_impl; exact elem_type_not|]. constructor; [exact F1|]. apply Forall_app. split; [exact (numbers_no_elem _ _ Hxs)|].
      constructor; [exact (record_elem _ Hrx)|]. constructor; [exact F2|]. apply Forall_app. split; [exact (numbers_no_elem _ _ Hys)|]. constructor; [exact (record_elem _ Hry)|]. constructor; [exact F3|].
      apply Forall_app. split; [exact (numbers_no_elem _ _ Hzs)|]. constructor; [exact (record_elem _ Hrz)|constructor]. }
  assert (R : foldM node_line no_nodes pre = Ok (mkNodes false false true (concat qsx) (concat qsy) (concat qsz))).
  { unfold pre, no_nodes. rewrite foldM_app, nodes_plain by exact Ha. cbn [bind foldM]. rewrite E1. cbn [bind n_rx n_ry n_rz n_x n_y n_z].
    rewrite foldM_app, (nodes_numbers _ _ Hxs). cbn [bind put foldM]. rewrite (nodes_record rx) by exact Hrx. cbn [bind foldM]. rewrite E2. cbn [bind n_rx n_ry n_rz n_x n_y n_z].
    rewrite foldM_app, (nodes_numbers _ _ Hys). cbn [bind put foldM]. rewrite (nodes_record ry) by exact Hry. cbn [bind foldM]. rewrite E3. cbn [bind n_rx n_ry n_rz n_x n_y n_z].
    rewrite foldM_app, (nodes_numbers _ _ Hzs). cbn [bind put foldM]. rewrite (nodes_record rz) by exact Hrz. reflexivity. }
  rewrite R. cbn [bind]. cbn [read_nodes].
  assert (Hte' : node_line (mkNodes false false true (concat qsx) (concat qsy) (concat qsz)) te = Ok (mkNodes false false true (concat qsx) (concat qsy) (concat qsz))).
  { unfold node_line, add_if. cbn [n_rx n_ry n_rz n_x n_y n_z]. rewrite (title_sci "ELEMENT TYPE" te); [|no_sign|no_sign|exact Hte]. cbn [bind]. rewrite app_nil_r.
    rewrite (title_hasnt _ "NODES X" _ Hte eq_refl), (title_hasnt _ "NODES Y" _ Hte eq_refl), (title_hasnt _ "NODES Z" _ Hte eq_refl). reflexivity. }
  rewrite Hte'. cbn [bind]. replace (elem_type te) with true. 2:{ symmetry. apply elem_type_iff. destruct Hte as (r & -> & _). exists r. reflexivity. }
  cbn [n_x n_y n_z]. rewrite columns3_ok by assumption. cbn [bind]. reflexivity.
Qed.

(** ** materials of the elements *)
Lemma ints_ok zs l : Whole zs l -> mapM parse_int (resplit (strip l)) = Ok zs.
Proof.
  intros [H F]. rewrite resplit_words by exact H. apply mapM_F2. clear -F. induction F as [|w z ws zs [Hw ->] _ IH]; constructor; [apply parse_digits; exact Hw|exact IH].
Qed.
Lemma record_ints l : RecordLine l -> exists six, length six = 6 /\ mapM parse_int (resplit (strip l)) = Ok six.
Proof.
  intros (_ & H6 & F). rewrite resplit_words by (intros E; rewrite E in H6; discriminate H6). exists (map (fun w => Z.of_N (num_of w)) (split l)). split; [rewrite map_length; exact H6|].
  apply mapM_F2. clear -F. induction F as [|w ws Hw _ IH]; constructor; [apply parse_digits; exact Hw|exact IH].
Qed.
Lemma material_skip a : forall i ms b, Forall (says_none ["ELEMENT MATERIAL"; "CONNECTIVITY DATA"]%string) a -> read_material i false ms (a ++ b) = read_material (i + length a) false ms b.
Proof.
  induction a as [|l a IH]; intros i ms b H; [cbn [length app]; rewrite Nat.add_0_r; reflexivity|]. pose proof (Forall_inv H) as Hl. unfold says_none in Hl. repeat rewrite Forall_cons_iff in Hl. destruct Hl as (H1 & H2 & _).
  cbn [app read_material]. rewrite (has_not _ _ H1), (has_not _ _ H2). cbn [bind orb]. rewrite IH by exact (Forall_inv_tail H). f_equal. cbn [length]. lia.
Qed.
Lemma material_lines zss ls : Forall2 Whole zss ls -> forall i ms b, read_material i true ms (ls ++ b) = read_material (i + length ls) true (ms ++ concat zss) b.
Proof.
  induction 1 as [|zs l zss ls H _ IH]; intros i ms b; [cbn [length app concat]; rewrite Nat.add_0_r, app_nil_r; reflexivity|].
  cbn [app read_material]. rewrite (numeric_has "CONNECTIVITY DATA") by (reflexivity || (intros c; apply (whole_chars zs l c H))). rewrite (ints_ok zs l H). cbn [bind orb]. rewrite IH. cbn [concat]. rewrite app_assoc. f_equal. cbn [length]. lia.
Qed.
Lemma material_ok te es tm ms rm tc rest i ids : Title "ELEMENT TYPE" te -> Forall (says_none ["ELEMENT MATERIAL"; "CONNECTIVITY DATA"]%string) es ->
  Title "ELEMENT MATERIAL" tm -> WholeLines ids ms -> RecordLine rm -> mentions "CONNECTIVITY DATA" tc ->
  read_material i false [] (te :: es ++ tm :: ms ++ rm :: tc :: rest) = Ok (ids, i + length (te :: es ++ tm :: ms ++ [rm])).
Proof.
  intros Hte Hes Htm (zss & -> & Hms) Hrm Htc. change (te :: es ++ tm :: ms ++ rm :: tc :: rest) with ((te :: es) ++ tm :: ms ++ rm :: tc :: rest).
  rewrite material_skip. 2:{ constructor; [|exact Hes]. repeat constructor; intros X; apply has_iff in X; [rewrite (title_hasnt _ "ELEMENT MATERIAL" _ Hte eq_refl) in X|rewrite (title_hasnt _ "CONNECTIVITY DATA" _ Hte eq_refl) in X]; discriminate X. }
  cbn [read_material]. rewrite (title_hasnt _ "CONNECTIVITY DATA" _ Htm eq_refl), (title_has _ _ Htm). cbn [bind orb].
  rewrite (material_lines _ _ Hms). cbn [read_material app]. rewrite (numeric_has "CONNECTIVITY DATA") by (reflexivity || (intros c; apply (record_chars rm c Hrm))).
  destruct (record_ints rm Hrm) as (six & L6 & ->). cbn [bind orb]. cbn [read_material]. rewrite (proj2 (has_iff _ _) Htc).
  rewrite app_length, L6. replace (length (concat zss) + 6 - 6) with (length (concat zss)) by lia. rewrite firstn_app, Nat.sub_diag, firstn_all. cbn [firstn]. rewrite app_nil_r. f_equal. f_equal.
  cbn [length]. rewrite !app_length. cbn [length]. rewrite !app_length. cbn [length]. lia.
Qed.

(** ** nodes of the elements *)
Lemma conn_run cs : forall r tn rest, Forall (fun l => has "CONNECTIVITY DATA" l = false /\ has "NEAREST NEIGHBOR DATA" l = false) (cs ++ [r]) ->
  has "NEAREST NEIGHBOR DATA" tn = true -> has "CONNECTIVITY DATA" tn = false ->
  conn_lines true ((cs ++ [r]) ++ tn :: rest) = Ok ((cs ++ [r]) ++ [tn], length (cs ++ [r])).
Proof.
  intros r tn rest. remember (cs ++ [r]) as ls eqn:E. clear E cs r. induction ls as [|l ls IH]; intros H Ht Ht2.
  - cbn [app conn_lines]. rewrite Ht, Ht2. reflexivity.
  - pose proof (Forall_inv H) as [H1 H2]. cbn [app conn_lines]. rewrite H1, H2. cbn [andb orb]. rewrite IH by (exact (Forall_inv_tail H) || assumption). cbn [bind fst snd app length]. destruct ls; reflexivity.
Qed.
Lemma drop_snoc {A} (l : list A) x : drop_last (l ++ [x]) = Ok l.
Proof. unfold drop_last. destruct (l ++ [x]) eqn:E; [destruct l; discriminate E|]. rewrite <- E, removelast_last. reflexivity. Qed.
Lemma node_number_ok w : all_digits w -> node_number w = Ok (Z.of_N (num_of w) - 1)%Z.
Proof.
  intros H. unfold node_number. rewrite (first_number w w). 2:{ exists [], []. rewrite app_nil_r. split; [reflexivity|]. split; [constructor|]. split; [exact H|intros c r E; discriminate E]. }
  cbn [of_opt bind]. rewrite (parse_digits w H). reflexivity.
Qed.
Lemma conn_line_ok zs l : Whole zs l -> conn_line l = Ok (map (fun z => (z - 1)%Z) zs).
Proof.
  intros [H F]. unfold conn_line. rewrite resplit_words by exact H. apply mapM_F2. clear -F. induction F as [|w z ws zs [Hw ->] _ IH]; cbn [map]; constructor; [apply node_number_ok; exact Hw|exact IH].
Qed.
Lemma packs_concat (n : nat) (ls : list (list Z)) : 0 < n -> Forall (fun e => length e = n) ls -> packs n (concat ls) = ls.
Proof.
  intros Hn H. unfold packs. assert (G : forall fuel, length (concat ls) <= fuel -> packs_aux fuel n (concat ls) = ls).
  { induction H as [|e ls He H IH]; intros fuel Hf; cbn [concat] in *.
    - destruct fuel; reflexivity.
    - rewrite app_length in Hf. destruct fuel as [|fuel]; [lia|]. destruct e as [|z e]; [cbn [length] in He; lia|]. cbn [packs_aux app].
      change (z :: e ++ concat ls) with ((z :: e) ++ concat ls). rewrite firstn_app, skipn_app. rewrite He, Nat.sub_diag. cbn [firstn skipn]. rewrite <- He, firstn_all, skipn_all. rewrite app_nil_r. cbn [app].
      f_equal. rewrite He. apply IH. cbn [length] in Hf. lia. }
  apply G. reflexivity.
Qed.
Lemma conn_ok (sec : bool) tc cs rc tn rest els : mentions "CONNECTIVITY DATA" tc -> says_none ["NODE ORDERED"; "NEAREST NEIGHBOR DATA"]%string tc ->
  WholeLines (concat els) cs -> RecordLine rc -> mentions "NEAREST NEIGHBOR DATA" tn -> says_none ["CONNECTIVITY DATA"%string] tn ->
  Forall (fun e => length e = if sec then 10 else 4) els ->
  read_connectivity sec (tc :: cs ++ rc :: tn :: rest) = Ok (map (map (fun z => (z - 1)%Z)) els, S (length cs + 1)).
Proof.
  intros Htc Hs (zss & Ez & Hcs) Hrc Htn Hs2 Hl. unfold says_none in Hs, Hs2. repeat rewrite Forall_cons_iff in Hs. destruct Hs as (S1 & S2 & _). pose proof (Forall_inv Hs2) as S3. cbn beta in S3.
  unfold read_connectivity. cbn [conn_lines]. rewrite (proj2 (has_iff _ _) Htc), (has_not _ _ S1), (has_not _ _ S2). cbn [andb orb].
  replace (cs ++ rc :: tn :: rest) with ((cs ++ [rc]) ++ tn :: rest) by (rewrite <- app_assoc; reflexivity).
  rewrite conn_run; [|..|apply has_iff; exact Htn|apply has_not; exact S3].
  2:{ apply Forall_app. split.
      - clear -Hcs. induction Hcs as [|zs l zss cs H _ IH]; constructor; [|exact IH]. split; (apply numeric_has; [reflexivity|intros c; apply (whole_chars zs l c H)]).
      - constructor; [|constructor]. split; (apply numeric_has; [reflexivity|intros c; apply (record_chars rc c Hrc)]). }
  cbn [bind fst snd app]. rewrite drop_snoc. cbn [bind]. rewrite drop_snoc. cbn [bind].
  replace (mapM conn_line cs) with (Ok (map (map (fun z => (z - 1)%Z)) zss)).
  2:{ symmetry. apply mapM_F2. clear -Hcs. induction Hcs as [|zs l zss cs H _ IH]; cbn [map]; constructor; [exact (conn_line_ok zs l H)|exact IH]. }
  cbn [bind]. rewrite <- concat_map, <- Ez, concat_map.
  unfold reshape. set (n := if sec then 10 else 4) in *. assert (Hn : 0 < n) by (unfold n; destruct sec; lia).
  assert (Hm : Forall (fun e : list Z => length e = n) (map (map (fun z => (z - 1)%Z)) els)) by (apply Forall_map; revert Hl; apply Forall_impl; intros e He; rewrite map_length; exact He).
  replace (length (concat (map (map (fun z => (z - 1)%Z)) els))) with (length els * n).
  2:{ clear -Hm. induction els as [|e els IH]; [reflexivity|]. cbn [map concat length Nat.mul]. cbn [map] in Hm. rewrite app_length, (Forall_inv Hm). rewrite <- (IH (Forall_inv_tail Hm)). reflexivity. }
  rewrite Nat.mod_mul by lia. cbn [Nat.eqb]. rewrite packs_concat by assumption. cbn [bind]. do 3 f_equal. rewrite app_length. cbn [length]. destruct (cs ++ [rc]) eqn:E; [destruct cs; discriminate E|]. cbn [app]. lia.
Qed.
