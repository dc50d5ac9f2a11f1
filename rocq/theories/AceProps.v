(** C87-C88: the files of a library and the cross section of a material. *)
From Coq Require Import Lia ZArith Sorted Lqa.
From Verif Require Import PyBase PyLemmas PyStr PyText D1SProofs2 OutSpec OutProofs MatModel MatProofs MatProofs2 LibModel XsModel XsSpec XsProofs XsProofs2 AceModel AceSpec AceProofs.
Open Scope nat_scope.

(** C87.  The file of a zaid in a library is that of the first table with that name, in the folder of the xsdir unless
    its path is absolute; tables that are not of nuclides are left out, and so is what has no suffix. *)
Theorem C87_files_of_the_library : forall folder ts, Forall (fun t => exists z s, Table z s t /\ ~ In dot z /\ ~ In dot s) ts ->
  exists d, ace_files folder ts = Ok d
    /\ forall z s p, ~ In dot z -> ~ In dot s -> (dget key_eqb (z, s) d = Some p <-> all_digits z /\ exists t, FirstTable z s t ts /\ p = join_path folder (x_file t)).
Proof.
  intros folder ts H.
  assert (KE : forall a b, key_eqb a b = true <-> a = b). { intros [a1 a2] [b1 b2]. unfold key_eqb. cbn [fst snd]. rewrite Bool.andb_true_iff, !eqb_iff. split; [intros [-> ->]; reflexivity|intros E; injection E; auto]. }
  assert (DI : forall z, isdigit z = true <-> all_digits z). { intros z. unfold isdigit, all_digits. destruct z as [|c z]; [split; [discriminate|intros [X _]; congruence]|]. rewrite forallb_forall, Forall_forall. split; [intros X; split; [discriminate|exact X]|intros [_ X]; exact X]. }
  set (step := fun (d : list ((str * str) * str)) t => do suffix <- of_opt IndexError (nth_error (split_dot (x_name t)) 1); Ok (if isdigit (table_zaid t) then if dmem key_eqb (table_zaid t, suffix) d then d else dset key_eqb (table_zaid t, suffix) (join_path folder (x_file t)) d else d)).
  assert (G : forall seen d, (forall z s p, ~ In dot z -> ~ In dot s -> (dget key_eqb (z, s) d = Some p <-> all_digits z /\ exists t, FirstTable z s t seen /\ p = join_path folder (x_file t))) ->
    exists d', foldM step d ts = Ok d' /\ forall z s p, ~ In dot z -> ~ In dot s -> (dget key_eqb (z, s) d' = Some p <-> all_digits z /\ exists t, FirstTable z s t (seen ++ ts) /\ p = join_path folder (x_file t))).
  { induction H as [|t ts (z & s & T & Nz & Ns) _ IH]; intros seen d D; cbn [foldM]; [exists d; split; [reflexivity|]; rewrite app_nil_r; exact D|].
    pose proof (zaid_ok t z s T Nz) as Z. assert (Su : nth_error (split_dot (x_name t)) 1 = Some s).
    { unfold Table in T. rewrite T. unfold split_dot. rewrite split_dot_aux_dot by exact Nz. cbn [rev app nth_error]. rewrite split_dot_aux_no by exact Ns. reflexivity. }
    unfold step at 1. rewrite Su, Z. cbn [of_opt bind]. set (d1 := if isdigit z then _ else _). replace (seen ++ t :: ts) with ((seen ++ [t]) ++ ts) by (rewrite <- app_assoc; reflexivity). apply IH. clear IH.
    assert (TN : forall z' s', ~ In dot z' -> ~ In dot s' -> Table z' s' t -> z' = z /\ s' = s).
    { intros z' s' Nz' Ns' T'. unfold Table in T, T'. pose proof (before_dot_app z' s' Nz') as B. rewrite <- T', T, before_dot_app in B by exact Nz. subst z'. rewrite T in T'. apply app_inv_head in T'. injection T' as ->. auto. }
    assert (Snoc : forall z' s' t', FirstTable z' s' t' (seen ++ [t]) <-> FirstTable z' s' t' seen \/ (t' = t /\ Table z' s' t /\ Forall (fun u => ~ Table z' s' u) seen)).
    { intros z' s' t'. split.
      - intros (a & b & E & T' & F). destruct b as [|u b _] using rev_ind; [apply app_inj_tail in E as [-> ->]; auto|]. left. exists a, b. change (a ++ t' :: b ++ [u]) with (a ++ (t' :: b) ++ [u]) in E. rewrite app_assoc in E. apply app_inj_tail in E as [-> _]. auto.
      - intros [(a & b & -> & T' & F)|(-> & T' & F)]; [exists a, (b ++ [t]); split; [rewrite <- app_assoc; reflexivity|auto]|exists seen, []; auto]. }
    assert (Dec : forall z' s', all_digits z' -> ~ In dot z' -> ~ In dot s' -> dget key_eqb (z', s') d = None -> Forall (fun u => ~ Table z' s' u) seen).
    { intros z' s' Dz Nz' Ns' E. assert (W : Forall (fun u => ~ Table z' s' u) seen \/ exists u, FirstTable z' s' u seen).
      { clear. induction seen as [|u seen IH]; [left; constructor|]. destruct (str_dec (x_name u) (z' ++ dot :: s')) as [X|X]; [right; exists u, [], seen; split; [reflexivity|]; split; [exact X|constructor]|].
        destruct IH as [IH|(v & a & b & -> & Tv & F)]; [left; constructor; assumption|right; exists v, (u :: a), b; split; [reflexivity|]; split; [exact Tv|constructor; assumption]]. }
      destruct W as [W|(u & W)]; [exact W|]. exfalso. assert (X : dget key_eqb (z', s') d = Some (join_path folder (x_file u))) by (apply D; auto; split; [exact Dz|]; exists u; auto). congruence. }
    intros z' s' p Nz' Ns'. setoid_rewrite Snoc.
    assert (Old : forall t', FirstTable z' s' t' seen -> Table z' s' t -> Forall (fun u => ~ Table z' s' u) seen -> False).
    { intros t' (a & b & -> & T' & _) _ F. apply Forall_app in F as [_ F]. inversion F; subst. contradiction. }
    destruct (isdigit z) eqn:Dg; subst d1.
    - apply DI in Dg. destruct (dmem key_eqb (z, s) d) eqn:Mem.
      + rewrite D by assumption. split; [intros (A & t' & F & P); split; [exact A|]; exists t'; auto|]. intros (A & t' & [F|(-> & T' & F)] & P); [split; [exact A|]; exists t'; auto|]. exfalso.
        destruct (TN z' s' Nz' Ns' T') as [-> ->]. unfold dmem in Mem. destruct (dget key_eqb (z, s) d) as [q|] eqn:Q; [|discriminate Mem]. apply D in Q as (_ & t' & F' & _); auto. exact (Old t' F' T' F).
      + assert (NoneD : dget key_eqb (z, s) d = None) by (unfold dmem in Mem; destruct (dget key_eqb (z, s) d); [discriminate Mem|reflexivity]).
        destruct (key_eqb (z', s') (z, s)) eqn:K.
        * apply KE in K. injection K as -> ->. rewrite (dget_dset_same key_eqb KE). split.
          -- intros E. injection E as <-. split; [exact Dg|]. exists t. split; [right; split; [reflexivity|]; split; [exact T|apply Dec; assumption]|reflexivity].
          -- intros (_ & t' & [F|(-> & _ & _)] & ->); [|reflexivity]. exfalso. pose proof (Dec z s Dg Nz Ns NoneD) as W. destruct F as (a & b & -> & T' & _). apply Forall_app in W as [_ W]. inversion W; subst. contradiction.
        * rewrite (dget_dset_other key_eqb KE) by (intros X; rewrite X in K; rewrite (proj2 (KE _ _) eq_refl) in K; discriminate K). rewrite D by assumption. split; [intros (A & t' & F & P); split; [exact A|]; exists t'; auto|].
          intros (A & t' & [F|(-> & T' & F)] & P); [split; [exact A|]; exists t'; auto|]. destruct (TN z' s' Nz' Ns' T') as [-> ->]. rewrite (proj2 (KE _ _) eq_refl) in K. discriminate K.
    - rewrite D by assumption. split; [intros (A & t' & F & P); split; [exact A|]; exists t'; auto|]. intros (A & t' & [F|(-> & T' & F)] & P); [split; [exact A|]; exists t'; auto|].
      destruct (TN z' s' Nz' Ns' T') as [-> ->]. apply DI in A. congruence. }
  destruct (G [] []) as (d & E & R).
  { intros z s p _ _. split; [discriminate|]. intros (_ & t & (a & b & X & _) & _). destruct a; discriminate X. }
  exists d. split; [exact E|]. exact R.
Qed.

(** C88.  For a material of one nuclide the cross section is its fraction times that of the nuclide, at every energy of
    the nuclide; the type unity is 1. *)
Theorem C88_one_nuclide : forall grid table points z g types, grid (z_elem z ++ z_iso z) = Ok g ->
  exists rows, get_xs_list grid table points [z] types None = Ok (g, rows) /\ length rows = length types
    /\ forall k t row i e, nth_error types k = Some t -> nth_error rows k = Some row -> nth_error g i = Some e ->
       exists v, nth_error row i = Some v /\ (v == if str_eqb t (s2l "unity") then 1 else z_frac z * table (z_elem z ++ z_iso z) k e)%Q.
Proof.
  intros grid table points z g types G. unfold get_xs_list. cbn [mapM]. unfold nuc_of at 1. rewrite G. cbn [bind fold_left]. eexists. split; [reflexivity|].
  set (low := fun n => match grid n with Ok g0 => qmin g0 | Err _ => 0%Q end). destruct (all_types_ok table points None g low [z] I ltac:(discriminate) types 0) as [L V]. cbn [rev app] in L, V. cbn zeta in L, V. cbn [rev app].
  assert (F2nth : forall a b, Forall2 (fun (_ : str) (row : list Q) => length row = length g) a b -> forall k t row, nth_error a k = Some t -> nth_error b k = Some row -> length row = length g).
  { clear. induction 1 as [|x y a b H _ IH]; intros [|k] t row Ht Hr; try discriminate; cbn [nth_error] in Ht, Hr; [injection Hr as <-; exact H|exact (IH k t row Ht Hr)]. }
  assert (Len : forall a b, Forall2 (fun (_ : str) (row : list Q) => length row = length g) a b -> length b = length a) by (clear; induction 1; cbn [length]; congruence).
  split; [apply Len; exact L|]. intros k t row i e Ht Hr He.
  assert (LR : length row = length g). { exact (F2nth _ _ L k t row Ht Hr). }
  destruct (nth_error row i) as [v|] eqn:Hv; [|apply nth_error_None in Hv; assert (i < length g) by (apply nth_error_Some; congruence); lia]. exists v. split; [reflexivity|]. pose proof (V k t row Ht Hr i v Hv) as X.
  destruct (str_eqb t (s2l "unity")); [rewrite X; reflexivity|]. rewrite X. unfold weighted_before, before_each. cbn [rev app combine map fst snd qsum fold_right values Nat.add].
  rewrite (nth_error_nth (map (table (z_elem z ++ z_iso z) k) g) i 0%Q (x := table (z_elem z ++ z_iso z) k e)) by (rewrite nth_error_map, He; reflexivity). ring.
Qed.
(** C88.  For any number of nuclides the energies are those of all of them in increasing order; but each fraction
    multiplies the cross section of the nuclide before it (the last one for the first). *)
Theorem C88_many_nuclides : forall grid table points zaids gs types, Forall2 (fun z g => grid (z_elem z ++ z_iso z) = Ok g /\ StronglySorted Qlt g) zaids gs -> zaids <> [] ->
  exists es rows, get_xs_list grid table points zaids types None = Ok (es, rows) /\ Union gs es /\ length rows = length types
    /\ forall k t row i e, nth_error types k = Some t -> nth_error rows k = Some row -> nth_error es i = Some e ->
       exists v, nth_error row i = Some v /\ (v == if str_eqb t (s2l "unity") then 1 else weighted_before (fun n => table n k e) zaids)%Q.
Proof.
  intros grid table points zaids gs types HG N. unfold get_xs_list.
  assert (M : mapM (fun z => grid (nuc_of z)) zaids = Ok gs). { clear N. induction HG as [|z g zs gs [E _] _ IH]; [reflexivity|]. cbn [mapM]. unfold nuc_of at 1. rewrite E. cbn [bind]. rewrite IH. reflexivity. }
  rewrite M. cbn [bind]. destruct HG as [|z g zs gs [E S] HG]; [congruence|]. cbn [bind]. set (es := fold_left union1d gs g). eexists es, _. split; [reflexivity|]. split; [apply unions_ok; exact S|].
  set (low := fun n => match grid n with Ok g0 => qmin g0 | Err _ => 0%Q end). set (zaids := z :: zs) in *. destruct (all_types_ok table points None es low zaids I N types 0) as [L V]. cbn zeta in L, V.
  assert (F2nth : forall a b, Forall2 (fun (_ : str) (row : list Q) => length row = length es) a b -> forall k t row, nth_error a k = Some t -> nth_error b k = Some row -> length row = length es).
  { clear. induction 1 as [|x y a b H _ IH]; intros [|k] t row Ht Hr; try discriminate; cbn [nth_error] in Ht, Hr; [injection Hr as <-; exact H|exact (IH k t row Ht Hr)]. }
  assert (Len : forall a b, Forall2 (fun (_ : str) (row : list Q) => length row = length es) a b -> length b = length a) by (clear; induction 1; cbn [length]; congruence).
  split; [apply Len; exact L|]. intros k t row i e Ht Hr He.
  assert (LR : length row = length es). { exact (F2nth _ _ L k t row Ht Hr). }
  destruct (nth_error row i) as [v|] eqn:Hv; [|apply nth_error_None in Hv; assert (i < length es) by (apply nth_error_Some; congruence); lia]. exists v. split; [reflexivity|]. pose proof (V k t row Ht Hr i v Hv) as X.
  destruct (str_eqb t (s2l "unity")); [rewrite X; reflexivity|]. rewrite X. unfold weighted_before. apply qsum_map_ext. intros p _. cbn [values Nat.add].
  rewrite (nth_error_nth (map (table (z_elem (fst p) ++ z_iso (fst p)) k) es) i 0%Q (x := table (z_elem (fst p) ++ z_iso (fst p)) k e)) by (rewrite nth_error_map, He; reflexivity). reflexivity.
Qed.
(** C88.  So the cross section of a material of two nuclides is not the weighted sum of theirs. *)
Theorem C88_each_nuclide_with_its_own_refuted : exists grid table points zaids es row, get_xs_list grid table points zaids [s2l "total"] None = Ok (es, [row])
  /\ (exists e v, In (e, v) (combine es row) /\ ~ (v == weighted (fun n => table n 0%nat e) zaids)%Q).
Proof.
  exists (fun _ => Ok [1%Q]), (fun n _ _ => if str_eqb n (s2l "3006") then 1%Q else 0%Q), (fun _ _ => []), [mkzaid (1 # 10) (s2l "3") (s2l "006") None; mkzaid (9 # 10) (s2l "3") (s2l "007") None].
  eexists. eexists. split; [vm_compute; reflexivity|]. eexists. eexists. split; [left; reflexivity|]. intros X. vm_compute in X. discriminate X.
Qed.
(** C88.  Collapsed in groups, the cross section of a nuclide stays between the bounds of its values, and so a constant
    one stays the same. *)
Theorem C88_groups_of_one_nuclide : forall grid table points z g types group lo hi, grid (z_elem z ++ z_iso z) = Ok g -> g <> [] -> (0 <= z_frac z)%Q ->
  (forall a b, (a < b)%Q -> Points a b (points a b)) -> (forall m, In m g -> Forall (fun x => (m <= x)%Q) g -> Bounds m group) -> (forall k e, (lo <= table (z_elem z ++ z_iso z) k e)%Q /\ (table (z_elem z ++ z_iso z) k e <= hi)%Q) ->
  exists rows, get_xs_list grid table points [z] types (Some group) = Ok (group, rows) /\ length rows = length types
    /\ forall k t row i v, nth_error types k = Some t -> t <> s2l "unity" -> nth_error rows k = Some row -> length row = length group /\ (nth_error row i = Some v -> (z_frac z * lo <= v)%Q /\ (v <= z_frac z * hi)%Q).
Proof.
  intros grid table points z g types group lo hi G Gn Fz HP HB HV. unfold get_xs_list. cbn [mapM]. unfold nuc_of at 1. rewrite G. cbn [bind]. eexists. split; [reflexivity|].
  set (low := fun n => match grid n with Ok g0 => qmin g0 | Err _ => 0%Q end). destruct (all_types_ok table points (Some group) group low [z] eq_refl ltac:(discriminate) types 0) as [L V]. cbn [rev app] in L, V. cbn zeta in L, V. cbn [rev app].
  assert (F2nth : forall a b, Forall2 (fun (_ : str) (row : list Q) => length row = length group) a b -> forall k t row, nth_error a k = Some t -> nth_error b k = Some row -> length row = length group).
  { clear. induction 1 as [|x y a b H _ IH]; intros [|k] t row Ht Hr; try discriminate; cbn [nth_error] in Ht, Hr; [injection Hr as <-; exact H|exact (IH k t row Ht Hr)]. }
  assert (Len : forall a b, Forall2 (fun (_ : str) (row : list Q) => length row = length group) a b -> length b = length a) by (clear; induction 1; cbn [length]; congruence).
  split; [apply Len; exact L|]. intros k t row i v Ht Hu Hr. split.
  { exact (F2nth _ _ L k t row Ht Hr). }
  intros Hv. pose proof (V k t row Ht Hr i v Hv) as X. destruct (str_eqb t (s2l "unity")) eqn:U; [apply str_eqb_eq in U; congruence|]. unfold weighted_before, before_each in X. cbn [rev app combine map fst snd qsum fold_right values Nat.add] in X.
  assert (Hi : i < length group). { assert (LR : length row = length group). { exact (F2nth _ _ L k t row Ht Hr). } rewrite <- LR. apply nth_error_Some. congruence. }
  assert (LowG : low (z_elem z ++ z_iso z) = qmin g) by (unfold low; rewrite G; reflexivity). rewrite LowG in X.
  assert (Min : In (qmin g) g /\ Forall (fun x => (qmin g <= x)%Q) g).
  { clear -Gn. destruct g as [|x r]; [congruence|]. cbn [qmin].
    assert (R : forall r x seen, In x seen -> Forall (fun y => (x <= y)%Q) seen -> let m := fold_left (fun a b => if Qle_bool a b then a else b) r x in In m (seen ++ r) /\ Forall (fun y => (m <= y)%Q) (seen ++ r)).
    { clear. induction r as [|b r IH]; intros x seen Hx Hs; cbn [fold_left]; [rewrite app_nil_r; auto|]. replace (seen ++ b :: r) with ((seen ++ [b]) ++ r) by (rewrite <- app_assoc; reflexivity). destruct (Qle_bool x b) eqn:C.
      - apply IH; [apply in_or_app; auto|]. apply Qle_bool_iff in C. apply Forall_app. split; [exact Hs|repeat constructor; exact C].
      - assert (C' : (b < x)%Q) by (apply Qnot_le_lt; intros Y; apply Qle_bool_iff in Y; congruence). apply IH; [apply in_or_app; right; left; reflexivity|]. apply Forall_app. split; [eapply Forall_impl; [|exact Hs]; cbn; intros y Hy; lra|repeat constructor; lra]. }
    destruct (R r x [x] (or_introl eq_refl)) as [A B]; [repeat constructor; lra|]. auto. }
  specialize (HB (qmin g) (proj1 Min) (proj2 Min)). unfold Bounds in HB. clear Min LowG.
  assert (Gr : forall es m j, StronglySorted Qlt (m :: es) -> j < length es -> (lo <= nth j (groups points (table (z_elem z ++ z_iso z) k) m es) 0)%Q /\ (nth j (groups points (table (z_elem z ++ z_iso z) k) m es) 0 <= hi)%Q).
  { clear -HP HV. induction es as [|e es IH]; intros m j S Hj; [cbn [length] in Hj; lia|]. cbn [groups]. inversion S as [|? ? S' F]; subst. inversion F as [|? ? Fe _]; subst. destruct j as [|j]; cbn [nth]; [|apply IH; [exact S'|cbn [length] in Hj; lia]].
    destruct (HP m e Fe) as ((r & Er) & (r' & Er') & So). rewrite Er in So, Er'. pose proof (trapz_bounds (table (z_elem z ++ z_iso z) k) lo hi (HV k) r m So) as [T1 T2]. rewrite Er.
    assert (La : last r m = e). { replace (last r m) with (last (m :: r) m) by (destruct r; reflexivity). rewrite Er'. apply last_last. } rewrite La in T1, T2. set (t := trapz _ _) in *.
    assert (De : (0 < e - m)%Q) by lra. split; [apply Qle_shift_div_l; assumption|apply Qle_shift_div_r; assumption]. }
  destruct (Gr group (qmin g) i HB Hi) as [A B]. set (w := nth i _ _) in *. assert (Ev : (v == w * z_frac z)%Q) by (rewrite X; ring). rewrite Ev. rewrite !(Qmult_comm (z_frac z)). split; apply Qmult_le_compat_r; assumption.
Qed.
(** C88.  Combination applies the operations from the left: with additions it is the sum of the functions. *)
Theorem C88_sum_of_functions : forall f fs x, exists v, combination (f :: fs) (map (fun _ => Qplus) fs) x = Ok v /\ (v == qsum (map (fun g => g x) (f :: fs)))%Q.
Proof.
  intros f fs x. unfold combination. change (of_opt IndexError (nth_error (f :: fs) 0)) with (Ok f). cbn [bind].
  assert (R : forall (pre l : list (Q -> Q)) a, exists v, foldM (fun s op => let '(ans, i) := s in do g <- of_opt IndexError (nth_error (pre ++ l) (S i)); Ok (op ans (g x), S i)) (a, pred (length pre)) (map (fun _ => Qplus) l) = Ok (v, pred (length pre) + length l) /\ (pre <> [] -> (v == a + qsum (map (fun g => g x) l))%Q) \/ pre = []).
  { intros pre l. revert pre. induction l as [|g l IH]; intros pre a.
    - exists a. left. cbn [map foldM length]. split; [rewrite Nat.add_0_r; reflexivity|]. intros _. cbn. ring.
    - destruct pre as [|p pre]; [exists a; right; reflexivity|]. cbn [map foldM length pred]. replace (nth_error ((p :: pre) ++ g :: l) (S (length pre))) with (Some g) by (cbn [app nth_error]; rewrite nth_error_app2, Nat.sub_diag by lia; reflexivity). cbn [of_opt bind].
      destruct (IH ((p :: pre) ++ [g]) (a + g x)%Q) as (v & [[E Q]|E]); [|destruct pre; discriminate E]. replace (pred (length ((p :: pre) ++ [g]))) with (S (length pre)) in E by (rewrite app_length; cbn [length]; lia).
      rewrite <- app_assoc in E. cbn [app] in E. cbn [app]. rewrite E. exists v. left. split; [do 2 f_equal; cbn [length]; lia|]. intros _. rewrite Q by (destruct pre; discriminate). cbn [map]. rewrite qsum_cons. ring. }
  destruct (R [f] fs (f x)) as (v & [[E Q]|E]); [|discriminate E]. cbn [length pred app] in E. rewrite E. exists v. split; [reflexivity|]. rewrite Q by discriminate. reflexivity.
Qed.

(** ** cases that meet the hypotheses *)
Example C87_witness : ace_files (s2l "data") [mkT (s2l "1001.31c") 1 (s2l "h1") [] 1 1 1 None None None false; mkT (s2l "1001.31c") 1 (s2l "h2") [] 1 1 1 None None None false; mkT (s2l "lwtr.20t") 1 (s2l "w") [] 1 1 1 None None None false]
  = Ok [((s2l "1001", s2l "31c"), s2l "data/h1")].
Proof. reflexivity. Qed.
Example C88_witness : exists rows, get_xs_list (fun n => Ok (if str_eqb n (s2l "3006") then [1; 3]%Q else [2; 3]%Q)) (fun _ _ e => e) (fun a b => [a; b]) [mkzaid (1 # 4) (s2l "3") (s2l "006") None; mkzaid (3 # 4) (s2l "3") (s2l "007") None] [s2l "total"; s2l "unity"] None
  = Ok ([1; 2; 3]%Q, rows) /\ length rows = 2.
Proof. eexists. split; [vm_compute; reflexivity|reflexivity]. Qed.
Example C88_groups_witness : (forall a b, (a < b)%Q -> Points a b [a; b]) /\ Bounds 1 [2; 10]%Q
  /\ get_xs_list (fun _ => Ok [1; 3]%Q) (fun _ _ _ => 5%Q) (fun a b => [a; b]) [mkzaid 1 (s2l "3") (s2l "006") None] [s2l "total"] (Some [2; 10]%Q) <> Err IndexError.
Proof.
  split; [|split; [|discriminate]].
  - intros a b H. split; [exists [b]; reflexivity|]. split; [exists [a]; reflexivity|]. repeat constructor. apply Qlt_le_weak. exact H.
  - unfold Bounds. repeat constructor.
Qed.

Print Assumptions C87_files_of_the_library.
Print Assumptions C88_one_nuclide.
Print Assumptions C88_many_nuclides.
Print Assumptions C88_each_nuclide_with_its_own_refuted.
Print Assumptions C88_groups_of_one_nuclide.
Print Assumptions C88_sum_of_functions.

(** C87.  The path of a relative file name is in the folder, an absolute one is itself. *)
Theorem C87_paths : forall folder f, f <> [] -> folder <> [] ->
  ((forall r, f <> "/"%char :: r) -> join_path folder f = folder ++ "/"%char :: f) /\ (forall r, f = "/"%char :: r -> join_path folder f = f).
Proof. intros folder f Nf Nd. destruct f as [|c f]; [congruence|]. unfold join_path, slash. destruct (Ascii.eqb_spec c "/"%char) as [->|E].
  - split; [intros H; exfalso; exact (H f eq_refl)|reflexivity].
  - split; [destruct folder; [congruence|reflexivity]|]. intros r H. injection H as H _. congruence. Qed.
Print Assumptions C87_paths.
