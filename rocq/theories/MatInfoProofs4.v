From Coq Require Import Lia Lqa Sorted.
From Verif Require Import PyBase PyLemmas PyStr PyStrLemmas PyText D1SModel D1SProofs2 LibModel LibSpec MatModel MatSpec MatProofs MatProofs2 MatProofs3 MatInfoModel MatInfoSpec MatInfoProofs MatInfoProofs2 MatInfoProofs3.
Open Scope nat_scope.

(** ** zaid level and element level give the same element table *)
Lemma sorted_same (l1 : list ekey) : forall l2, StronglySorted key_lt l1 -> StronglySorted key_lt l2 -> (forall k, In k l1 <-> In k l2) -> l1 = l2.
Proof. induction l1 as [|a l1 IH]; intros l2 S1 S2 H.
  - destruct l2 as [|b l2]; [reflexivity|]. exfalso. apply (proj2 (H b)). now left.
  - destruct l2 as [|b l2]; [exfalso; apply (proj1 (H a)); now left|]. inversion S1 as [|? ? S1' F1]; subst. inversion S2 as [|? ? S2' F2]; subst. rewrite Forall_forall in F1, F2.
    assert (a = b). { destruct (proj1 (H a) (or_introl eq_refl)) as [->|Q]; [reflexivity|]. destruct (proj2 (H b) (or_introl eq_refl)) as [->|Q']; [reflexivity|]. exfalso. exact (key_lt_irrefl a (key_lt_trans _ _ _ (F1 b Q') (F2 a Q))). }
    subst b. f_equal. apply IH; [assumption|assumption|]. intros k. split; intros Hk.
    + destruct (proj1 (H k) (or_intror Hk)) as [<-|Q]; [exfalso; exact (key_lt_irrefl a (F1 a Hk))|exact Q].
    + destruct (proj2 (H k) (or_intror Hk)) as [<-|Q]; [exfalso; exact (key_lt_irrefl a (F2 a Hk))|exact Q]. Qed.
Lemma ndiv_eq a b a' b' : (a == a')%Q -> (b == b')%Q -> match ndiv a b, ndiv a' b' with Some x, Some y => (x == y)%Q | None, None => True | _, _ => False end.
Proof. intros Ha Hb. destruct (ndiv_ratio a b a' b' Ha Hb) as [R1 R2]. destruct (ndiv_ratio a' b' a' b' (Qeq_refl _) (Qeq_refl _)) as [R1' R2'].
  destruct (Qeq_dec b' 0) as [Z|N]; [rewrite (R1 Z), (R1' Z); exact I|]. destruct (R2 N) as [x [-> X]], (R2' N) as [y [-> Y]]. rewrite X, Y. reflexivity. Qed.
Lemma info_levels E m r1 el1 r2 el2 : wf_table (l_iso (m_lib E)) -> wf_material m -> Forall consistent (mt_subs m) -> mat_info E true m = Ok (r1, el1) -> mat_info E false m = Ok (r2, el2) ->
  Forall2 (fun a b => e_sub a = e_sub b /\ e_elem a = e_elem b /\ (e_frac a == e_frac b)%Q /\
    (match e_subfrac a, e_subfrac b with Some x, Some y => (x == y)%Q | None, None => True | _, _ => False end) /\
    (match e_matfrac a, e_matfrac b with Some x, Some y => (x == y)%Q | None, None => True | _, _ => False end)) el1 el2.
Proof. intros W WM C H1 H2. destruct (mat_info_ok E true m r1 el1 W H1) as [? [? [_ [_ [_ [_ [_ [_ [E1 G]]]]]]]]]. destruct (mat_info_ok E false m r2 el2 W H2) as [? [? [_ [_ [_ [_ [_ [_ [E2 _]]]]]]]]]. rewrite Forall_forall in C.
  assert (L : forall P s, In s (mt_subs m) -> (P = (fun _ => true) \/ exists e, P = esel e) -> (rsum P (lvl E true s) == rsum P (lvl E false s))%Q).
  { intros P s Hs [->|[e ->]].
    - destruct (lvl_sum E true s [] (all_wf m s WM Hs) (C s Hs) (proj1 (G s Hs))) as [_ ->]. destruct (lvl_sum E false s [] (all_wf m s WM Hs) (C s Hs) (proj1 (G s Hs))) as [_ ->]. reflexivity.
    - destruct (lvl_sum E true s e (all_wf m s WM Hs) (C s Hs) (proj1 (G s Hs))) as [-> _]. destruct (lvl_sum E false s e (all_wf m s WM Hs) (C s Hs) (proj1 (G s Hs))) as [-> _]. reflexivity. }
  assert (LS : forall k P, (P = (fun _ => true) \/ exists e, P = esel e) -> (fsum (fun r => Nat.eqb (fst r) k && P (snd r)) (raw (lvl E true) 1 (mt_subs m)) == fsum (fun r => Nat.eqb (fst r) k && P (snd r)) (raw (lvl E false) 1 (mt_subs m)))%Q).
  { intros k P HP. rewrite !raw_sum. destruct (at_sub 1 k (mt_subs m)) as [s|] eqn:A; [|reflexivity]. apply L; [|exact HP]. unfold at_sub in A. destruct (1 <=? k); [eapply nth_error_In; eassumption|discriminate]. }
  assert (LA : (fsum (fun _ => true) (raw (lvl E true) 1 (mt_subs m)) == fsum (fun _ => true) (raw (lvl E false) 1 (mt_subs m)))%Q).
  { rewrite !raw_all. apply qsum_map_ext. intros s Hs. apply L; [exact Hs|now left]. }
  assert (K : keys (map s_key (raw (lvl E true) 1 (mt_subs m))) = keys (map s_key (raw (lvl E false) 1 (mt_subs m)))).
  { apply sorted_same; [apply keys_sorted|apply keys_sorted|]. intros [k e]. rewrite !keys_in, !raw_keys.
    assert (Q : forall s, at_sub 1 k (mt_subs m) = Some s -> In s (mt_subs m)) by (intros s A; unfold at_sub in A; destruct (1 <=? k); [eapply nth_error_In; eassumption|discriminate]).
    split; intros [s [A He]]; exists s; (split; [exact A|]); specialize (Q s A); apply (lvl_elems E _ s e (all_wf m s WM Q) (C s Q) (proj1 (G s Q))); apply (lvl_elems E _ s e (all_wf m s WM Q) (C s Q) (proj1 (G s Q))) in He; exact He. }
  rewrite E1, E2. unfold elem_table. rewrite K. clear K. induction (keys (map s_key (raw (lvl E false) 1 (mt_subs m)))) as [|[k e] l IH]; [constructor|]. cbn [map]. constructor; [|exact IH]. cbn [e_sub e_elem e_frac e_subfrac e_matfrac fst snd].
  pose proof (LS k (esel e) (or_intror (ex_intro _ e eq_refl))) as Q1.
  assert (Q2 : (fsum (fun r => Nat.eqb (fst r) k) (raw (lvl E true) 1 (mt_subs m)) == fsum (fun r => Nat.eqb (fst r) k) (raw (lvl E false) 1 (mt_subs m)))%Q).
  { rewrite (fsum_ext _ (fun r => Nat.eqb (fst r) k && (fun _ => true) (snd r)) (raw (lvl E true) 1 (mt_subs m))) by (intros r _; now rewrite andb_true_r).
    rewrite (fsum_ext _ (fun r => Nat.eqb (fst r) k && (fun _ => true) (snd r)) (raw (lvl E false) 1 (mt_subs m))) by (intros r _; now rewrite andb_true_r). exact (LS k (fun _ => true) (or_introl eq_refl)). }
  split; [reflexivity|]. split; [reflexivity|]. split; [exact Q1|]. split; [apply ndiv_eq; [exact Q1|exact Q2]|apply ndiv_eq; [exact Q1|exact LA]]. Qed.
Lemma mapM_some {A B} (f : A -> res B) l : (forall x, In x l -> exists y, f x = Ok y) -> exists r, mapM f l = Ok r.
Proof. induction l as [|x l IH]; intros H; [now exists []|]. destruct (H x (or_introl eq_refl)) as [y Hy]. destruct IH as [r Hr]; [intros z Hz; apply H; now right|]. exists (y :: r). cbn [mapM]. rewrite Hy. cbn [bind]. rewrite Hr. reflexivity. Qed.
Lemma info_both E b b' m x : mat_info E b m = Ok x -> exists y, mat_info E b' m = Ok y.
Proof. unfold mat_info. destruct (switch_copy Atom E m) as [sa|]; [|discriminate]. cbn [bind]. destruct (switch_copy Mass E m) as [sm|]; [|discriminate]. cbn [bind].
  destruct (mapM _ _) as [ts|] eqn:M; [|discriminate]. cbn [bind]. intros H.
  match goal with |- exists y, bind (mapM ?f ?l) _ = _ => destruct (mapM_some f l) as [ts' M'] end.
  - intros y Hy. destruct (mapM_oks _ _ _ M y Hy) as [z Hz]. cbn beta in *. destruct (sub_info E (fst y)); [|discriminate]. destruct (sub_info E (fst (snd y))); [|discriminate]. destruct (sub_info E (snd (snd y))); [|discriminate]. cbn [bind]. eauto.
  - rewrite M'. cbn [bind]. assert (Ne : ts' <> []). { intros ->. apply mapM_Forall2 in M'. inversion M' as [Q|]. rewrite <- Q in M. cbn in M. injection M as <-. discriminate. }
    destruct ts' as [|t ts']; [congruence|]. eauto. Qed.

(** ** the complete table *)
(** a collapsed list with other fractions *)
Definition withf (f : zaid -> Q) (zs : list zaid) : list zaid := map (fun z => with_frac z (f z)) zs.
Lemma withf_wf f zs : Forall wf_zaid zs -> Forall wf_zaid (withf f zs).
Proof. unfold withf. rewrite Forall_map. apply Forall_impl. trivial. Qed.
Lemma withf_filter f (p : zaid -> bool) zs : (forall z, p (with_frac z (f z)) = p z) -> filter p (withf f zs) = withf f (filter p zs).
Proof. intros H. unfold withf. induction zs as [|z zs IH]; [reflexivity|]. cbn [map filter]. rewrite H, IH. destruct (p z); reflexivity. Qed.
Lemma total_withf f zs : total (withf f zs) = qsum (map f zs).
Proof. unfold total, withf. rewrite map_map. reflexivity. Qed.
Lemma forall2_of_map {A B C} (f : A -> C) (g : B -> C) l : forall l', map f l = map g l' -> Forall2 (fun x y => f x = g y) l l'.
Proof. induction l as [|x l IH]; intros [|y l'] H; try discriminate; constructor; injection H as H1 H2; auto. Qed.
Lemma f2_strengthen {A B} (R S : A -> B -> Prop) l : forall l', (forall x y, In x l -> In y l' -> R x y -> S x y) -> Forall2 R l l' -> Forall2 S l l'.
Proof. intros l' H F. induction F as [|x y l l' r F IH]; constructor; [apply H; [now left|now left|exact r]|]. apply IH. intros a b Ha Hb. apply H; now right. Qed.
Lemma picked_sum f (p q : zaid -> bool) zs : (forall y, In y zs -> p y = q y) -> sum_of f p zs = sum_of f q zs.
Proof. intros H. unfold sum_of. rewrite (filter_ext_in p q zs H). reflexivity. Qed.
Definition zaid_sum (f : zaid -> Q) (zs : list zaid) (z : zaid) (q : Q) : Prop := forall p, picks p (fun y => nuclide y = nuclide z) zs -> (q == sum_of f p zs)%Q.
Lemma collapse_withf f zs : Forall wf_zaid zs -> Forall2 (fun z z' => nuclide z' = nuclide z /\ zaid_sum f zs z (z_frac z')) (concat (collapse zs)) (concat (collapse (withf f zs))).
Proof. intros W. pose proof (withf_wf f zs W) as W'. pose proof (collapse_names_order zs W) as O. pose proof (collapse_names_order (withf f zs) W') as O'.
  assert (Q : map z_name (concat (collapse zs)) = map z_name (concat (collapse (withf f zs)))).
  { rewrite !concat_map, O, O'. f_equal. assert (M1 : map z_elem (withf f zs) = map z_elem zs) by (unfold withf; rewrite map_map; reflexivity). rewrite M1. apply map_ext. intros e. f_equal.
    rewrite withf_filter by reflexivity. unfold withf. rewrite map_map. reflexivity. }
  apply forall2_of_map in Q. destruct (collapse_spec zs W) as [_ [_ F]], (collapse_spec (withf f zs) W') as [_ [_ F']]. rewrite Forall_forall in F, F', W. revert Q. apply f2_strengthen. intros z z' Hz Hz' En.
  destruct (F z Hz) as [Wz _], (F' z' Hz') as [Wz' [_ Fz']]. assert (N : nuclide z' = nuclide z) by (apply name_nuclide; [exact Wz'|exact Wz|symmetry; exact En]). split; [exact N|].
  intros p Hp. rewrite Fz'. unfold named. rewrite withf_filter by reflexivity. rewrite total_withf. fold (sum_of f (fun z0 => str_eqb (z_name z0) (z_name z')) zs). rewrite (picked_sum f p (fun z0 => str_eqb (z_name z0) (z_name z'))); [reflexivity|].
  intros y Hy. apply eq_true_iff_eq. rewrite (Hp y Hy), str_eqb_eq, <- N. rewrite (name_nuclide y z' (W y Hy) Wz'). reflexivity. Qed.
Lemma collapse_groups f zs : Forall wf_zaid zs ->
  Forall2 (fun e g => (forall z, In z g -> z_elem z = e) /\ (elem_fraction g == sum_of f (fun y => str_eqb (z_elem y) e) zs)%Q) (firsts (map z_elem zs)) (collapse (withf f zs)).
Proof. intros W. unfold collapse. rewrite group_spec, map_map. assert (M1 : map z_elem (withf f zs) = map z_elem zs) by (unfold withf; rewrite map_map; reflexivity). rewrite M1.
  cbn [snd]. induction (firsts (map z_elem zs)) as [|e l IH]; [constructor|]. cbn [map]. constructor; [|exact IH]. rewrite withf_filter by reflexivity.
  pose proof (withf_wf f _ (filter_wf (fun z => str_eqb (z_elem z) e) _ W)) as W'. destruct (element_spec _ W') as [O F]. rewrite Forall_forall in F. split.
  - intros z Hz. destruct (F z Hz) as [_ [[z0 [H0 N0]] _]]. unfold withf in H0. apply in_map_iff in H0. destruct H0 as [y [<- Hy]]. apply filter_In in Hy. destruct Hy as [_ Hy]. apply str_eqb_eq in Hy. apply nuclide_elem in N0. cbn [with_frac z_elem] in N0. congruence.
  - unfold sum_of. rewrite <- total_withf. unfold elem_fraction. rewrite <- (total_by_names (map z_name (element_zaids (withf f (filter (fun z => str_eqb (z_elem z) e) zs)))) (withf f (filter (fun z => str_eqb (z_elem z) e) zs))).
    + rewrite map_map. apply qsum_map_ext. intros z Hz. now apply F.
    + rewrite O. apply firsts_aux_nodup.
    + intros z Hz. rewrite O. apply firsts_aux_in. split; [now apply in_map|intros []]. Qed.
Lemma withf_id zs : withf z_frac zs = zs.
Proof. unfold withf. induction zs as [|z zs IH]; [reflexivity|]. cbn [map]. rewrite IH. destruct z; reflexivity. Qed.

(** the switched copies *)
Definition cfrac (t : ftype) (E : matenv) (m : material) (z : zaid) : Q := if must_switch t (tot_fraction m) then fr t E m z else z_frac z.
Lemma switch_copy_ok t E m sa : has_masses E m -> Forall consistent (mt_subs m) -> switch_copy t E m = Ok sa ->
  sa = map (fun s => mk_submat (withf (cfrac t E m) (s_zaids s))) (mt_subs m) /\ (must_switch t (tot_fraction m) = true -> ~ (norm t E m == 0)%Q).
Proof. intros HM C H. unfold switch_copy in H. unfold cfrac. destruct (must_switch t (tot_fraction m)) eqn:MS.
  - assert (N : ~ (norm t E m == 0)%Q).
    { intros Q. assert (exists s z, In s (mt_subs m) /\ In z (s_zaids s)) as [s [z [Hs Hz]]].
      { destruct (all_zaids m) as [|z l] eqn:A; [exfalso; unfold tot_fraction in MS; rewrite A in MS; destruct t; discriminate|]. assert (In z (all_zaids m)) by (rewrite A; now left). unfold all_zaids in H0. apply in_concat in H0. destruct H0 as [l0 [Hl Hz]]. apply in_map_iff in Hl. destruct Hl as [s [<- Hs]]. eauto. }
      unfold switch_subs in H. rewrite (mapM_ext_map (weight_of t E) (wt t E)) in H by (intros y Hy; apply weight_ok; exact (HM y Hy)). cbn [bind] in H. fold (sum_over (wt t E) m) in H. fold (norm t E m) in H.
      destruct (mapM_oks _ _ _ H s Hs) as [y Hy]. destruct (mapM (switched t E (norm t E m)) (s_zaids s)) as [zs|] eqn:M; [|discriminate]. destruct (mapM_oks _ _ _ M z Hz) as [y' Hy'].
      unfold switched in Hy'. destruct (weight_of t E z); [|discriminate]. cbn [bind] in Hy'. unfold qdiv in Hy'. rewrite (proj2 (Qeq_bool_iff _ _) Q) in Hy'. discriminate. }
    split; [|intros _; exact N]. rewrite (switch_subs_ok t E m HM N) in H. assert (sa = mt_subs (rebuild (fr t E m) m)) by congruence. exact H0.
  - split; [|discriminate]. assert (mt_subs m = sa) by congruence. rewrite <- H0. rewrite <- (map_id (mt_subs m)) at 1. apply map_ext_in. intros s Hs. rewrite withf_id. rewrite Forall_forall in C. specialize (C s Hs). unfold consistent in C. destruct s as [zs es]. cbn [s_zaids s_elems] in *. rewrite C. reflexivity. Qed.
Lemma cfrac_atom E m z : has_masses E m -> In z (all_zaids m) -> (must_switch Atom (tot_fraction m) = true -> ~ (norm Atom E m == 0)%Q) -> (cfrac Atom E m z == atom_frac E m z)%Q.
Proof. intros HM Hz N. unfold cfrac, atom_frac. cbn [must_switch] in *. destruct (Qlt_le_dec (tot_fraction m) 0) as [L|L].
  - destruct (Qle_bool 0 (tot_fraction m)) eqn:B; [apply Qle_bool_iff in B; lra|]. cbn [negb] in *. specialize (N eq_refl). rewrite (norm_atom_eq E m HM). unfold fr. cbn [wt]. pose proof (massof_pos E m z HM Hz). field. split; lra.
  - rewrite (proj2 (Qle_bool_iff _ _) L). reflexivity. Qed.
Lemma cfrac_mass E m z : (cfrac Mass E m z == mass_frac E m z)%Q.
Proof. unfold cfrac, mass_frac. cbn [must_switch]. destruct (Qlt_le_dec 0 (tot_fraction m)) as [L|L].
  - destruct (Qle_bool (tot_fraction m) 0) eqn:B; [apply Qle_bool_iff in B; lra|]. reflexivity.
  - rewrite (proj2 (Qle_bool_iff _ _) L). reflexivity. Qed.

Lemma complete_rows i (rows : list irow) : forall ra rm, length ra = length rows -> length rm = length rows ->
  complete i rows ra rm = map (fun x => mkC i (i_elem (fst x)) (i_iso (fst x)) (Some (i_frac (fst (snd x)))) (Some (i_frac (snd (snd x))))) (combine rows (combine ra rm)).
Proof. intros ra rm La Lm. unfold complete.
  assert (G : forall (n : nat) (rows ra rm : list irow) (pa pm : list irow), length pa = n -> length pm = n -> length ra = length rows -> length rm = length rows ->
    map (fun kr => mkC i (i_elem (snd kr)) (i_iso (snd kr)) (option_map i_frac (nth_error (pa ++ ra) (fst kr))) (option_map i_frac (nth_error (pm ++ rm) (fst kr)))) (combine (seq n (length rows)) rows) =
    map (fun x => mkC i (i_elem (fst x)) (i_iso (fst x)) (Some (i_frac (fst (snd x)))) (Some (i_frac (snd (snd x))))) (combine rows (combine ra rm))).
  { clear. intros n rows. revert n. induction rows as [|r rows IH]; intros n [|a ra] [|c rm] pa pm Hpa Hpm La Lm; try discriminate; [reflexivity|]. cbn [length seq combine map fst snd]. f_equal.
    - rewrite !nth_error_app2 by lia. rewrite Hpa, Hpm, Nat.sub_diag. reflexivity.
    - specialize (IH (S n) ra rm (pa ++ [a]) (pm ++ [c])). rewrite <- !app_assoc in IH. cbn [app] in IH. apply IH; [rewrite app_length; cbn; lia|rewrite app_length; cbn; lia|now injection La|now injection Lm]. }
  exact (G 0 rows ra rm [] [] eq_refl eq_refl La Lm). Qed.
Lemma three {A B C D} (RA : A -> B -> Prop) (RB : A -> C -> Prop) (S : A -> D -> Prop) (h : A * (B * C) -> D) l : forall la lb,
  (forall x y z, In x l -> RA x y -> RB x z -> S x (h (x, (y, z)))) -> Forall2 RA l la -> Forall2 RB l lb -> Forall2 S l (map h (combine l (combine la lb))).
Proof. intros la lb H FA. revert lb. induction FA as [|x y l la ra FA IH]; intros lb FB; inversion FB; subst; [constructor|]. cbn [combine map]. constructor; [apply H; [now left|assumption|assumption]|]. apply IH; [|assumption]. intros a b c Ha. apply H. now right. Qed.
Lemma combine_map3 {A B C A' B' C'} (f : A -> A') (g : B -> B') (h : C -> C') (a : list A) : forall (b : list B) (c : list C),
  combine (map f a) (combine (map g b) (map h c)) = map (fun x => (f (fst x), (g (fst (snd x)), h (snd (snd x))))) (combine a (combine b c)).
Proof. induction a as [|x a IH]; intros [|y b] [|z c]; try reflexivity. cbn [map combine fst snd]. f_equal. apply IH. Qed.
