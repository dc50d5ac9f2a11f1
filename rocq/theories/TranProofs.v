(** Proofs about the translation of an input (C113, C114). *)
From Coq Require Import Lia Lqa.
From Verif Require Import PyBase PyLemmas PyStr PyStrLemmas PyText WWTextProofs D1SProofs2 LibModel LibSpec LibProofs LibProofs2 LibProofs3 MatModel MatSpec MatProofs MatProofs2 MatProofs3 MatProofs4 MatInfoModel TranModel TranSpec.
Open Scope nat_scope.

(** ** the argument *)
Lemma dget_texts l (d : list (str * str)) : dget str_eqb l (map (fun kv => (fst kv, VText (snd kv))) d) = option_map VText (dget str_eqb l d).
Proof. induction d as [|[k v] d IH]; [reflexivity|]. cbn [map dget fst snd]. destruct (str_eqb _ _); [reflexivity|exact IH]. Qed.
Lemma find_lib_members num (d : list (str * list str)) :
  find_lib num (map (fun kv => (fst kv, VMembers (snd kv))) d) = match find (fun lz => memb str_eqb num (snd lz)) d with Some (l, _) => Ok l | None => Err ValueError end.
Proof. induction d as [|[k v] d IH]; [reflexivity|]. cbn [map find_lib find member bind fst snd]. destruct (memb str_eqb num v); [reflexivity|exact IH]. Qed.
Lemma pick_stands a nl z : stands_for a nl -> pick a z = do l <- pick_lib nl z; Ok (VText l).
Proof. intros [l|d N|d N].
  - reflexivity.
  - destruct d as [|[k v] d]; [contradiction|]. unfold pick, pick_lib. cbn [map fst snd]. destruct (z_lib z) as [l|]; [|reflexivity].
    change ((k, VText v) :: map (fun kv : str * str => (fst kv, VText (snd kv))) d) with (map (fun kv : str * str => (fst kv, VText (snd kv))) ((k, v) :: d)).
    rewrite (dget_texts l ((k, v) :: d)). generalize (dget str_eqb l ((k, v) :: d)). intros [x|]; reflexivity.
  - destruct d as [|[k v] d]; [contradiction|]. unfold pick, pick_lib. cbn [map fst snd].
    change ((k, VMembers v) :: map (fun kv : str * list str => (fst kv, VMembers (snd kv))) d) with (map (fun kv : str * list str => (fst kv, VMembers (snd kv))) ((k, v) :: d)).
    rewrite (find_lib_members (z_num z) ((k, v) :: d)). generalize (find (fun lz : str * list str => memb str_eqb (z_num z) (snd lz)) ((k, v) :: d)). intros [[l zs]|]; reflexivity. Qed.
Lemma zaid_conv_stands E a nl z : stands_for a nl -> zaid_conv E a z = zaid_translation E nl z.
Proof. intros S0. unfold zaid_conv, zaid_translation. rewrite (pick_stands a nl z S0). destruct (pick_lib nl z); reflexivity. Qed.
Lemma conv_zaid_stands E a nl z : stands_for a nl -> conv_zaid E a z = translate_zaid E nl z.
Proof. intros S0. unfold conv_zaid, translate_zaid. now rewrite (zaid_conv_stands E a nl z S0). Qed.
Lemma mapM_ext0 {A B} (f g : A -> res B) l : (forall x, f x = g x) -> mapM f l = mapM g l.
Proof. intros H. induction l as [|x l IH]; [reflexivity|]. cbn [mapM]. now rewrite H, IH. Qed.
Lemma conv_sub_stands E a nl s : stands_for a nl -> conv_sub E a s = translate_sub E nl s.
Proof. intros S0. unfold conv_sub, translate_sub. rewrite (mapM_ext0 (conv_zaid E a) (translate_zaid E nl)); [reflexivity|]. intros z. now apply conv_zaid_stands. Qed.
Lemma conv_subs_stands E a nl l : stands_for a nl -> conv_subs E a l = translate_subs E nl l.
Proof. intros S0. induction l as [|s l IH]; [reflexivity|]. cbn [conv_subs translate_subs]. rewrite (conv_sub_stands E a nl s S0), IH. reflexivity. Qed.
Lemma conv_mat_stands E a nl m : stands_for a nl -> conv_mat E a m = (fst (translate_full E nl m), opt_err (snd (translate_full E nl m))).
Proof. intros S0. unfold conv_mat, translate_full, translate_mat. rewrite (conv_subs_stands E a nl _ S0). destruct (translate_subs E nl (mt_subs m)) as [l [e|]]; reflexivity. Qed.

(** ** the loop over the materials *)
Lemma conv_subs_consistent E a l r o : conv_subs E a l = (r, o) -> o = None -> Forall consistent r.
Proof. revert r o. induction l as [|s l IH]; intros r o H Ho; cbn [conv_subs] in H.
  - injection H as <- _. constructor.
  - unfold conv_sub in H. destruct (mapM (conv_zaid E a) (s_zaids s)) as [b|e]; cbn [bind] in H; [|injection H as _ <-; discriminate].
    destruct (conv_subs E a l) as [r' o'] eqn:R. injection H as <- <-. constructor; [reflexivity|]. now apply (IH r' o'). Qed.
Lemma recollapse_id m : Forall consistent (mt_subs m) -> recollapse m = m.
Proof. destruct m as [nm subs]. unfold recollapse. cbn [mt_name mt_subs]. intros F. f_equal. induction F as [|s l C _ IH]; [reflexivity|]. cbn [map]. rewrite IH. f_equal. destruct s as [zs es]. unfold consistent in C. cbn in C. subst es. reflexivity. Qed.
Lemma conv_mat_id E a m m' : conv_mat E a m = (m', None) -> recollapse m' = m' /\ exists i, update_info E m' = Ok i.
Proof. unfold conv_mat. destruct (conv_subs E a (mt_subs m)) as [l [e|]] eqn:C; [discriminate|]. intros H.
  assert (E1 : mkmat (mt_name m) l = m') by (apply (f_equal fst) in H; exact H). apply (f_equal snd) in H. cbn [snd] in H. rewrite E1 in H.
  split; [apply recollapse_id; subst m'; cbn [mt_subs]; eapply conv_subs_consistent; eauto|].
  destruct (update_info E m') as [i|]; [eauto|discriminate]. Qed.
Lemma conv_list_ok E a l r : conv_list E a l = (r, None) <-> Forall2 (fun m m' => conv_mat E a m = (m', None)) l r.
Proof. revert r. induction l as [|m l IH]; intros r; cbn [conv_list].
  - split; intros H; [injection H as <-; constructor|inversion H; reflexivity].
  - split; intros H.
    + destruct (conv_mat E a m) as [m' [e|]] eqn:C; [discriminate|]. destruct (conv_list E a l) as [r' o] eqn:R. injection H as <- ->.
      rewrite (proj1 (conv_mat_id E a m m' C)). constructor; [exact C|]. now apply (proj1 (IH r')).
    + inversion H as [|? m' ? r' C F]; subst. rewrite C. apply (proj2 (IH r')) in F. rewrite F. now rewrite (proj1 (conv_mat_id E a m m' C)). Qed.
Lemma list_update_ok E l : list_update E l = None <-> Forall (fun m => exists i, update_info E m = Ok i) l.
Proof. unfold list_update. induction l as [|m l IH]; cbn [mapM].
  - split; [constructor|reflexivity].
  - destruct (update_info E m) as [i|e] eqn:U; cbn [bind].
    + destruct (mapM (update_info E) l) as [r|e]; cbn [bind opt_err] in *.
      * split; [|reflexivity]. intros _. constructor; [eauto|]. now apply IH.
      * split; [discriminate|]. intros H. inversion H; subst. apply IH in H3. discriminate.
    + cbn [opt_err]. split; [discriminate|]. intros H. inversion H as [|? ? [i Hi] _]; subst. congruence. Qed.
Lemma conv_list_updated E a l r : conv_list E a l = (r, None) -> list_update E r = None.
Proof. intros H. apply conv_list_ok in H. apply list_update_ok. induction H as [|m m' l r C _ IH]; [constructor|]. constructor; [exact (proj2 (conv_mat_id E a m m' C))|exact IH]. Qed.
Lemma translate_cards_eq E a l : translate_cards E a l = conv_list E a l.
Proof. unfold translate_cards. destruct (conv_list E a l) as [r [e|]] eqn:C; [reflexivity|]. now rewrite (conv_list_updated E a l r C). Qed.
Lemma conv_list_err E a l r e : conv_list E a l = (r, Some e) -> exists l1 m l2 r1 m', l = l1 ++ m :: l2 /\ r = r1 ++ m' :: l2 /\ conv_list E a l1 = (r1, None) /\ conv_mat E a m = (m', Some e).
Proof. revert r. induction l as [|m l IH]; intros r H; cbn [conv_list] in H; [discriminate|]. destruct (conv_mat E a m) as [m' [e'|]] eqn:C.
  - injection H as <- ->. exists [], m, l, [], m'. auto.
  - destruct (conv_list E a l) as [r' o] eqn:R. injection H as <- ->. destruct (IH r' eq_refl) as (l1 & m1 & l2 & r1 & m1' & -> & -> & H1 & H2).
    exists (m :: l1), m1, l2, (recollapse m' :: r1), m1'. split; [reflexivity|]. split; [reflexivity|]. split; [|exact H2]. cbn [conv_list]. now rewrite C, H1. Qed.

(** ** an unknown library *)
Lemma unknown_zaid E l z : ~ loaded (m_lib E) l -> ~ dosimetry E z -> conv_zaid E (AText l) z = Ok [].
Proof. intros NL ND. unfold conv_zaid, zaid_conv. cbn [pick bind].
  destruct (match z_lib z with Some l0 => memb str_eqb l0 (m_dosim E) | None => false end) eqn:D; [exfalso; apply ND; now apply dosim_iff|].
  unfold convertZaid. destruct (dget str_eqb l (l_data (m_lib E))) as [x|] eqn:G; [|reflexivity]. exfalso. apply NL. exists x. now apply (dget_some_in str_eqb str_eqb_eq). Qed.
Lemma unknown_subs E l subs : ~ loaded (m_lib E) l -> (forall s z, In s subs -> In z (s_zaids s) -> ~ dosimetry E z) ->
  conv_subs E (AText l) subs = (map (fun _ => mk_submat []) subs, None).
Proof. intros NL. induction subs as [|s subs IH]; intros ND; [reflexivity|]. cbn [conv_subs map]. unfold conv_sub.
  assert (M : mapM (conv_zaid E (AText l)) (s_zaids s) = Ok (map (fun _ => []) (s_zaids s))) by (apply mapM_ext_map; intros z Hz; apply unknown_zaid; [exact NL|apply (ND s); [now left|exact Hz]]).
  rewrite M. cbn [bind]. assert (C : concat (map (fun _ : zaid => @nil zaid) (s_zaids s)) = []) by (clear; induction (s_zaids s) as [|z0 l0 IH0]; [reflexivity|exact IH0]). rewrite C.
  rewrite IH; [reflexivity|]. intros s' z Hs. apply ND. now right. Qed.
Lemma emptied_all nm (subs : list submat) : all_zaids (mkmat nm (map (fun _ => mk_submat []) subs)) = [].
Proof. unfold all_zaids. cbn [mt_subs]. induction subs; [reflexivity|assumption]. Qed.
Lemma emptied_info E nm (subs : list submat) : subs <> [] -> update_info E (mkmat nm (map (fun _ => mk_submat []) subs)) = Err KeyError.
Proof. intros N. set (m := mkmat nm (map (fun _ => mk_submat []) subs)).
  assert (T : tot_fraction m = 0%Q) by (unfold tot_fraction; subst m; now rewrite emptied_all).
  assert (S1 : forall t, switch_inplace t E m = Ok (m, mt_subs m)) by (intros t; unfold switch_inplace; rewrite T; destruct t; reflexivity).
  assert (S2 : forall t, switch_copy t E m = Ok (mt_subs m)) by (intros t; unfold switch_copy; rewrite T; destruct t; reflexivity).
  unfold update_info. rewrite (S1 Atom). cbn [bind]. rewrite (S1 Mass). cbn [bind].
  assert (I : exists rows, mat_info E false m = Ok (rows, [])).
  { unfold mat_info. rewrite (S2 Atom). cbn [bind]. rewrite (S2 Mass). cbn [bind].
    subst m. cbn [mt_subs]. clear T S1 S2.
    set (F := fun x : submat * (submat * submat) => _).
    assert (G : forall l, mapM F (combine (map (fun _ : submat => mk_submat []) l) (combine (map (fun _ : submat => mk_submat []) l) (map (fun _ : submat => mk_submat []) l))) = Ok (map (fun _ => ([], [], [])) l)).
    { induction l as [|x l IH]; [reflexivity|]. cbn [map combine mapM]. rewrite IH. reflexivity. }
    rewrite G. cbn [bind]. destruct subs as [|s subs]; [contradiction|]. cbn [map]. eexists. f_equal. f_equal.
    assert (Z : forall (n : nat) l, concat (map (fun x : nat * (list irow * list irow * list irow) => map (fun r => (fst x, r)) (fst (fst (snd x)))) (combine (seq n (length (map (fun _ : submat => (@nil irow, @nil irow, @nil irow)) l))) (map (fun _ : submat => (@nil irow, @nil irow, @nil irow)) l))) = []).
    { intros n l. revert n. induction l as [|x l IH]; intros n; [reflexivity|]. cbn [map length seq combine concat fst snd app]. apply IH. }
    unfold numbered. specialize (Z 1 (s :: subs)). cbn [map] in Z. rewrite Z. reflexivity. }
  destruct I as [rows ->]. cbn [bind]. subst m. cbn [mt_subs]. destruct subs as [|s subs]; [contradiction|]. cbn [map]. unfold numbered. cbn [length seq combine mapM fst snd filter bind]. reflexivity. Qed.
Lemma info_subs E m i : update_info E m = Ok i -> mt_subs m <> [].
Proof. intros H N. destruct m as [nm subs]. cbn [mt_subs] in N. subst subs. cbv in H. discriminate. Qed.

(** ** twice *)
Lemma same_zaid_refl z : same_zaid z z. Proof. split; reflexivity. Qed.
Lemma same_frac (z z' : zaid) : same_zaid z z' -> (z_frac z == z_frac z')%Q. Proof. now intros [_ H]. Qed.
Lemma same_name z z' : same_zaid z z' -> z_name z = z_name z' /\ z_elem z = z_elem z'.
Proof. intros [H _]. unfold nuclide in H. injection H as H1 H2 H3. unfold z_name. now rewrite H1, H2, H3. Qed.
Section DictCong.
  Context {V W : Type} (R : V -> W -> Prop).
  Let RR (a : str * V) (b : str * W) : Prop := fst a = fst b /\ R (snd a) (snd b).
  Lemma dget_cong k d d' : Forall2 RR d d' -> match dget str_eqb k d, dget str_eqb k d' with Some v, Some w => R v w | None, None => True | _, _ => False end.
  Proof. induction 1 as [|[a v] [b w] d d' [H1 H2] _ IH]; [exact I|]. cbn [fst snd] in *. subst b. cbn [dget]. destruct (str_eqb _ _); [exact H2|exact IH]. Qed.
  Lemma dset_cong k v w d d' : R v w -> Forall2 RR d d' -> Forall2 RR (dset str_eqb k v d) (dset str_eqb k w d').
  Proof. intros Hv. induction 1 as [|[a v0] [b w0] d d' [H1 H2] F IH]; cbn [dset]; [constructor; [split; [reflexivity|exact Hv]|constructor]|]. cbn [fst snd] in *. subst b.
    destruct (str_eqb _ _); constructor; try assumption; split; cbn [fst snd]; auto. Qed.
End DictCong.
Lemma collapse_names_cong zs zs' : Forall2 same_zaid zs zs' -> Forall2 (fun a b => fst a = fst b /\ (snd a == snd b)%Q) (collapse_names zs) (collapse_names zs').
Proof. intros F. unfold collapse_names.
  assert (G : forall d d', Forall2 (fun (a b : str * Q) => fst a = fst b /\ (snd a == snd b)%Q) d d' ->
    Forall2 (fun (a b : str * Q) => fst a = fst b /\ (snd a == snd b)%Q)
      (fold_left (fun d z => dset str_eqb (z_name z) (match dget str_eqb (z_name z) d with Some f => (f + z_frac z)%Q | None => z_frac z end) d) zs d)
      (fold_left (fun d z => dset str_eqb (z_name z) (match dget str_eqb (z_name z) d with Some f => (f + z_frac z)%Q | None => z_frac z end) d) zs' d')).
  { induction F as [|z z' zs zs' Hz _ IH]; intros d d' Hd; [exact Hd|]. cbn [fold_left]. apply IH. destruct (same_name z z' Hz) as [N _]. rewrite <- N.
    apply (dset_cong Qeq); [|exact Hd]. pose proof (dget_cong Qeq (z_name z) d d' Hd) as G. pose proof (same_frac z z' Hz) as Fz.
    destruct (dget str_eqb (z_name z) d), (dget str_eqb (z_name z) d'); [lra|destruct G|destruct G|lra]. }
  apply G. constructor. Qed.
Lemma element_cong zs zs' : Forall2 same_zaid zs zs' -> Forall2 same_zaid (element_zaids zs) (element_zaids zs').
Proof. intros F. apply collapse_names_cong in F. unfold element_zaids. induction F as [|a b l l' [H1 H2] _ IH]; [constructor|]. cbn [map]. constructor; [|exact IH]. rewrite <- H1. split; [reflexivity|exact H2]. Qed.
Lemma group_cong zs zs' : Forall2 same_zaid zs zs' -> Forall2 (fun a b => fst a = fst b /\ Forall2 same_zaid (snd a) (snd b)) (group_elements zs) (group_elements zs').
Proof. intros F. unfold group_elements.
  assert (G : forall d d', Forall2 (fun (a b : str * list zaid) => fst a = fst b /\ Forall2 same_zaid (snd a) (snd b)) d d' ->
    Forall2 (fun (a b : str * list zaid) => fst a = fst b /\ Forall2 same_zaid (snd a) (snd b))
      (fold_left (fun d z => dset str_eqb (z_elem z) (match dget str_eqb (z_elem z) d with Some l => l ++ [z] | None => [z] end) d) zs d)
      (fold_left (fun d z => dset str_eqb (z_elem z) (match dget str_eqb (z_elem z) d with Some l => l ++ [z] | None => [z] end) d) zs' d')).
  { induction F as [|z z' zs zs' Hz _ IH]; intros d d' Hd; [exact Hd|]. cbn [fold_left]. apply IH. destruct (same_name z z' Hz) as [_ N]. rewrite <- N.
    apply (dset_cong (Forall2 same_zaid)); [|exact Hd]. pose proof (dget_cong (Forall2 same_zaid) (z_elem z) d d' Hd) as G.
    destruct (dget str_eqb (z_elem z) d), (dget str_eqb (z_elem z) d'); [|destruct G|destruct G|constructor; [exact Hz|constructor]].
    apply Forall2_app; [exact G|constructor; [exact Hz|constructor]]. }
  apply G. constructor. Qed.
Lemma collapse_cong zs zs' : Forall2 same_zaid zs zs' -> Forall2 (Forall2 same_zaid) (collapse zs) (collapse zs').
Proof. intros F. apply group_cong in F. unfold collapse. induction F as [|a b l l' [_ H] _ IH]; [constructor|]. cbn [map]. constructor; [now apply element_cong|exact IH]. Qed.

Lemma conv_default m zaid lib : distinct_libs m -> loaded m lib -> ~ natural zaid -> ~ carries m lib zaid -> ~ carries m lib (but3 zaid ++ s2l "000") -> carries m (l_default m) zaid ->
  convertZaid m zaid lib = Ok [(zaid, (Some (l_default m), 1%Q, 1%Q))].
Proof. intros D [x Hx] NN N1 N2 C. unfold convertZaid. pose proof (conv_loaded m lib x D Hx) as E. rewrite E.
  destruct (str_eqb (last3 zaid) zeros3) eqn:En; [exfalso; apply NN; now apply natural_iff|].
  destruct (memb str_eqb lib (check4zaid m zaid)) eqn:Em; [exfalso; apply N1, check4zaid_iff; now apply memb_str|].
  destruct (zaid_has_table x (but3 zaid ++ zeros3) lib) eqn:Ez; [exfalso; apply N2; now apply (carries_x m lib x)|].
  destruct (default_has_loaded m zaid D) as [b Hb]; [destruct C as [y [Hy _]]; now exists y|]. rewrite Hb. cbn [bind].
  pose proof (proj2 (default_has_ok m zaid b D Hb) C) as ->. reflexivity. Qed.

(** a zaid that the translation leaves as it is *)
Definition stable (E : matenv) (l : str) (z : zaid) : Prop := exists z', translate_zaid E (ToLib l) z = Ok [z'] /\ same_zaid z z'.
Lemma stable_one E l z o : length (z_iso z) = 3 -> ~ dosimetry E z -> convertZaid (m_lib E) (z_num z) l = Ok [(z_num z, (o, 1%Q, 1%Q))] -> z_lib z = o -> stable E l z.
Proof. intros L ND C El. unfold stable, translate_zaid, zaid_translation. cbn [pick_lib bind].
  destruct (match z_lib z with Some l0 => memb str_eqb l0 (m_dosim E) | None => false end) eqn:D; [exfalso; apply ND; now apply dosim_iff|].
  rewrite C. cbn [bind]. destruct (but3_app (z_elem z) (z_iso z) L) as [B1 B2]. fold (z_num z) in B1, B2.
  unfold new_zaids. cbn [map mapM fst snd bind qsum fold_right]. destruct (Qlt_le_dec (z_frac z) 0).
  - change (Qeq_bool (1 * 1 + 0) 0) with false. cbv iota. cbn [bind]. eexists. split; [reflexivity|]. rewrite B1, B2. split; [unfold nuclide; cbn; now rewrite El|]. cbn [z_frac]. field.
  - eexists. split; [reflexivity|]. rewrite B1, B2. split; [unfold nuclide; cbn; now rewrite El|]. cbn [z_frac]. ring. Qed.
Lemma stable_dosim E l z : length (z_iso z) = 3 -> dosimetry E z -> stable E l z.
Proof. intros L D. unfold stable, translate_zaid, zaid_translation. cbn [pick_lib bind]. rewrite (proj2 (dosim_iff E z) D). cbn [bind]. destruct (but3_app (z_elem z) (z_iso z) L) as [B1 B2]. fold (z_num z) in B1, B2.
  unfold new_zaids. cbn [map mapM fst snd bind qsum fold_right]. destruct (Qlt_le_dec (z_frac z) 0).
  - change (Qeq_bool (1 * 1 + 0) 0) with false. cbv iota. cbn [bind]. eexists. split; [reflexivity|]. rewrite B1, B2. split; [reflexivity|]. cbn [z_frac]. field.
  - eexists. split; [reflexivity|]. rewrite B1, B2. split; [reflexivity|]. cbn [z_frac]. ring. Qed.
Lemma dosim_dec E z : dosimetry E z \/ ~ dosimetry E z.
Proof. destruct (match z_lib z with Some l => memb str_eqb l (m_dosim E) | None => false end) eqn:D; [left|right]; rewrite <- dosim_iff; congruence. Qed.
Lemma stable_conv E l z o : length (z_iso z) = 3 -> convertZaid (m_lib E) (z_num z) l = Ok [(z_num z, (o, 1%Q, 1%Q))] -> z_lib z = o -> stable E l z.
Proof. intros L C El. destruct (dosim_dec E z) as [D|D]; [now apply stable_dosim|now apply (stable_one E l z o)]. Qed.

Lemma natural_a n a s : zaid_text n a s -> natural s -> a = 0%N.
Proof. intros T [e Ee]. destruct (zaid_text_parts n a s T) as [_ L3]. apply zaid_text_fmt in T. destruct T as [Ha _]. subst s. destruct (but3_app e (s2l "000") eq_refl) as [_ X]. rewrite X in L3.
  assert (zaid_text 0 a (str_of_N 0 ++ s2l "000")) as T by (apply zaid_text_fmt; split; [exact Ha|now rewrite L3]).
  destruct T as (d1 & d2 & d3 & T & H1 & H2 & H3 & ->). apply app_inv_head in T. injection T as T1 T2 T3.
  assert (G : forall d : N, (d < 10)%N -> "0"%char = dig_chr d -> d = 0%N).
  { intros d Hd Q. destruct (dig_chr_props d Hd) as (_ & V & _). rewrite <- V, <- Q. reflexivity. }
  apply G in T1; [|exact H1]. apply G in T2; [|exact H2]. apply G in T3; [|exact H3]. lia. Qed.
Lemma plain_but3 n a s : zaid_text n a s -> but3 s ++ s2l "000" = str_of_N n ++ s2l "000".
Proof. intros T. now rewrite (proj1 (zaid_text_parts n a s T)). Qed.
Lemma conv_is_loaded m zaid lib tr : convertZaid m zaid lib = Ok tr -> loaded m lib.
Proof. unfold convertZaid. destruct (dget str_eqb lib (l_data m)) as [x|] eqn:G; [|discriminate]. intros _. exists x. now apply (dget_some_in str_eqb str_eqb_eq). Qed.

Lemma block_stable E l z b : distinct_libs (m_lib E) -> wf_table (l_iso (m_lib E)) -> isotopes_only (l_iso (m_lib E)) -> wf_zaid z -> plain z ->
  translate_zaid E (ToLib l) z = Ok b -> Forall (stable E l) b.
Proof. intros D [WT ND] IO Wz [n [a T]] H. apply translate_zaid_ok in H; [|exact I|exact Wz]. destruct H as [l0 z' Tg Ds Nc Fr|l0 tr b Tg Ds C F|l0 Tg Ds C].
  - constructor; [|constructor]. unfold nuclide in Nc. injection Nc as E1 E2 E3. destruct Wz as (L & _). apply stable_dosim; [now rewrite E2|]. destruct Ds as [ld [H1 H2]]. exists ld. split; congruence.
  - cbn [target] in Tg. subst l0. pose proof (conv_is_loaded _ _ _ _ C) as LD. destruct (conv_ok _ _ _ _ D ND C) as [C1|N1 N2 C1|N1 N2 N3 C1|lx N1 N2 N3 N4 C1 SP|zn tr NA N2 P M FA].
    + inversion F as [|? z' ? b' [[K1 K2] [K3 _]] F']; subst. inversion F'; subst. cbn [fst snd] in *. constructor; [|constructor].
      assert (length (z_iso z') = 3) by (rewrite K2; pose proof (znum_long z (proj1 Wz)); lia). apply (stable_conv E l z' (Some l)); [assumption| |assumption]. unfold z_num at 1 2. rewrite <- K1. exact C.
    + inversion F as [|? z' ? b' [[K1 K2] [K3 _]] F']; subst. inversion F'; subst. cbn [fst snd] in *. constructor; [|constructor].
      assert (length (z_iso z') = 3) by (rewrite K2, app_length; cbn [length s2l list_ascii_of_string]; change (length (s2l "000")) with 3; lia). apply (stable_conv E l z' (Some l)); [assumption| |assumption]. unfold z_num at 1 2. rewrite <- K1. now apply conv_one.
    + inversion F as [|? z' ? b' [[K1 K2] [K3 _]] F']; subst. inversion F'; subst. cbn [fst snd] in *. constructor; [|constructor].
      assert (length (z_iso z') = 3) by (rewrite K2; pose proof (znum_long z (proj1 Wz)); lia). apply (stable_conv E l z' (Some (l_default (m_lib E)))); [assumption| |assumption]. unfold z_num at 1 2. rewrite <- K1. exact C.
    + inversion F as [|? z' ? b' [[K1 K2] [K3 _]] F']; subst. inversion F'; subst. cbn [fst snd] in *. constructor; [|constructor].
      assert (length (z_iso z') = 3) by (rewrite K2; pose proof (znum_long z (proj1 Wz)); lia). apply (stable_conv E l z' None); [assumption| |assumption]. unfold z_num at 1 2. rewrite <- K1. exact C.
    + rewrite Forall_forall. intros z' Hz'. destruct (Forall2_in_r _ _ _ _ F Hz') as [kv [Hk [[K1 K2] [K3 _]]]].
      assert (Q : In (fst kv, snd (fst (snd kv)), snd (snd kv)) (map (fun r => (r_idx r, r_abund r, r_mass r)) (filter (fun r => Z.eqb (Z.of_N (r_Z r)) zn) (l_iso (m_lib E))))).
      { rewrite <- M. now apply (in_map (fun e : str * transl => (fst e, snd (fst (snd e)), snd (snd e)))). }
      apply in_map_iff in Q. destruct Q as [r [Er Hr]]. apply filter_In in Hr. destruct Hr as [Hr Ez]. apply Z.eqb_eq in Ez. assert (E1 : r_idx r = fst kv) by (apply (f_equal (fun t => fst (fst t))) in Er; exact Er).
      pose proof (proj1 (WT r Hr)) as Tr. destruct (zaid_text_clean _ _ _ Tr) as [_ L3]. rewrite E1 in L3, Tr.
      assert (L : length (z_iso z') = 3) by (rewrite K2; lia).
      rewrite Forall_forall in FA. destruct (FA kv Hk) as [ln [El [Cl Or]]].
      destruct kv as [k [[o q1] q2]]. cbn [fst snd] in *. rewrite El in K3.
      apply (stable_conv E l z' (Some ln)); [exact L| |exact K3]. unfold z_num at 1 2. rewrite <- K1.
      destruct Or as [->|[-> NC]]; [now apply conv_one|]. apply conv_default; [exact D|exact LD| |exact NC| |exact Cl].
      * intros NA'. apply (IO r Hr). exact (natural_a _ _ _ Tr NA').
      * rewrite (plain_but3 _ _ _ Tr). destruct (zaid_text_parts _ _ _ T) as [B3 _]. unfold z_num in *. rewrite B3, parse_int_N in P. injection P as P. assert (r_Z r = n) as -> by lia.
        destruct NA as [e0 NA]. rewrite NA in B3. destruct (but3_app e0 (s2l "000") eq_refl) as [X _]. rewrite X in B3. subst e0. now rewrite <- NA.
  - constructor. Qed.

Lemma sub_twice E l s s' : distinct_libs (m_lib E) -> wf_table (l_iso (m_lib E)) -> isotopes_only (l_iso (m_lib E)) -> Forall wf_zaid (s_zaids s) -> Forall plain (s_zaids s) ->
  translate_sub E (ToLib l) s = Ok s' -> exists s'', translate_sub E (ToLib l) s' = Ok s'' /\ same_sub s' s''.
Proof. intros D WT IO Wz Pl. unfold translate_sub. destruct (mapM (translate_zaid E (ToLib l)) (s_zaids s)) as [bs|e] eqn:M; cbn [bind]; [|discriminate]. intros H. injection H as <-. cbn [mk_submat s_zaids].
  apply mapM_Forall2 in M. assert (F : Forall (stable E l) (concat bs)).
  { revert Wz Pl. induction M as [|z b zs bs Hb _ IH]; intros Wz Pl; [constructor|]. inversion Wz; subst. inversion Pl; subst. cbn [concat]. apply Forall_app. split; [eapply block_stable; eauto|now apply IH]. }
  clear M Wz Pl. assert (G : exists zs', mapM (translate_zaid E (ToLib l)) (concat bs) = Ok (map (fun z => [z]) zs') /\ Forall2 same_zaid (concat bs) zs').
  { induction F as [|z zs [z' [Hz Sz]] _ IH]; [exists []; split; [reflexivity|constructor]|]. destruct IH as [zs' [IH1 IH2]]. exists (z' :: zs'). cbn [mapM map]. rewrite Hz, IH1. cbn [bind]. split; [reflexivity|now constructor]. }
  destruct G as [zs' [-> G]]. cbn [bind]. eexists. split; [reflexivity|]. assert (C : concat (map (fun z : zaid => [z]) zs') = zs') by (clear; induction zs' as [|z l IH]; [reflexivity|cbn [map concat app]; now rewrite IH]). rewrite C.
  split; [exact G|]. cbn [mk_submat s_elems]. now apply collapse_cong. Qed.
Lemma subs_twice E l subs subs' : distinct_libs (m_lib E) -> wf_table (l_iso (m_lib E)) -> isotopes_only (l_iso (m_lib E)) -> Forall (fun s => Forall wf_zaid (s_zaids s) /\ Forall plain (s_zaids s)) subs ->
  translate_subs E (ToLib l) subs = (subs', None) -> exists subs'', translate_subs E (ToLib l) subs' = (subs'', None) /\ Forall2 same_sub subs' subs''.
Proof. intros D WT IO W H. apply translate_subs_ok in H. induction H as [|s s' subs subs' Hs _ IH]; [exists []; split; [reflexivity|constructor]|]. inversion W as [|? ? [W1 W2] W']; subst.
  destruct (IH W') as [r [R1 R2]]. destruct (sub_twice E l s s' D WT IO W1 W2 Hs) as [s'' [H1 H2]]. exists (s'' :: r). cbn [translate_subs]. rewrite H1, R1. split; [reflexivity|now constructor]. Qed.
Lemma list_twice E l ms ms' : distinct_libs (m_lib E) -> wf_table (l_iso (m_lib E)) -> isotopes_only (l_iso (m_lib E)) -> Forall (fun m => Forall wf_zaid (all_zaids m) /\ Forall plain (all_zaids m)) ms ->
  translate_list E (ToLib l) ms = (ms', None) -> exists ms'', translate_list E (ToLib l) ms' = (ms'', None) /\ Forall2 same_mat ms' ms''.
Proof. intros D WT IO W H. apply translate_list_ok in H. induction H as [|m m' ms ms' Hm _ IH]; [exists []; split; [reflexivity|constructor]|]. inversion W as [|? ? [W1 W2] W']; subst.
  destruct (IH W') as [r [R1 R2]]. unfold translate_mat in Hm. destruct (translate_subs E (ToLib l) (mt_subs m)) as [subs' o] eqn:T. injection Hm as <- ->.
  assert (WS : Forall (fun s => Forall wf_zaid (s_zaids s) /\ Forall plain (s_zaids s)) (mt_subs m)).
  { unfold all_zaids in W1, W2. rewrite !Forall_concat in *. rewrite Forall_forall in W1. rewrite Forall_forall in W2. apply Forall_forall. intros s Hs. split; [apply W1|apply W2]; now apply (in_map s_zaids). }
  destruct (subs_twice E l _ _ D WT IO WS T) as [subs'' [T1 T2]]. exists (mkmat (mt_name m) subs'' :: r). cbn [translate_list]. unfold translate_mat at 1. cbn [mt_subs mt_name]. rewrite T1, R1. split; [reflexivity|]. constructor; [split; [reflexivity|exact T2]|exact R2]. Qed.

(** ** decode *)
Lemma decode_iff loads a a' : decode loads a = Ok a' <-> meaning loads a a'.
Proof. split.
  - destruct a as [[|c t]|d]; cbn [decode].
    + discriminate.
    + destruct (Ascii.eqb_spec c "{"%char) as [->|N].
      * destruct (loads _) as [d|e] eqn:L; cbn [bind]; [|discriminate]. intros H. injection H as <-. apply M_json; [now exists t|exact L].
      * intros H. injection H as <-. apply M_name; [discriminate|]. intros [r Hr]. injection Hr as H1 _. contradiction.
    + intros H. injection H as <-. constructor.
  - intros [t N B|t d [r ->] L|d]; cbn [decode].
    + destruct t as [|c t]; [contradiction|]. destruct (Ascii.eqb_spec c "{"%char) as [->|_]; [exfalso; apply B; now exists t|reflexivity].
    + change (Ascii.eqb "{" "{") with true. cbv iota. now rewrite L.
    + reflexivity. Qed.
Lemma starts_iff w s : starts w s = true <-> exists q, s = w ++ q.
Proof. revert s. induction w as [|a w IH]; intros s; cbn [starts]; [split; [intros _; now exists s|reflexivity]|]. destruct s as [|b s]; [split; [discriminate|intros [q H]; discriminate]|].
  rewrite andb_true_iff, Ascii.eqb_eq, IH. split; [intros [-> [q ->]]; now exists q|]. intros [q H]. injection H as -> ->. split; [reflexivity|now exists q]. Qed.
Lemma occurs_iff w s : occurs w s = true <-> exists p q, s = p ++ w ++ q.
Proof. induction s as [|c s IH]; cbn [occurs]; rewrite orb_true_iff, starts_iff.
  - split; [intros [[q H]|H]; [exists [], q; exact H|discriminate]|]. intros (p & q & H). left. destruct p; [now exists q|discriminate].
  - rewrite IH. split.
    + intros [[q H]|(p & q & ->)]; [now exists [], q|now exists (c :: p), q].
    + intros (p & q & H). destruct p as [|c' p]; [left; now exists q|right]. injection H as -> ->. now exists p, q. Qed.
Lemma member_iff num v : (member num v = Ok true <-> holds num v) /\ (member num v = Ok false <-> v <> VOther /\ ~ holds num v) /\ (member num v = Err TypeError <-> v = VOther).
Proof. destruct v as [s|l|]; cbn [member holds].
  - rewrite <- occurs_iff. destruct (occurs num s); repeat split; try discriminate; try congruence; try tauto; intros [_ H]; exfalso; now apply H.
  - rewrite <- (memb_str num l). destruct (memb str_eqb num l); repeat split; try discriminate; try congruence; try tauto; intros [_ H]; exfalso; now apply H.
  - repeat split; try discriminate; try tauto. Qed.
Lemma find_lib_iff num d l : find_lib num d = Ok l <-> exists d1 v d2, d = d1 ++ (l, v) :: d2 /\ holds num v /\ forall l' v', In (l', v') d1 -> v' <> VOther /\ ~ holds num v'.
Proof. induction d as [|[k v] d IH]; cbn [find_lib].
  - split; [discriminate|]. intros (d1 & v & d2 & H & _). destruct d1; discriminate.
  - destruct (member_iff num v) as [M1 [M2 M3]]. destruct (member num v) as [[|]|e] eqn:M; cbn [bind].
    + split.
      * intros H. injection H as <-. exists [], v, d. split; [reflexivity|]. split; [now apply M1|]. intros ? ? [].
      * intros (d1 & v0 & d2 & H & Hv & Hn). destruct d1 as [|x d1]; [injection H as -> _ _; reflexivity|]. injection H as <- _. exfalso. apply (Hn k v); [now left|now apply M1].
    + rewrite IH. split.
      * intros (d1 & v0 & d2 & -> & Hv & Hn). exists ((k, v) :: d1), v0, d2. split; [reflexivity|]. split; [exact Hv|]. intros l' v' [H|H]; [injection H as <- <-; now apply M2|now apply (Hn l')].
      * intros (d1 & v0 & d2 & H & Hv & Hn). destruct d1 as [|x d1].
        -- injection H as _ -> _. exfalso. now apply (proj1 M2 eq_refl).
        -- injection H as <- ->. exists d1, v0, d2. split; [reflexivity|]. split; [exact Hv|]. intros l' v' H'. apply (Hn l' v'). now right.
    + split; [discriminate|]. assert (v = VOther) as -> by (destruct v; try discriminate; reflexivity). intros (d1 & v0 & d2 & H & Hv & Hn). destruct d1 as [|x d1]; [injection H as _ <- _; destruct Hv|]. injection H as <- _. exfalso. now apply (proj1 (Hn k VOther (or_introl eq_refl))). Qed.
Lemma find_lib_err num d e : find_lib num d = Err e -> (e = ValueError /\ forall l v, In (l, v) d -> v <> VOther /\ ~ holds num v) \/
  (e = TypeError /\ exists d1 l d2, d = d1 ++ (l, VOther) :: d2 /\ forall l' v', In (l', v') d1 -> ~ holds num v').
Proof. induction d as [|[k v] d IH]; cbn [find_lib]; [intros H; injection H as <-; left; split; [reflexivity|intros ? ? []]|].
  destruct (member_iff num v) as [M1 [M2 M3]]. destruct (member num v) as [[|]|e0] eqn:M; cbn [bind]; [discriminate| |].
  - intros H. destruct (IH H) as [[-> G]|[-> (d1 & l & d2 & -> & G)]]; [left|right]; (split; [reflexivity|]).
    + intros l' v' [Q|Q]; [injection Q as <- <-; now apply M2|now apply (G l')].
    + exists ((k, v) :: d1), l, d2. split; [reflexivity|]. intros l' v' [Q|Q]; [injection Q as <- <-; now apply M2|now apply (G l')].
  - intros H. injection H as <-. right. destruct v; try discriminate. injection M as <-. split; [reflexivity|]. exists [], k, d. split; [reflexivity|]. intros ? ? []. Qed.
