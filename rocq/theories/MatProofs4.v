From Coq Require Import Lia Lqa.
From Verif Require Import PyBase PyLemmas PyStr PyStrLemmas PyText WWTextProofs D1SProofs2 LibModel LibSpec LibProofs LibProofs2 LibProofs3 MatModel MatSpec MatProofs MatProofs2 MatProofs3.
Open Scope nat_scope.

Section L.
  Context {A : Type} (name : A -> str) (same : A -> A -> bool).
  Definition lastf (o : option A) (z : A) : A := z.
  Lemma compute_acc l : compute_dic name l = acc (fun m => upper (name m)) lastf [] l. Proof. reflexivity. Qed.
  Lemma feed_last l : forall o m, feed lastf o (l ++ [m]) = Some m.
  Proof. intros o m. unfold feed. rewrite fold_left_app. reflexivity. Qed.
  Lemma feed_in l : forall o m, feed lastf o l = Some m -> l <> [] -> exists l1, l = l1 ++ [m].
  Proof. intros o m H N. destruct (exists_last N) as [l1 [x ->]]. rewrite feed_last in H. injection H as ->. now exists l1. Qed.
  Lemma filter_split (p : A -> bool) l l1 m : filter p l = l1 ++ [m] -> exists a b, l = a ++ m :: b /\ p m = true /\ forall x, In x b -> p x = false.
  Proof. revert l1. induction l as [|x l IH]; intros l1 H; cbn [filter] in H; [destruct l1; discriminate|]. destruct (p x) eqn:P.
    - destruct l1 as [|y l1]; cbn [app] in H.
      + injection H as -> F. exists [], l. split; [reflexivity|]. split; [exact P|]. intros y Hy. destruct (p y) eqn:Py; [|reflexivity].
        assert (Q : In y (filter p l)) by now apply filter_In. rewrite F in Q. destruct Q.
      + injection H as -> F. destruct (IH l1 F) as [a [b [-> [Pm Hb]]]]. exists (y :: a), b. auto.
    - destruct (IH l1 H) as [a [b [-> [Pm Hb]]]]. exists (x :: a), b. auto. Qed.
  Lemma split_filter (p : A -> bool) a m b : p m = true -> (forall x, In x b -> p x = false) -> filter p (a ++ m :: b) = filter p a ++ [m].
  Proof. intros Pm H. rewrite filter_app. f_equal. cbn [filter]. rewrite Pm. f_equal. induction b as [|x b IH]; [reflexivity|]. cbn [filter]. rewrite (H x (or_introl eq_refl)). apply IH. intros y Hy. apply H. now right. Qed.
  Lemma compute_get l k m : dget str_eqb (upper k) (compute_dic name l) = Some m <-> last_named name k l m.
  Proof. rewrite compute_acc, acc_get. cbn [dget]. split.
    - intros H. destruct (filter (fun z => str_eqb (upper (name z)) (upper k)) l) as [|x l0] eqn:F; [discriminate|].
      destruct (feed_in _ _ _ H) as [l1 E]; [discriminate|]. rewrite E in F. apply filter_split in F. destruct F as [a [b [-> [Pm Hb]]]].
      exists a, b. split; [reflexivity|]. split; [now apply str_eqb_eq|]. intros m' Hm Q. specialize (Hb m' Hm). apply str_eqb_eq in Q. congruence.
    - intros [a [b [-> [Em Hb]]]]. rewrite split_filter.
      + apply feed_last.
      + now apply str_eqb_eq.
      + intros x Hx. apply str_eqb_neq. now apply Hb. Qed.
  Lemma compute_keys l : map fst (compute_dic name l) = firsts (names name l).
  Proof. rewrite compute_acc, acc_keys. reflexivity. Qed.
  Definition synced (L : matlist A) : Prop := ml_dic L = compute_dic name (ml_list L).
  Lemma new_synced l : synced (ml_new name l). Proof. reflexivity. Qed.
  Lemma op_synced L o : synced L -> synced (do_op name same L o).
  Proof. destruct o; intros H; cbn [do_op]; try reflexivity. unfold ml_remove. destruct (existsb (same m) (ml_list L)); [reflexivity|exact H]. Qed.
  Lemma ops_synced ops : forall L, synced L -> synced (fold_left (do_op name same) ops L).
  Proof. induction ops as [|o ops IH]; intros L H; [exact H|]. cbn [fold_left]. apply IH. now apply op_synced. Qed.
  Lemma get_ok L k m : synced L -> (ml_get L k = Ok m <-> last_named name k (ml_list L) m).
  Proof. intros H. unfold ml_get. rewrite H, <- compute_get. destruct (dget str_eqb (upper k) (compute_dic name (ml_list L))); cbn [of_opt]; split; congruence. Qed.
  Lemma last_exists l k : In (upper k) (names name l) -> exists m, last_named name k l m.
  Proof. intros H. destruct (dget str_eqb (upper k) (compute_dic name l)) as [m|] eqn:E; [exists m; now apply compute_get|].
    apply (dget_none_iff str_eqb str_eqb_eq) in E. exfalso. apply E. unfold dkeys. rewrite compute_keys. apply firsts_aux_in. split; [exact H|intros []]. Qed.
  Lemma get_err L k : synced L -> (ml_get L k = Err KeyError <-> ~ In (upper k) (names name (ml_list L))).
  Proof. intros H. split.
    - intros G Q. destruct (last_exists _ _ Q) as [m Hm]. apply (get_ok L k m H) in Hm. congruence.
    - intros N. destruct (ml_get L k) as [m|e] eqn:G.
      + exfalso. apply (get_ok L k m H) in G. destruct G as [a [b [E [Em _]]]]. apply N. unfold names. rewrite E. rewrite map_app. apply in_or_app. right. left. exact Em.
      + unfold ml_get in G. destruct (dget _ _ _); cbn [of_opt] in G; congruence. Qed.
  Lemma extend_list (L : matlist A) ms : forall l, fold_left (fun l m => if dmem str_eqb (upper (name m)) (ml_dic L) then l else l ++ [m]) ms l =
    l ++ filter (fun m => negb (dmem str_eqb (upper (name m)) (ml_dic L))) ms.
  Proof. induction ms as [|m ms IH]; intros l; cbn [fold_left filter]; [now rewrite app_nil_r|]. rewrite IH. destruct (dmem str_eqb (upper (name m)) (ml_dic L)); cbn [negb]; [reflexivity|]. now rewrite <- app_assoc. Qed.
  Lemma dmem_iff (L : matlist A) k : synced L -> (dmem str_eqb k (ml_dic L) = true <-> In k (names name (ml_list L))).
  Proof. intros H. unfold dmem. rewrite H. destruct (dget str_eqb k (compute_dic name (ml_list L))) eqn:E.
    - split; [intros _|reflexivity]. apply (dget_some_in str_eqb str_eqb_eq) in E. apply (in_map fst) in E. rewrite compute_keys in E. apply firsts_aux_in in E. apply E.
    - split; [discriminate|]. intros Q. apply (dget_none_iff str_eqb str_eqb_eq) in E. exfalso. apply E. unfold dkeys. rewrite compute_keys. apply firsts_aux_in. split; [exact Q|intros []]. Qed.
  Lemma extend_ok L ms : synced L -> exists new, ml_list (ml_extend name L ms) = ml_list L ++ new /\ (forall m, In m new <-> In m ms /\ ~ In (upper (name m)) (names name (ml_list L))) /\
     (NoDup (names name ms) -> NoDup (names name new)).
  Proof. intros H. exists (filter (fun m => negb (dmem str_eqb (upper (name m)) (ml_dic L))) ms). split; [|split].
    - unfold ml_extend, ml_new. cbn [ml_list]. apply extend_list.
    - intros m. rewrite filter_In. rewrite <- (dmem_iff L _ H). destruct (dmem _ _ _); cbn [negb]; split; intros [? ?]; split; congruence.
    - intros N. unfold names. now apply nodup_map_filter. Qed.
End L.
Lemma remove_first_names {A} (name : A -> str) (p : A -> bool) l : NoDup (names name l) -> NoDup (names name (remove_first p l)).
Proof. unfold names. induction l as [|x l IH]; intros N; [exact N|]. cbn [remove_first]. cbn [map] in N. inversion N; subst. destruct (p x); [assumption|]. cbn [map]. constructor; [|now apply IH].
  intros Q. apply H1. clear - Q. induction l as [|y l IH]; [destruct Q|]. cbn [remove_first] in Q. destruct (p y); [right; exact Q|]. cbn [map] in *. destruct Q as [Q|Q]; [left; exact Q|right; now apply IH]. Qed.
Lemma nodup_app {A} (a b : list A) : NoDup a -> NoDup b -> (forall x, In x a -> ~ In x b) -> NoDup (a ++ b).
Proof. induction 1 as [|x a Hx Na IH]; intros Nb D; [exact Nb|]. cbn [app]. constructor.
  - rewrite in_app_iff. intros [Q|Q]; [contradiction|]. exact (D x (or_introl eq_refl) Q).
  - apply IH; [exact Nb|]. intros y Hy. apply D. now right. Qed.

(** translation of a whole list *)
Lemma translate_subs_ok E nl l r : translate_subs E nl l = (r, None) -> Forall2 (fun s s' => translate_sub E nl s = Ok s') l r.
Proof. revert r. induction l as [|s l IH]; intros r H; cbn [translate_subs] in H; [injection H as <-; constructor|].
  destruct (translate_sub E nl s) as [s'|e] eqn:T; [|discriminate]. destruct (translate_subs E nl l) as [r' o]. injection H as <- ->. constructor; auto. Qed.
Lemma translate_list_ok E nl l r : translate_list E nl l = (r, None) -> Forall2 (fun m m' => translate_mat E nl m = (m', None)) l r.
Proof. revert r. induction l as [|m l IH]; intros r H; cbn [translate_list] in H; [injection H as <-; constructor|].
  destruct (translate_mat E nl m) as [m' [e|]] eqn:T; [discriminate|]. destruct (translate_list E nl l) as [r' o]. injection H as <- ->. constructor; auto. Qed.
Lemma translate_mat_ok E nl m m' : translate_mat E nl m = (m', None) -> mt_name m' = mt_name m /\ Forall2 (fun s s' => translate_sub E nl s = Ok s') (mt_subs m) (mt_subs m').
Proof. unfold translate_mat. destruct (translate_subs E nl (mt_subs m)) as [l o] eqn:T. intros H. injection H as <- ->. split; [reflexivity|]. now apply translate_subs_ok. Qed.

(** mixtures *)
Lemma contribution_ok E t (L : matlist material) np group : contribution E t L np = Ok group ->
  exists m m1 r, ml_get L (upper (fst np)) = Ok m /\ switch_inplace t E m = Ok (m1, r) /\ mixes t m1 (snd np) group.
Proof. unfold contribution. destruct (ml_get L (upper (fst np))) as [m|e] eqn:G; cbn [bind]; [|discriminate].
  destruct (switch_inplace t E m) as [[m1 r]|e] eqn:S; cbn [bind]; [|discriminate].
  destruct (mapM _ (mt_subs m1)) as [g|e] eqn:M; cbn [bind]; [|discriminate]. intros H. exists m, m1, r. split; [reflexivity|]. split; [exact S|].
  destruct g as [|g0 g]; [discriminate|]. injection H as <-. apply mapM_Forall2 in M. assert (NE : mt_subs m1 <> []) by (intros Q; rewrite Q in M; inversion M).
  assert (NT : ~ (tot_fraction m1 == 0)%Q). { intros Q. inversion M as [|s0 g1 l0 l1 HX _ EX1 EX2]. unfold qdiv in HX. apply Qeq_bool_iff in Q. rewrite Q in HX. discriminate. }
  split; [exact NT|]. split; [exact NE|]. revert M. apply Forall2_impl. intros s s' H. rewrite qdiv_ok in H by exact NT. cbn [bind] in H. injection H as <-. split; [|reflexivity].
  unfold scale_sub. cbn [mk_submat s_zaids]. apply Forall2_map_r. induction (s_zaids s) as [|z l IH]; constructor; [|exact IH]. split; [reflexivity|]. cbn [z_frac]. destruct t; cbn [signed]; field; exact NT. Qed.

Definition group_total (g : list submat) : Q := qsum (map z_frac (concat (map s_zaids g))).
Lemma Forall2_concat {A B} (R : A -> B -> Prop) (l : list (list A)) (l' : list (list B)) : Forall2 (Forall2 R) l l' -> Forall2 R (concat l) (concat l').
Proof. induction 1 as [|a b l l' H _ IH]; [constructor|]. cbn [concat]. now apply Forall2_app. Qed.
Lemma Forall2_maps {A B C D} (R : C -> D -> Prop) (f : A -> C) (g : B -> D) l l' : Forall2 (fun x y => R (f x) (g y)) l l' -> Forall2 R (map f l) (map g l').
Proof. induction 1; constructor; assumption. Qed.
Lemma mixes_total t m1 p g : mixes t m1 p g -> (group_total g == signed t p)%Q.
Proof. intros [NT [NE F]]. unfold group_total.
  assert (F' : Forall2 (fun z z' => (signed t (p * (z_frac z / tot_fraction m1)) == z_frac z')%Q) (all_zaids m1) (concat (map s_zaids g))).
  { unfold all_zaids. apply Forall2_concat. apply Forall2_maps. revert F. apply Forall2_impl. intros s s' [H _]. revert H. apply Forall2_impl. intros z z' [_ H]. symmetry. exact H. }
  rewrite <- (qsum_Forall2 (fun z => signed t (p * (z_frac z / tot_fraction m1))) z_frac _ _ F').
  transitivity (qsum (map (fun z => z_frac z * (signed t p / tot_fraction m1))%Q (all_zaids m1))).
  - apply qsum_map_ext. intros z _. destruct t; cbn [signed]; field; exact NT.
  - rewrite qsum_scale. change (tot_fraction m1 * (signed t p / tot_fraction m1) == signed t p)%Q. field. exact NT. Qed.

Lemma mk_material_zaids name subs : all_zaids (mk_material name subs) = concat (map s_zaids subs).
Proof. unfold all_zaids, mk_material. cbn [mt_subs]. destruct subs as [|s l]; [reflexivity|]. destruct (s_zaids s) eqn:E; [|reflexivity]. cbn [map concat]. rewrite E. reflexivity. Qed.
Lemma mk_material_subs name subs : mt_subs (mk_material name subs) = subs \/ exists s, subs = s :: mt_subs (mk_material name subs) /\ s_zaids s = [].
Proof. unfold mk_material. cbn [mt_subs]. destruct subs as [|s l]; [left; reflexivity|]. destruct (s_zaids s) eqn:E; [right; exists s; auto|left; reflexivity]. Qed.
Lemma mapM_Forall2_np {A B} (f : A -> res B) l r : mapM f l = Ok r -> Forall2 (fun x y => f x = Ok y) l r.
Proof. apply mapM_Forall2. Qed.
Lemma generate_ok E L nms percs lib t mat_name L1 m : generate_material E L nms percs lib t mat_name = Ok (L1, m) ->
  exists l groups, translate_list E (ToLib lib) (ml_list L) = (l, None) /\ L1 = ml_new mt_name l /\
    Forall2 (fun np g => exists src m1 r, last_named mt_name (upper (fst np)) l src /\ switch_inplace t E src = Ok (m1, r) /\ mixes t m1 (snd np) g) (combine nms percs) groups /\
    m = mk_material (if valid_mat_name mat_name then mat_name else s2l "M1") (concat groups).
Proof. unfold generate_material. destruct (translate_list E (ToLib lib) (ml_list L)) as [l [e|]] eqn:T; [discriminate|].
  destruct (mapM _ (combine nms percs)) as [groups|e] eqn:M; cbn [bind]; [|discriminate]. intros H. injection H as <- <-. exists l, groups. split; [reflexivity|]. split; [reflexivity|]. split; [|reflexivity].
  apply mapM_Forall2 in M. revert M. apply Forall2_impl. intros np g H. apply contribution_ok in H. destruct H as [src [m1 [r [G [S X]]]]]. exists src, m1, r. split; [|auto].
  apply (get_ok mt_name (ml_new mt_name l) _ _ (new_synced mt_name l)) in G. exact G. Qed.
Lemma total_concat gs : (qsum (map z_frac (concat (map s_zaids (concat gs)))) == qsum (map group_total gs))%Q.
Proof. induction gs as [|g gs IH]; [reflexivity|]. cbn [concat map]. rewrite map_app, concat_app, map_app, qsum_app, qsum_cons, IH. reflexivity. Qed.
Lemma Forall2_length {A B} (R : A -> B -> Prop) l l' : Forall2 R l l' -> length l = length l'.
Proof. induction 1; [reflexivity|cbn [length]; congruence]. Qed.
