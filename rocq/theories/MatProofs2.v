From Coq Require Import Lia Lqa.
From Verif Require Import PyBase PyLemmas PyStr PyStrLemmas PyText WWTextProofs D1SProofs2 LibModel LibSpec LibProofs LibProofs2 LibProofs3 MatModel MatSpec MatProofs.
Open Scope nat_scope.

Lemma target_fun nl z l l' : wf_newlib nl -> target nl z l -> target nl z l' -> l = l'.
Proof. destruct nl as [l0|d|d]; cbn [target wf_newlib]; intros W H H'.
  - congruence.
  - destruct H as [o [E I]], H' as [o' [E' I']]. rewrite E in E'. injection E' as <-.
    apply (in_dget str_eqb str_eqb_eq _ _ _ W) in I. apply (in_dget str_eqb str_eqb_eq _ _ _ W) in I'. congruence.
  - destruct H as (d1 & zs & d2 & -> & I & N), H' as (d1' & zs' & d2' & E & I' & N').
    revert d1' E N'. induction d1 as [|x d1 IH]; intros [|x' d1'] E N'; cbn [app] in E.
    + congruence.
    + injection E as <- _. exfalso. exact (N' l zs (or_introl eq_refl) I).
    + injection E as -> _. exfalso. exact (N l' zs' (or_introl eq_refl) I').
    + injection E as <- E. refine (IH (fun a b q => N a b (or_intror q)) d1' E _). intros a b q. apply (N' a b). right. exact q. Qed.
Lemma pick_lib_ok nl z l : wf_newlib nl -> (pick_lib nl z = Ok l <-> target nl z l).
Proof. destruct nl as [l0|d|d]; cbn [target pick_lib wf_newlib]; intros W.
  - split; [intros H; injection H; auto|intros ->; reflexivity].
  - destruct (z_lib z) as [o|]; [|split; [discriminate|intros [o [Q _]]; discriminate]].
    split.
    + intros H. exists o. split; [reflexivity|]. destruct (dget str_eqb o d) eqn:E; [|discriminate]. injection H as <-. now apply (dget_some_in str_eqb str_eqb_eq).
    + intros [o' [Q I]]. injection Q as <-. apply (in_dget str_eqb str_eqb_eq _ _ _ W) in I. rewrite I. reflexivity.
  - induction d as [|[l1 zs] d IH]; cbn [find snd].
    + split; [discriminate|]. intros (d1 & a & d2 & E & _). destruct d1; discriminate.
    + destruct (memb str_eqb (z_num z) zs) eqn:M.
      * apply memb_str in M. split.
        -- intros H. injection H as <-. exists [], zs, d. split; [reflexivity|]. split; [exact M|intros ? ? []].
        -- intros (d1 & a & d2 & E & I & N). destruct d1 as [|x d1]; cbn [app] in E; [injection E as <- _ _; reflexivity|].
           injection E as <- _. exfalso. exact (N l1 zs (or_introl eq_refl) M).
      * assert (M' : ~ In (z_num z) zs) by (intros Q; apply memb_str in Q; congruence). rewrite IH. split.
        -- intros (d1 & a & d2 & -> & I1 & N). exists ((l1, zs) :: d1), a, d2. split; [reflexivity|]. split; [exact I1|].
           intros l' zs' [Q|Q]; [injection Q as <- <-; exact M'|exact (N l' zs' Q)].
        -- intros (d1 & a & d2 & E & I1 & N). destruct d1 as [|x d1]; cbn [app] in E; [injection E as _ <- _; contradiction|].
           injection E as _ ->. exists d1, a, d2. split; [reflexivity|]. split; [exact I1|]. intros l' zs' Q. apply (N l' zs'). right. exact Q. Qed.
Lemma pick_lib_err nl z e : wf_newlib nl -> pick_lib nl z = Err e -> e = ValueError /\ forall l, ~ target nl z l.
Proof. intros W H. split.
  - destruct nl as [l0|d|d]; cbn [pick_lib] in H; [discriminate| |].
    + destruct (z_lib z); [destruct (dget str_eqb _ d); cbn in H; congruence|congruence].
    + destruct (find _ d) as [[? ?]|]; congruence.
  - intros l T. apply (pick_lib_ok nl z l W) in T. congruence. Qed.

Lemma dosim_iff E z : (match z_lib z with Some l => memb str_eqb l (m_dosim E) | None => false end = true) <-> dosimetry E z.
Proof. unfold dosimetry. destruct (z_lib z) as [l|].
  - rewrite memb_str. split; [eauto|]. intros [l' [Q I]]. injection Q as ->. exact I.
  - split; [discriminate|]. intros [l [Q _]]. discriminate. Qed.

Lemma Forall2_impl {A B} (R S : A -> B -> Prop) l l' : (forall x y, R x y -> S x y) -> Forall2 R l l' -> Forall2 S l l'.
Proof. intros H. induction 1; constructor; auto. Qed.
Lemma Forall2_map_r {A B C} (R : A -> C -> Prop) (f : B -> C) l l' : Forall2 (fun x y => R x (f y)) l l' -> Forall2 R l (map f l').
Proof. induction 1; constructor; assumption. Qed.
Lemma mapM_Forall2 {A B} (f : A -> res B) l r : mapM f l = Ok r -> Forall2 (fun x y => f x = Ok y) l r.
Proof. revert r. induction l as [|x l IH]; cbn [mapM]; intros r H; [injection H as <-; constructor|].
  destruct (f x) as [y|e] eqn:E; cbn [bind] in H; [|discriminate]. destruct (mapM f l) as [t|e]; cbn [bind] in H; [|discriminate]. injection H as <-. constructor; auto. Qed.
Lemma Forall2_mapM {A B} (f : A -> res B) l r : Forall2 (fun x y => f x = Ok y) l r -> mapM f l = Ok r.
Proof. induction 1 as [|x y l r H _ IH]; [reflexivity|]. cbn [mapM]. rewrite H, IH. reflexivity. Qed.
Lemma mapM_err {A B} (f : A -> res B) l e : mapM f l = Err e -> exists x, In x l /\ f x = Err e.
Proof. induction l as [|x l IH]; cbn [mapM]; intros H; [discriminate|]. destruct (f x) as [y|e'] eqn:E; cbn [bind] in H.
  - destruct (mapM f l) as [t|e']; cbn [bind] in H; [discriminate|]. destruct (IH H) as [x' [Hx Ex]]. exists x'. split; [right; exact Hx|exact Ex].
  - exists x. split; [left; reflexivity|congruence]. Qed.
Lemma znum_parts k f : z_num (mkzaid f (but3 k) (last3 k) None) = k.
Proof. unfold z_num. cbn. apply but3_last3. Qed.

Lemma key_split k : k = but3 k ++ last3 k /\ length (last3 k) = Nat.min 3 (length k).
Proof. split; [symmetry; apply but3_last3|]. unfold last3. rewrite skipn_length. lia. Qed.
Lemma new_zaids_ok z tr block : new_zaids z tr = Ok block ->
  Forall2 (fun kv z' => (fst kv = z_elem z' ++ z_iso z' /\ length (z_iso z') = Nat.min 3 (length (fst kv))) /\ z_lib z' = fst (fst (snd kv)) /\ (z_frac z' == share tr (z_frac z) (snd kv))%Q) tr block.
Proof. unfold new_zaids, share. destruct (Qlt_le_dec (z_frac z) 0).
  - intros H. apply mapM_Forall2 in H. revert H. apply Forall2_impl. intros kv z' H. destruct (Qeq_bool _ 0); [discriminate|]. injection H as <-.
    split; [apply key_split|]. split; [reflexivity|]. cbn [z_frac]. reflexivity.
  - intros H. injection H as <-. apply Forall2_map_r. induction tr as [|kv tr IH]; constructor; [|exact IH]. split; [apply key_split|]. split; reflexivity. Qed.

Lemma translate_zaid_ok E nl z block : wf_newlib nl -> wf_zaid z -> translate_zaid E nl z = Ok block -> translated E nl z block.
Proof. intros W Wz. unfold translate_zaid, zaid_translation. destruct (pick_lib nl z) as [l|e] eqn:P; cbn [bind]; [|discriminate].
  apply pick_lib_ok in P; [|exact W]. destruct (match z_lib z with Some l => memb str_eqb l (m_dosim E) | None => false end) eqn:D.
  - apply dosim_iff in D. cbn [bind]. intros H. unfold new_zaids in H. destruct Wz as (L & _). destruct (but3_app (z_elem z) (z_iso z) L) as [B1 B2].
    assert (Q : exists z', block = [z'] /\ nuclide z' = nuclide z /\ (z_frac z' == z_frac z)%Q).
    { destruct (Qlt_le_dec (z_frac z) 0); unfold z_num in H; cbn [mapM map fst snd bind qsum fold_right] in H; try change (Qeq_bool (1 * 1 + 0) 0) with false in H; cbv iota in H; cbn [bind] in H; rewrite B1, B2 in H; injection H as <-; eexists; (split; [reflexivity|]); (split; [reflexivity|]); cbn [z_frac]; field. }
    destruct Q as [z' [-> [Q1 Q2]]]. now apply (T_dosimetry E nl z l).
  - assert (ND : ~ dosimetry E z) by (intros Q; apply dosim_iff in Q; congruence).
    destruct (convertZaid (m_lib E) (z_num z) l) as [tr|e] eqn:C; cbn [bind].
    + intros H. apply new_zaids_ok in H. now apply (T_converted E nl z l tr).
    + destruct e; cbn [bind]; try discriminate. intros H. injection H as <-. now apply (T_dropped E nl z l). Qed.

Lemma translate_sub_ok E nl s s' : wf_newlib nl -> Forall wf_zaid (s_zaids s) -> translate_sub E nl s = Ok s' ->
  exists blocks, Forall2 (translated E nl) (s_zaids s) blocks /\ s_zaids s' = concat blocks /\ consistent s'.
Proof. intros W Wz. unfold translate_sub. destruct (mapM (translate_zaid E nl) (s_zaids s)) as [l|e] eqn:M; cbn [bind]; [|discriminate].
  intros H. injection H as <-. exists l. split; [|split; reflexivity]. apply mapM_Forall2 in M.
  induction M as [|z b zs bs Hb _ IH]; [constructor|]. inversion Wz; subst. constructor; [now apply translate_zaid_ok|now apply IH]. Qed.

(** errors *)
Definition mix_weight (tr : list (str * transl)) : Q := qsum (map (fun kv => (snd (fst (snd kv)) * snd (snd kv))%Q) tr).
Lemma translate_zaid_err E nl z e : wf_newlib nl -> translate_zaid E nl z = Err e ->
  (e = ValueError /\ forall l, ~ target nl z l) \/
  (exists l, target nl z l /\ ~ dosimetry E z /\ e <> ValueError /\ convertZaid (m_lib E) (z_num z) l = Err e) \/
  (e = ZeroDivisionError /\ exists l tr, target nl z l /\ ~ dosimetry E z /\ convertZaid (m_lib E) (z_num z) l = Ok tr /\ tr <> [] /\ (mix_weight tr == 0)%Q).
Proof. intros W. unfold translate_zaid, zaid_translation. destruct (pick_lib nl z) as [l|e0] eqn:P; cbn [bind].
  2:{ intros H. injection H as <-. left. now apply pick_lib_err in P. }
  apply pick_lib_ok in P; [|exact W]. destruct (match z_lib z with Some l => memb str_eqb l (m_dosim E) | None => false end) eqn:D.
  - cbn [bind]. unfold new_zaids. destruct (Qlt_le_dec (z_frac z) 0); cbn; discriminate.
  - assert (ND : ~ dosimetry E z) by (intros Q; apply dosim_iff in Q; congruence).
    destruct (convertZaid (m_lib E) (z_num z) l) as [tr|e0] eqn:C; cbn [bind].
    + unfold new_zaids. destruct (Qlt_le_dec (z_frac z) 0); [|discriminate]. intros H. apply mapM_err in H. destruct H as [kv [Hk Ek]].
      destruct (Qeq_bool _ 0) eqn:Z; [|discriminate]. injection Ek as <-. right. right. split; [reflexivity|]. exists l, tr. split; [exact P|]. split; [exact ND|]. split; [exact C|].
      split; [intros ->; destruct Hk|]. apply Qeq_bool_eq. exact Z.
    + destruct e0; cbn [bind]; try discriminate; intros H; injection H as <-; right; left; exists l; repeat split; try assumption; try discriminate. Qed.

(** fractions *)
Lemma block_total tr f block : Forall2 (fun kv z' => (fst kv = z_elem z' ++ z_iso z' /\ length (z_iso z') = Nat.min 3 (length (fst kv))) /\ z_lib z' = fst (fst (snd kv)) /\ (z_frac z' == share tr f (snd kv))%Q) tr block ->
  (total block == qsum (map (fun kv => share tr f (snd kv)) tr))%Q.
Proof. intros H. unfold total. symmetry. apply qsum_Forall2. revert H. apply Forall2_impl. intros kv z' [_ [_ H]]. symmetry. exact H. Qed.
Lemma qsum_scale_l {A} (f : A -> Q) k l : (qsum (map (fun x => k * f x) l) == k * qsum (map f l))%Q.
Proof. rewrite <- (Qmult_comm (qsum (map f l)) k). rewrite <- qsum_scale. apply qsum_map_ext. intros; ring. Qed.
Lemma share_total_atom tr f : (0 <= f)%Q -> (qsum (map (fun kv => share tr f (snd kv)) tr) == amount tr * f)%Q.
Proof. intros H. unfold amount. rewrite <- qsum_scale. apply qsum_map_ext. intros kv _. unfold share. destruct (Qlt_le_dec f 0); [lra|reflexivity]. Qed.
Lemma share_total_mass tr f : (f < 0)%Q -> ~ (mix_weight tr == 0)%Q -> (qsum (map (fun kv => share tr f (snd kv)) tr) == f)%Q.
Proof. intros H N. transitivity (qsum (map (fun kv : str * transl => (/ mix_weight tr * f) * (snd (fst (snd kv)) * snd (snd kv)))%Q tr)).
  2:{ rewrite (qsum_scale_l (fun kv : str * transl => (snd (fst (snd kv)) * snd (snd kv))%Q)).
      change (/ mix_weight tr * f * mix_weight tr == f)%Q. field. exact N. }
  - apply qsum_map_ext. intros kv _. unfold share. destruct (Qlt_le_dec f 0); [|lra]. change (snd (fst (snd kv)) * snd (snd kv) / mix_weight tr * f == / mix_weight tr * f * (snd (fst (snd kv)) * snd (snd kv)))%Q. field. exact N. Qed.

(** positive abundances and masses give positive weights *)
Definition positive_tr (tr : list (str * transl)) : Prop := Forall (fun kv => (0 < snd (fst (snd kv)))%Q /\ (0 < snd (snd kv))%Q) tr.
Lemma mix_weight_pos tr : positive_tr tr -> tr <> [] -> (0 < mix_weight tr)%Q.
Proof. intros H N. destruct tr as [|kv tr]; [congruence|]. inversion H as [|? ? [H1 H2] Ht]; subst. clear N. unfold mix_weight. cbn [map]. rewrite qsum_cons.
  assert (0 <= qsum (map (fun kv => snd (fst (snd kv)) * snd (snd kv)) tr))%Q.
  { apply qsum_nonneg. rewrite Forall_map. revert Ht. apply Forall_impl. intros a [A B]. nra. }
  nra. Qed.
Lemma conv_positive m zaid lib tr : distinct_libs m -> NoDup (map r_idx (l_iso m)) -> (forall r, In r (l_iso m) -> (0 < r_abund r)%Q /\ (0 < r_mass r)%Q) ->
  convertZaid m zaid lib = Ok tr -> positive_tr tr.
Proof. intros D N P H. apply conv_ok in H; [|exact D|exact N]. unfold positive_tr. destruct H; try (constructor; [cbn [fst snd]; lra|constructor]).
  apply Forall_forall. intros kv Hk. assert (Q : In (fst kv, snd (fst (snd kv)), snd (snd kv)) (map (fun r => (r_idx r, r_abund r, r_mass r)) (filter (fun r => Z.eqb (Z.of_N (r_Z r)) z) (l_iso m)))).
  { rewrite <- H2. now apply (in_map (fun e : str * transl => (fst e, snd (fst (snd e)), snd (snd e)))). }
  apply in_map_iff in Q. destruct Q as [r [Er Hr]]. apply filter_In in Hr. destruct Hr as [Hr _]. injection Er as _ <- <-. now apply P. Qed.

(** the keys of a translation, and well-formed blocks *)
Definition clean_libs (m : libman) : Prop := forall l, In l (map fst (l_data m)) -> ~ In dot l.
Lemma carries_clean m l k : clean_libs m -> carries m l k -> ~ In dot l.
Proof. intros H [x [Hx _]]. apply H. apply in_map_iff. exists (l, x). auto. Qed.
Lemma digits_no_dot s : digits s -> ~ In dot s.
Proof. intros H Q. unfold digits in H. rewrite Forall_forall in H. apply H in Q. apply digit_not in Q. destruct Q as (_ & _ & _ & Q & _). now rewrite Ascii.eqb_refl in Q. Qed.
Lemma zaid_text_clean z a s : zaid_text z a s -> ~ In dot s /\ 3 <= length s.
Proof. intros (d1 & d2 & d3 & -> & H1 & H2 & H3 & _). split.
  - intros Q. apply in_app_or in Q. destruct Q as [Q|Q]; [revert Q; apply digits_no_dot, str_of_N_digits|].
    revert Q. apply digits_no_dot. repeat constructor; apply dig_chr_props; assumption.
  - rewrite app_length. cbn [length]. lia. Qed.
Lemma conv_keys m zaid lib tr : distinct_libs m -> wf_table (l_iso m) -> clean_libs m -> ~ In dot zaid -> 3 <= length zaid -> convertZaid m zaid lib = Ok tr ->
  Forall (fun kv => ~ In dot (fst kv) /\ 3 <= length (fst kv) /\ match fst (fst (snd kv)) with Some l => carries m l (fst kv) /\ ~ In dot l | None => True end) tr.
Proof. intros D [WT N] CL Hd Hl H. apply conv_ok in H; [|exact D|exact N]. destruct H.
  - constructor; [|constructor]. cbn [fst snd]. split; [exact Hd|]. split; [exact Hl|]. split; [assumption|]. eapply carries_clean; eassumption.
  - constructor; [|constructor]. cbn [fst snd]. split; [|split; [|split; [assumption|]; eapply carries_clean; eassumption]].
    + intros Q. apply in_app_or in Q. destruct Q as [Q|Q]; [|revert Q; apply digits_no_dot; repeat constructor]. apply Hd. rewrite <- (but3_last3 zaid). apply in_or_app. now left.
    + rewrite app_length. change (length (s2l "000")) with 3. lia.
  - constructor; [|constructor]. cbn [fst snd]. split; [exact Hd|]. split; [exact Hl|]. split; [assumption|]. eapply carries_clean; eassumption.
  - constructor; [|constructor]. cbn [fst snd]. auto.
  - apply Forall_forall. intros kv Hk. assert (Q : In (fst kv, snd (fst (snd kv)), snd (snd kv)) (map (fun r => (r_idx r, r_abund r, r_mass r)) (filter (fun r => Z.eqb (Z.of_N (r_Z r)) z) (l_iso m)))).
    { rewrite <- H2. now apply (in_map (fun e : str * transl => (fst e, snd (fst (snd e)), snd (snd e)))). }
    apply in_map_iff in Q. destruct Q as [r [Er Hr]]. apply filter_In in Hr. destruct Hr as [Hr _]. injection Er as E1 _ _.
    destruct (zaid_text_clean _ _ _ (proj1 (WT r Hr))) as [C1 C2]. rewrite E1 in C1, C2. split; [exact C1|]. split; [exact C2|].
    rewrite Forall_forall in H3. destruct (H3 kv Hk) as [l [El [Cl _]]]. destruct kv as [k [[o q1] q2]]; cbn [fst snd] in *; subst o. split; [exact Cl|]. eapply carries_clean; eassumption. Qed.
Lemma block_wf E nl z b : distinct_libs (m_lib E) -> wf_table (l_iso (m_lib E)) -> clean_libs (m_lib E) -> wf_zaid z -> translated E nl z b -> Forall wf_zaid b.
Proof. intros D WT CL Wz H. destruct H as [l z' Tg Ds Nc Fr|l tr b Tg Ds C F|l Tg Ds C].
  - constructor; [|constructor]. unfold nuclide in Nc. injection Nc as E1 E2 E3. unfold wf_zaid. rewrite E1, E2, E3. exact Wz.
  - destruct Wz as (L & H1 & H2 & _). apply conv_keys in C; [|exact D|exact WT|exact CL| |].
    + assert (F' : Forall2 (fun (kv : str * transl) z' => (fst kv = z_elem z' ++ z_iso z' /\ length (z_iso z') = Nat.min 3 (length (fst kv))) /\ z_lib z' = fst (fst (snd kv))) tr b) by (revert F; apply Forall2_impl; tauto).
      clear F. induction F' as [|kv z' tr b [[Ek Lk] El] _ IH]; [constructor|]. inversion C as [|? ? (K1 & K2 & K3) C']; subst. constructor; [|now apply IH]. destruct kv as [k [[o q1] q2]]; cbn [fst snd] in *.
      split; [rewrite Lk; lia|]. rewrite Ek in K1. split; [intros Q; apply K1, in_or_app; now left|]. split; [intros Q; apply K1, in_or_app; now right|].
      rewrite El; destruct o; [apply K3|exact I].
    + unfold z_num. intros Q. apply in_app_or in Q. tauto.
    + unfold z_num. rewrite app_length. lia.
  - constructor. Qed.
Lemma Forall2_in_r {A B} (R : A -> B -> Prop) l l' y : Forall2 R l l' -> In y l' -> exists x, In x l /\ R x y.
Proof. induction 1 as [|a b l l' H _ IH]; intros Q; [destruct Q|]. destruct Q as [<-|Q]; [exists a; split; [left; reflexivity|exact H]|]. destruct (IH Q) as [x [Hx Rx]]. exists x. split; [right; exact Hx|exact Rx]. Qed.
Lemma znum_clean z : ~ In dot (z_elem z) /\ ~ In dot (z_iso z) -> ~ In dot (z_num z).
Proof. intros [H1 H2] Q. unfold z_num in Q. apply in_app_or in Q. tauto. Qed.
Lemma znum_long z : length (z_iso z) = 3 -> 3 <= length (z_num z).
Proof. intros H. unfold z_num. rewrite app_length. lia. Qed.
