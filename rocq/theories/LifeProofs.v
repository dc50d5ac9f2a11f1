From Coq Require Import Lia ZArith QArith.
From Verif Require Import PyBase PyLemmas MatProofs2 PyStr PyStrLemmas PyText LibModel MatModel InpModel InpSpec D1SProofs2 MatProofs InpProofs InpProofs2 InpProofs3 InpProofs4 InpProofs5 InpProofs6 LookModel LifeSpec.
Open Scope nat_scope.

(** *** addresses *)
Lemma dset_locs key l (d : cdict) : NoDup (locs d) -> ~ In l (locs d) -> NoDup (locs (dset str_eqb key l d)) /\ incl (locs (dset str_eqb key l d)) (l :: locs d).
Proof. unfold locs. induction d as [|[k0 l0] d IH]; cbn [dset map snd]; intros N I.
  - split; [repeat constructor; auto|]. apply incl_refl.
  - inversion N; subst. cbn [In] in I. destruct (str_eqb key k0); cbn [map snd].
    + split; [constructor; [tauto|assumption]|]. intros x [<-|X]; [left; reflexivity|right; right; exact X].
    + destruct IH as [A B]; [assumption|tauto|]. split.
      * constructor; [|exact A]. intros X. apply B in X as [X|X]; [subst; tauto|contradiction].
      * intros x [<-|X]; [right; left; reflexivity|]. apply B in X as [<-|X]; [left; reflexivity|right; right; exact X]. Qed.
Lemma rekey_locs h (d d' : cdict) : NoDup (locs d) -> rekey h d = Ok d' -> NoDup (locs d') /\ incl (locs d') (locs d).
Proof. unfold rekey. assert (G : forall (d acc d' : cdict), NoDup (locs acc) -> NoDup (locs d) -> (forall l, In l (locs acc) -> ~ In l (locs d)) ->
    foldM (fun nd kl => do c <- hget h (snd kl); do key <- card_key c; Ok (dset str_eqb key (snd kl) nd)) acc d = Ok d' -> NoDup (locs d') /\ incl (locs d') (locs acc ++ locs d)).
  { clear. induction d as [|[k l] d IH]; intros acc d' N M I H; cbn [foldM] in H. { injection H as <-. split; [exact N|]. apply incl_appl, incl_refl. }
    cbn [snd] in H. destruct (hget h l) as [c|]; cbn [bind] in H; [|discriminate]. destruct (card_key c) as [key|]; cbn [bind] in H; [|discriminate].
    change (locs ((k, l) :: d)) with (l :: locs d) in *. inversion M as [|? ? M1 M2]; subst.
    destruct (dset_locs key l acc N) as [A B]. { intros X. apply (I l X). left. reflexivity. }
    assert (DJ : forall x, In x (locs (dset str_eqb key l acc)) -> ~ In x (locs d)).
    { intros x X Y. apply B in X as [<-|X]; [contradiction|]. apply (I x X). right. exact Y. }
    destruct (IH (dset str_eqb key l acc) d' A M2 DJ H) as [C D].
    split; [exact C|]. intros x X. apply D in X. apply in_app_iff in X as [X|X]; [apply B in X as [<-|X]|]; apply in_app_iff; cbn [In]; tauto. }
  intros N H. destruct (G d [] d' (NoDup_nil _) N (fun _ X => False_ind _ X) H) as [A B]. split; [exact A|exact B]. Qed.
Lemma dupdate_locs (ext : cdict) : forall d, NoDup (locs d) -> NoDup (locs ext) -> (forall l, In l (locs d) -> ~ In l (locs ext)) ->
  NoDup (locs (dupdate d ext)) /\ incl (locs (dupdate d ext)) (locs d ++ locs ext).
Proof. unfold dupdate. induction ext as [|[k l] ext IH]; intros d N M I; cbn [fold_left fst snd]. { split; [exact N|]. apply incl_appl, incl_refl. }
  change (locs ((k, l) :: ext)) with (l :: locs ext) in *. inversion M as [|? ? M1 M2]; subst.
  destruct (dset_locs k l d N) as [A B]. { intros X. apply (I l X). left. reflexivity. }
  destruct (IH _ A M2) as [C D]. { intros x X Y. apply B in X as [<-|X]; [contradiction|]. apply (I x X). right. exact Y. }
  split; [exact C|]. intros x X. apply D in X. apply in_app_iff in X as [X|X]; [apply B in X as [<-|X]|]; apply in_app_iff; cbn [In]; tauto. Qed.
Lemma dupdate_nodup (ext : cdict) : forall d, NoDup (dkeys d) -> NoDup (dkeys (dupdate d ext)).
Proof. unfold dupdate. induction ext as [|[k l] ext IH]; intros d N; cbn [fold_left fst snd]; [exact N|]. apply IH. now apply (dset_nodup str_eqb str_eqb_eq). Qed.
Lemma nodup_app_i {A} (a b : list A) : NoDup a -> NoDup b -> (forall x, In x a -> ~ In x b) -> NoDup (a ++ b).
Proof. induction a as [|x a IH]; cbn [app]; intros N M D; [exact M|]. inversion N; subst. constructor.
  - rewrite in_app_iff. intros [X|X]; [contradiction|]. apply (D x (or_introl eq_refl) X).
  - apply IH; [assumption|exact M|]. intros y Y. apply D. right. exact Y. Qed.

(** *** blocks *)
Lemma same_mark pre pre0 w w0 rest rest0 : map Ch pre ++ Hole w :: rest = map Ch pre0 ++ Hole w0 :: rest0 -> pre = pre0.
Proof. revert pre0. induction pre as [|c pre IH]; intros [|c0 pre0] H; cbn [map app] in H; try discriminate; [reflexivity|].
  injection H as -> H. f_equal. now apply IH. Qed.
Lemma prints_mark p1 p2 k1 k2 n1 n2 c1 c2 : prints_number p1 k1 n1 c1 -> prints_number p2 k2 n2 c2 -> c_input c1 = c_input c2 -> p1 = p2.
Proof. intros [_ [[w [r [ls [E _]]]] _]] [_ [[w' [r' [ls' [E' _]]]] _]] H. rewrite E, E' in H. injection H as H _. exact (same_mark _ _ _ _ _ _ H). Qed.
Lemma prints_fun p1 p2 k n1 n2 c : prints_number p1 k n1 c -> prints_number p2 k n2 c -> n1 = n2.
Proof. intros [[v E] _] [[v' E'] _]. congruence. Qed.
Lemma locs_in (d : cdict) l : In l (locs d) <-> exists key, In (key, l) d.
Proof. unfold locs. rewrite in_map_iff. split; [intros [[k x] [<- Q]]; now exists k|intros [k Q]; now exists (k, l)]. Qed.
Lemma good_numbered marks k h d : good_block marks k h d -> numbered_block marks k h d.
Proof. intros [K [G U]]. split.
  - intros l Q. apply locs_in in Q as [key Q]. destruct (G _ _ Q) as [c [n [pre [A [B [C [D [E F]]]]]]]]. exists c, n, pre. tauto.
  - intros l1 l2 c1 c2 n p1 p2 Q1 Q2 A1 A2 P1 P2. apply locs_in in Q1 as [k1 Q1]. apply locs_in in Q2 as [k2 Q2].
    destruct (G _ _ Q1) as [x1 [n1 [r1 [B1 [_ [C1 [D1 _]]]]]]]. destruct (G _ _ Q2) as [x2 [n2 [r2 [B2 [_ [C2 [D2 _]]]]]]].
    rewrite A1 in B1. injection B1 as <-. rewrite A2 in B2. injection B2 as <-.
    apply (U k1 l1 k2 l2 c1 c2 Q1 Q2 A1 A2). rewrite D1, D2, <- (prints_fun _ _ _ _ _ _ P1 C1), <- (prints_fun _ _ _ _ _ _ P2 C2). reflexivity. Qed.
Lemma good_parts h a : good h a -> NoDup (locs (i_cells a)) /\ NoDup (locs (i_surfs a)) /\ NoDup (locs (i_other a)) /\ NoDup (locs (i_trans a)).
Proof. intros [_ [_ [_ [_ [N _]]]]]. unfold input_locs in N. apply nodup_app_l in N as [N1 [N _]]. apply nodup_app_l in N as [N2 [N _]]. apply nodup_app_l in N as [N3 [N4 _]]. tauto. Qed.

Definition off_of (k : kind) (o : offsets) : option Z :=
  match k with Kcel => o_cel o | Ksur => o_sur o | Ku | Kfill => o_u o | Ktr => o_tr o | Kmat | Kother => None end.
Lemma shifted_num o k n n' : n <> 0%Z -> shifted o (n, k) (n', k) -> n' = (n + offset_for k o)%Z.
Proof. intros N [_ H]. unfold offset_for. cbn [fst snd] in H. destruct k; try (rewrite H; lia); destruct (_ o); try (rewrite (proj2 H N); lia); rewrite H; lia. Qed.
Lemma follows_values o c c' n n' k pre pre' : prints_number pre k n c -> prints_number pre' k n' c' -> Forall2 (shifted o) (c_values c) (c_values c') -> shifted o (n, k) (n', k).
Proof. intros [[v E] _] [[v' E'] _] F. rewrite E, E' in F. inversion F; subst. assumption. Qed.
Lemma follows_good marks k o h h' d d' : follows k marks o h h' d d' -> good_block marks k h d -> NoDup (dkeys d') ->
  (forall n, has_number h d n -> (n + offset_for k o)%Z <> 0%Z) -> good_block marks k h' d'.
Proof. intros [FL F] [K [G U]] K' NZ.
  assert (X : forall key l, In (key, l) d' -> exists key0 c c' n pre, In (key0, l) d /\ In pre marks /\ nth_error h l = Some c /\ nth_error h' l = Some c' /\ c_name c = Some n /\ n <> 0%Z /\
     prints_number pre k (n + offset_for k o) c' /\ c_name c' = Some (n + offset_for k o)%Z /\ key = pre ++ str_of_Z (n + offset_for k o)).
  { intros key l Q. destruct (F _ _ Q) as [pre [c [c' [n' [P [A [A' [V [_ [_ [PR [NM EK]]]]]]]]]]]].
    assert (QL : In l (locs d)) by (rewrite <- FL; apply locs_in; eauto). apply locs_in in QL as [key0 Q0].
    destruct (G _ _ Q0) as [c0 [n [pre0 [B [P0 [C [D [NZ0 E]]]]]]]]. rewrite A in B. injection B as <-.
    pose proof (shifted_num _ _ _ _ NZ0 (follows_values _ _ _ _ _ _ _ _ C PR V)) as ->. exists key0, c, c', n, pre. tauto. }
  split; [exact K'|]. split.
  - intros key l Q. destruct (X _ _ Q) as [key0 [c [c' [n [pre [Q0 [P [A [A' [NM [N0 [PR [NM' EK]]]]]]]]]]]]]. exists c', (n + offset_for k o)%Z, pre.
    repeat (split; try assumption). apply NZ. exists key0, l, c. tauto.
  - intros k1 l1 k2 l2 c1 c2 Q1 Q2 A1 A2 EN. destruct (X _ _ Q1) as [k01 [c01 [c1' [n1 [p1 [Q01 [P1 [B1 [B1' [M1 [N1 [R1 [M1' E1]]]]]]]]]]]]].
    destruct (X _ _ Q2) as [k02 [c02 [c2' [n2 [p2 [Q02 [P2 [B2 [B2' [M2 [N2 [R2 [M2' E2]]]]]]]]]]]]].
    rewrite A1 in B1'. injection B1' as <-. rewrite A2 in B2'. injection B2' as <-. apply (U k01 l1 k02 l2 c01 c02 Q01 Q02 B1 B2).
    rewrite M1' in EN. rewrite M2' in EN. injection EN as EN. rewrite M1, M2. f_equal. lia. Qed.

Lemma renumber_frame o h a h' a' : good h a -> renumber o true h a = Ok (h', a') ->
  length h' = length h /\ NoDup (dkeys (i_other a')) /\ NoDup (dkeys (i_trans a')) /\
  NoDup (locs (i_other a')) /\ incl (locs (i_other a')) (locs (i_other a)) /\ NoDup (locs (i_trans a')) /\ incl (locs (i_trans a')) (locs (i_trans a)).
Proof. intros GD H. pose proof (good_parts _ _ GD) as [_ [_ [P3 P4]]]. destruct GD as [_ [_ [_ [_ [ND AL]]]]].
  destruct (renumber_spec o h a ND AL) as [h4 [R [L V]]]. rewrite renumber_true, R in H. cbn [bind] in H. unfold update_card_keys in H.
  destruct (rekey h4 (i_cells a)) as [cs|] eqn:R1; cbn [bind] in H; [|discriminate]. destruct (rekey h4 (i_surfs a)) as [ss|] eqn:R2; cbn [bind] in H; [|discriminate].
  destruct (rekey h4 (i_other a)) as [os|] eqn:R3; cbn [bind] in H; [|discriminate]. destruct (rekey h4 (i_trans a)) as [ts|] eqn:R4; cbn [bind] in H; [|discriminate].
  destruct (cells_setter h4 cs) as [h5|] eqn:S1; cbn [bind] in H; [|discriminate]. destruct (surfs_setter h5 ss) as [h6|] eqn:S2; cbn [bind] in H; [|discriminate].
  injection H as <- <-. cbn [i_other i_trans].
  assert (LF : forall k (f : str -> str) (d : cdict) h h', foldM (fun h kl => force_num k (f (fst kl)) h (snd kl)) h d = Ok h' -> length h' = length h).
  { clear. intros k f d. induction d as [|kl d IH]; intros h h' H; cbn [foldM] in H; [congruence|]. destruct (force_num k (f (fst kl)) h (snd kl)) as [h1|] eqn:E; cbn [bind] in H; [|discriminate].
    apply IH in H. apply force_num_frame in E as [E _]. congruence. }
  pose proof (LF Kcel (fun s => s) _ _ _ S1). pose proof (LF Ksur key_num _ _ _ S2).
  split; [congruence|]. split; [eapply rekey_nodup; eassumption|]. split; [eapply rekey_nodup; eassumption|].
  destruct (rekey_locs _ _ _ P3 R3). destruct (rekey_locs _ _ _ P4 R4). tauto. Qed.

Lemma moves_none k o n : n <> 0%Z -> ~ moves_to_zero (off_of k o) n -> (n + offset_for k o)%Z <> 0%Z.
Proof. intros N M E. apply M. unfold offset_for in E. fold (off_of k o) in E. destruct (off_of k o) as [d|]; [exists d; tauto|]. rewrite Z.add_0_r in E. contradiction. Qed.
Lemma good_number marks k h d n : good_block marks k h d -> has_number h d n -> n <> 0%Z.
Proof. intros [_ [G _]] [key [l [c [Q [A N]]]]]. destruct (G _ _ Q) as [c0 [n0 [pre [B [_ [_ [D [E _]]]]]]]]. rewrite A in B. injection B as <-. congruence. Qed.

Lemma renumber_good o h a h' a' : good h a -> renumber o true h a = Ok (h', a') ->
  (forall n, has_number h (i_cells a) n -> (n + offset_for Kcel o)%Z <> 0%Z) -> (forall n, has_number h (i_surfs a) n -> (n + offset_for Ksur o)%Z <> 0%Z) ->
  good h' a' /\ follows Kcel [[]] o h h' (i_cells a) (i_cells a') /\ follows Ksur surf_marks o h h' (i_surfs a) (i_surfs a') /\ i_mats a' = i_mats a.
Proof. intros GD H ZC ZS. pose proof (renumber_frame _ _ _ _ _ GD H) as [L [K3 [K4 [L3 [I3 [L4 I4]]]]]]. pose proof (good_parts _ _ GD) as [P1 [P2 _]].
  destruct (renumber_nodup _ _ _ _ _ H) as [K1 K2]. destruct GD as [GC [GS [_ [_ [ND AL]]]]].
  destruct (renumber_keys _ _ _ _ _ ND AL (good_numbered _ _ _ _ GC) (good_numbered _ _ _ _ GS) H) as [FC [FS M]].
  split; [|split; [exact FC|split; [exact FS|exact M]]].
  split; [exact (follows_good _ _ _ _ _ _ _ FC GC K1 ZC)|]. split; [exact (follows_good _ _ _ _ _ _ _ FS GS K2 ZS)|]. split; [exact K3|]. split; [exact K4|].
  unfold input_locs in *. rewrite (proj1 FC), (proj1 FS).
  apply nodup_app_l in ND as [N1 [ND D1]]. apply nodup_app_l in ND as [N2 [ND D2]]. apply nodup_app_l in ND as [N3 [N4 D3]]. split.
  - apply nodup_app_i; [assumption| |].
    + apply nodup_app_i; [assumption| |].
      * apply nodup_app_i; [assumption|assumption|]. intros x X Y. apply (D3 x); auto.
      * intros x X Y. apply (D2 x X). apply in_app_iff in Y as [Y|Y]; apply in_app_iff; auto.
    + intros x X Y. apply (D1 x X). rewrite !in_app_iff in *. destruct Y as [Y|[Y|Y]]; auto.
  - intros l X. rewrite L. apply AL. unfold input_locs in *. rewrite (proj1 FC), (proj1 FS) in X. rewrite !in_app_iff in *. destruct X as [X|[X|[X|X]]]; auto. Qed.

(** *** merge *)
Lemma good_settled marks k h d : good_block marks k h d -> (forall pre, In pre marks -> In pre surf_marks) -> settled h d.
Proof. intros [_ [G _]] M key l Q. destruct (G _ _ Q) as [c [n [pre [A [B [C [D [E ->]]]]]]]]. exists c, n. split; [exact A|]. split; [exact D|].
  destruct (M _ B) as [<-|[<-|[]]]; [apply plain_key_num|apply star_key_num]. Qed.
Lemma good_app marks k h d e : good_block marks k h d -> good_block marks k h e -> disjoint_keys d e ->
  (forall n, has_number h d n -> ~ has_number h e n) -> good_block marks k h (d ++ e).
Proof. intros [K1 [G1 U1]] [K2 [G2 U2]] DK DN. split; [|split].
  - unfold dkeys in *. rewrite map_app. apply nodup_app_i; assumption.
  - intros key l Q. apply in_app_iff in Q as [Q|Q]; [exact (G1 _ _ Q)|exact (G2 _ _ Q)].
  - intros k1 l1 k2 l2 c1 c2 Q1 Q2 A1 A2 E. apply in_app_iff in Q1 as [Q1|Q1]; apply in_app_iff in Q2 as [Q2|Q2].
    + eapply U1; eassumption.
    + exfalso. destruct (G1 _ _ Q1) as [x [n [_ [B [_ [_ [D _]]]]]]]. rewrite A1 in B. injection B as <-.
      apply (DN n); [exists k1, l1, c1; tauto|]. exists k2, l2, c2. split; [exact Q2|]. split; [exact A2|]. congruence.
    + exfalso. destruct (G2 _ _ Q1) as [x [n [_ [B [_ [_ [D _]]]]]]]. rewrite A1 in B. injection B as <-.
      apply (DN n); [exists k2, l2, c2; split; [exact Q2|]; split; [exact A2|]; congruence|]. exists k1, l1, c1. tauto.
    + eapply U2; eassumption. Qed.
Lemma cell_numbers_disjoint h d e : good_block [[]] Kcel h d -> good_block [[]] Kcel h e -> disjoint_keys d e -> forall n, has_number h d n -> ~ has_number h e n.
Proof. intros [_ [G1 _]] [_ [G2 _]] DK n [k1 [l1 [c1 [Q1 [A1 N1]]]]] [k2 [l2 [c2 [Q2 [A2 N2]]]]].
  destruct (G1 _ _ Q1) as [x1 [n1 [p1 [B1 [[<-|[]] [_ [D1 [_ E1]]]]]]]]. destruct (G2 _ _ Q2) as [x2 [n2 [p2 [B2 [[<-|[]] [_ [D2 [_ E2]]]]]]]].
  rewrite A1 in B1. injection B1 as <-. rewrite A2 in B2. injection B2 as <-. rewrite N1 in D1. rewrite N2 in D2. injection D1 as <-. injection D2 as <-.
  apply (DK k1); [apply (in_map fst) in Q1; exact Q1|]. replace k1 with k2 by congruence. apply (in_map fst) in Q2. exact Q2. Qed.
Lemma merge_good h a b h' a' : good h a -> good h b -> merge h a b = ((h', a'), None) ->
  (forall l, In l (input_locs a) -> ~ In l (input_locs b)) -> (forall n, has_number h (i_surfs a) n -> ~ has_number h (i_surfs b) n) ->
  good h' a' /\ h' = h /\ i_cells a' = i_cells a ++ i_cells b /\ i_surfs a' = i_surfs a ++ i_surfs b.
Proof. intros GA GB H DL DN. pose proof (good_parts _ _ GA) as [_ [_ [A3 A4]]]. pose proof (good_parts _ _ GB) as [_ [_ [B3 B4]]].
  destruct GA as [CA [SA [OA [TA [NA AA]]]]]. destruct GB as [CB [SB [OB [TB [NB AB]]]]].
  assert (S1 : settled h (i_cells b)) by (apply (good_settled [[]] Kcel); [exact CB|intros p [<-|[]]; left; reflexivity]).
  assert (S2 : settled h (i_surfs b)) by (apply (good_settled surf_marks Ksur); [exact SB|auto]).
  pose proof (merge_outcome h a b S1 S2 (proj1 CB) (proj1 SB) TB) as MO. rewrite H in MO. destruct MO as [_ [_ [_ [_ [_ [_ [_ MO]]]]]]].
  destruct (proj1 MO eq_refl) as [D1 [D2 D3]]. clear MO.
  rewrite (merge_disjoint h a b S1 S2 (proj1 CB) (proj1 SB) TB D1 D2 D3) in H. injection H as <- <-. cbn [i_cells i_surfs].
  split; [|repeat split; reflexivity]. unfold good. cbn [i_cells i_surfs i_other i_trans].
  split; [apply good_app; try assumption; now apply cell_numbers_disjoint|]. split; [now apply good_app|]. split; [now apply dupdate_nodup|].
  split; [unfold dkeys in *; rewrite map_app; apply nodup_app_i; assumption|].
  assert (DO : forall l, In l (locs (i_other a)) -> ~ In l (locs (i_other b))).
  { intros l X Y. apply (DL l); unfold input_locs; rewrite !in_app_iff; tauto. }
  destruct (dupdate_locs (i_other b) (i_other a) A3 B3 DO) as [O1 O2].
  unfold input_locs in *. cbn [i_cells i_surfs i_other i_trans]. unfold input_allocated, input_locs in *. cbn [i_cells i_surfs i_other i_trans].
  assert (LA : forall d e : cdict, locs (d ++ e) = locs d ++ locs e) by (intros; unfold locs; apply map_app). rewrite !LA. clear LA.
  assert (IO : forall l, In l (locs (dupdate (i_other a) (i_other b))) -> In l (locs (i_other a)) \/ In l (locs (i_other b))) by (intros l X; apply O2 in X; now apply in_app_iff in X).
  apply nodup_app_l in NA as [NA1 [NA NAD1]]. apply nodup_app_l in NA as [NA2 [NA NAD2]]. apply nodup_app_l in NA as [NA3 [NA4 NAD3]].
  apply nodup_app_l in NB as [NB1 [NB NBD1]]. apply nodup_app_l in NB as [NB2 [NB NBD2]]. apply nodup_app_l in NB as [NB3 [NB4 NBD3]].
  assert (DL' : forall l, In l (locs (i_cells a)) \/ In l (locs (i_surfs a)) \/ In l (locs (i_other a)) \/ In l (locs (i_trans a)) ->
     In l (locs (i_cells b)) \/ In l (locs (i_surfs b)) \/ In l (locs (i_other b)) \/ In l (locs (i_trans b)) -> False).
  { intros l X Y. apply (DL l); rewrite !in_app_iff; tauto. }
  assert (NAD1' : forall l, In l (locs (i_cells a)) -> In l (locs (i_surfs a)) \/ In l (locs (i_other a)) \/ In l (locs (i_trans a)) -> False) by (intros l X Y; apply (NAD1 l X); rewrite !in_app_iff; tauto).
  assert (NAD2' : forall l, In l (locs (i_surfs a)) -> In l (locs (i_other a)) \/ In l (locs (i_trans a)) -> False) by (intros l X Y; apply (NAD2 l X); rewrite !in_app_iff; tauto).
  assert (NBD1' : forall l, In l (locs (i_cells b)) -> In l (locs (i_surfs b)) \/ In l (locs (i_other b)) \/ In l (locs (i_trans b)) -> False) by (intros l X Y; apply (NBD1 l X); rewrite !in_app_iff; tauto).
  assert (NBD2' : forall l, In l (locs (i_surfs b)) -> In l (locs (i_other b)) \/ In l (locs (i_trans b)) -> False) by (intros l X Y; apply (NBD2 l X); rewrite !in_app_iff; tauto).
  split.
  - apply nodup_app_i; [apply nodup_app_i; [assumption|assumption|]| |].
    + intros x X Y. apply (DL' x); tauto.
    + apply nodup_app_i; [apply nodup_app_i; [assumption|assumption|]| |].
      * intros x X Y. apply (DL' x); tauto.
      * apply nodup_app_i; [exact O1|apply nodup_app_i; [assumption|assumption|]|].
        -- intros x X Y. apply (DL' x); tauto.
        -- intros x X Y. apply IO in X. apply in_app_iff in Y. destruct X as [X|X], Y as [Y|Y]; [apply (NAD3 x X Y)|apply (DL' x); tauto|apply (DL' x); tauto|apply (NBD3 x X Y)].
      * intros x X Y. apply in_app_or in X. apply in_app_or in Y. destruct Y as [Y|Y]; [apply IO in Y|apply in_app_or in Y]; destruct X as [X|X]; destruct Y as [Y|Y]; first [apply (DL' x); tauto|apply (NAD2' x X); tauto|apply (NBD2' x X); tauto].
    + intros x X Y. apply in_app_or in X. apply in_app_or in Y. destruct Y as [Y|Y]; [apply in_app_or in Y|apply in_app_or in Y; destruct Y as [Y|Y]; [apply IO in Y|apply in_app_or in Y]]; destruct X as [X|X]; destruct Y as [Y|Y]; first [apply (DL' x); tauto|apply (NAD1' x X); tauto|apply (NBD1' x X); tauto].
  - intros l X. apply in_app_or in X. destruct X as [X|X]; [apply in_app_or in X|apply in_app_or in X; destruct X as [X|X]; [apply in_app_or in X|apply in_app_or in X; destruct X as [X|X]; [apply IO in X|apply in_app_or in X]]];
    destruct X as [X|X]; first [apply AA; rewrite !in_app_iff; tauto|apply AB; rewrite !in_app_iff; tauto]. Qed.

(** *** a new cell *)
Lemma in_dset_nodup key l (d : cdict) : NoDup (dkeys d) -> forall key' l', In (key', l') (dset str_eqb key l d) -> (key' = key /\ l' = l) \/ (key' <> key /\ In (key', l') d).
Proof. intros N key' l' Q. apply (in_dget str_eqb str_eqb_eq) in Q; [|now apply (dset_nodup str_eqb str_eqb_eq)].
  destruct (list_eq_dec Ascii.ascii_dec key key') as [->|X].
  - rewrite (dget_dset_same str_eqb str_eqb_eq) in Q. injection Q as <-. left. tauto.
  - rewrite (dget_dset_other str_eqb str_eqb_eq) in Q by congruence. right. split; [congruence|]. now apply (dget_some_in str_eqb str_eqb_eq). Qed.
Lemma prints_rename n z c : prints_number [] Kcel n c -> prints_number [] Kcel z (rename Kcel z c).
Proof. intros [[vs E] [I [[ls T] P]]]. split; [exists vs; cbn [rename c_values]; rewrite E; reflexivity|]. split; [exact I|]. split; [|exact P].
  unfold card_text in *. cbn [rename c_values c_input c_hidden]. eapply fill_lines_count; [|exact T]. rewrite !map_length, E. reflexivity. Qed.
Lemma block_frame marks k h h' d : good_block marks k h d -> (forall l, In l (locs d) -> nth_error h' l = nth_error h l) -> good_block marks k h' d.
Proof. intros [K [G U]] F. split; [exact K|]. split.
  - intros key l Q. destruct (G _ _ Q) as [c [n [pre [A R]]]]. exists c, n, pre. rewrite F by (apply locs_in; eauto). tauto.
  - intros k1 l1 k2 l2 c1 c2 Q1 Q2 A1 A2. rewrite F in A1 by (apply locs_in; eauto). rewrite F in A2 by (apply locs_in; eauto). eapply U; eassumption. Qed.
Lemma add_cell_good h a l c n z h' cs : good h a -> setitem Kcel h (i_cells a) (str_of_Z z) l = Ok (h', cs) ->
  ~ In l (input_locs a) -> nth_error h l = Some c -> c_name c = Some n -> prints_number [] Kcel n c -> z <> 0%Z ->
  good h' (mkInp cs (i_surfs a) (i_mats a) (i_trans a) (i_other a) (i_tallies a) (i_fmesh a) (i_header a)).
Proof. intros GD H NI A NM PR Z0. apply setitem_ok in H as [H ->]. rewrite plain_key_num in H. destruct (force_num_frame _ _ _ _ _ H) as [L FR].
  assert (X : exists c', nth_error h' l = Some c' /\ c_name c' = Some z /\ prints_number [] Kcel z c').
  { apply force_num_spec in H as [c0 [n0 [z0 [A0 [N0 [P0 D]]]]]]. rewrite A in A0. injection A0 as <-. rewrite NM in N0. injection N0 as <-. rewrite parse_str_of_Z in P0. injection P0 as <-.
    destruct D as [[-> D]| ->]; [exists c; subst; tauto|]. exists (rename Kcel z c). rewrite hset_same by (eapply nth_lt; eauto). split; [reflexivity|]. split; [reflexivity|]. eapply prints_rename; eassumption. }
  destruct X as [c' [A' [NM' PR']]]. pose proof (good_parts _ _ GD) as [P1 _]. destruct GD as [[KC [GC UC]] [GS [KO [KT [ND AL]]]]].
  assert (NL : ~ In l (locs (i_cells a))) by (intros Q; apply NI; unfold input_locs; apply in_app_iff; tauto).
  assert (INL : forall key x, In (key, x) (i_cells a) -> x <> l) by (intros key x Q ->; apply NL; apply locs_in; eauto).
  unfold good. cbn [i_cells i_surfs i_other i_trans]. split; [split; [|split]|].
  - now apply (dset_nodup str_eqb str_eqb_eq).
  - intros key x Q. apply in_dset_nodup in Q as [[-> ->]|[NK Q]]; [|  |exact KC].
    + exists c', z, []. cbn [In app]. tauto.
    + destruct (GC _ _ Q) as [y [m [pre R]]]. exists y, m, pre. rewrite FR by (eapply INL; eassumption). exact R.
  - assert (W : forall key x y, In (key, x) (i_cells a) -> key <> str_of_Z z -> nth_error h' x = Some y -> c_name y <> Some z).
    { intros key x y Q NK B E. rewrite FR in B by (eapply INL; eassumption). destruct (GC _ _ Q) as [y0 [m [pre [B0 [[<-|[]] [_ [D [_ EK]]]]]]]]. rewrite B in B0. injection B0 as <-. apply NK. rewrite EK. cbn [app]. congruence. }
    intros k1 l1 k2 l2 c1 c2 Q1 Q2 B1 B2 E. apply in_dset_nodup in Q1 as [[-> ->]|[NK1 Q1]]; [| |exact KC]; (apply in_dset_nodup in Q2 as [[-> ->]|[NK2 Q2]]; [| |exact KC]).
    + reflexivity.
    + exfalso. rewrite A' in B1. injection B1 as <-. apply (W _ _ _ Q2 NK2 B2). congruence.
    + exfalso. rewrite A' in B2. injection B2 as <-. apply (W _ _ _ Q1 NK1 B1). congruence.
    + rewrite FR in B1 by (eapply INL; eassumption). rewrite FR in B2 by (eapply INL; eassumption). eapply UC; eassumption.
  - split; [apply (block_frame _ _ h); [exact GS|intros x Q; apply FR; intros ->; apply NI; unfold input_locs; rewrite !in_app_iff; tauto]|].
    split; [exact KO|]. split; [exact KT|]. destruct (dset_locs (str_of_Z z) l (i_cells a) P1 NL) as [D1 D2]. unfold input_allocated, input_locs in *. cbn [i_cells i_surfs i_other i_trans].
    apply nodup_app_l in ND as [ND1 [ND2 ND3]]. split.
    + apply nodup_app_i; [exact D1|exact ND2|]. intros x X Y. apply D2 in X as [<-|X]; [apply NI; apply in_app_iff; tauto|exact (ND3 x X Y)].
    + intros x X. rewrite L. apply in_app_or in X as [X|X]; [|apply AL; apply in_app_iff; tauto]. apply D2 in X as [<-|X]; [eapply nth_lt; eassumption|apply AL; apply in_app_iff; tauto]. Qed.

(** *** changes of the cards in place *)
Definition same_number (c c' : card) : Prop := c_name c' = c_name c /\ forall n, prints_number [] Kcel n c -> prints_number [] Kcel n c'.
Lemma edit_run (g : heap -> loc -> res heap) (R : card -> card -> Prop) :
  (forall h l h', g h l = Ok h' -> exists c c', nth_error h l = Some c /\ R c c' /\ h' = hset h l c') ->
  forall (d : cdict) h h', foldM (fun h kl => g h (snd kl)) h d = Ok h' -> NoDup (locs d) ->
  length h' = length h /\ (forall l, ~ In l (locs d) -> nth_error h' l = nth_error h l) /\
  (forall l, In l (locs d) -> exists c c', nth_error h l = Some c /\ nth_error h' l = Some c' /\ R c c').
Proof. intros G. induction d as [|[k l] d IH]; intros h h' H N; cbn [foldM] in H.
  - injection H as <-. split; [reflexivity|]. split; [reflexivity|]. intros l [].
  - cbn [snd] in H. destruct (g h l) as [h1|] eqn:E; cbn [bind] in H; [|discriminate]. change (locs ((k, l) :: d)) with (l :: locs d) in *. inversion N as [|? ? N1 N2]; subst.
    destruct (G _ _ _ E) as [c [c' [A [RR ->]]]]. destruct (IH _ _ H N2) as [L [O I]]. split; [now rewrite L, hset_length|]. split.
    + intros x X. cbn [In] in X. rewrite O by tauto. apply hset_other. tauto.
    + intros x [<-|X].
      * exists c, c'. split; [exact A|]. split; [|exact RR]. rewrite O by exact N1. apply hset_same. eapply nth_lt; eassumption.
      * destruct (I x X) as [y [y' [B [B' RB]]]]. exists y, y'. split; [|tauto]. rewrite hset_other in B; [exact B|]. intros ->. contradiction. Qed.
Lemma edit_good h h' a : good h a -> length h' = length h -> (forall l, ~ In l (locs (i_cells a)) -> nth_error h' l = nth_error h l) ->
  (forall l, In l (locs (i_cells a)) -> exists c c', nth_error h l = Some c /\ nth_error h' l = Some c' /\ same_number c c') -> good h' a.
Proof. intros [[KC [GC UC]] [GS [KO [KT [ND AL]]]]] L O I. split; [split; [exact KC|split]|].
  - intros key l Q. assert (QL : In l (locs (i_cells a))) by (apply locs_in; eauto). destruct (I l QL) as [c [c' [A [A' [S1 S2]]]]].
    destruct (GC _ _ Q) as [c0 [n [pre [B [[<-|[]] [P [NM [Z0 EK]]]]]]]]. rewrite A in B. injection B as <-. exists c', n, []. split; [exact A'|]. split; [left; reflexivity|]. split; [now apply S2|]. split; [congruence|]. tauto.
  - intros k1 l1 k2 l2 c1 c2 Q1 Q2 A1 A2 E. assert (QL1 : In l1 (locs (i_cells a))) by (apply locs_in; eauto). assert (QL2 : In l2 (locs (i_cells a))) by (apply locs_in; eauto).
    destruct (I _ QL1) as [x [x' [B1 [B1' [S1 _]]]]]. destruct (I _ QL2) as [y [y' [B2 [B2' [S2 _]]]]]. apply (UC k1 l1 k2 l2 x y Q1 Q2 B1 B2). congruence.
  - split. { apply (block_frame _ _ h); [exact GS|]. intros l Q. apply O. intros Q2. unfold input_locs in ND. apply nodup_app_l in ND as [_ [_ D]]. apply (D l Q2). apply in_app_iff. tauto. }
    split; [exact KO|]. split; [exact KT|]. split; [exact ND|]. intros l Q. rewrite L. now apply AL. Qed.
Lemma holes_app a b : holes (a ++ b) = holes a + holes b.
Proof. unfold holes. now rewrite filter_app, app_length. Qed.
Lemma holes_cons i t : holes (i :: t) = (match i with Hole _ => 1 | Ch _ => 0 end) + holes t.
Proof. unfold holes. destruct i; reflexivity. Qed.
Lemma fill_enough t : forall vs hs, holes t <= length vs -> exists s v1 h1, fill t vs hs = Ok (s, (v1, h1)) /\ length vs = holes t + length v1.
Proof. induction t as [|[c|w] t IH]; intros vs hs L; cbn [fill].
  - exists [], vs, hs. split; reflexivity.
  - rewrite holes_cons in *. cbn [plus] in *. destruct (Ascii.eqb c tilde); [destruct hs as [|x hs]|];
      match goal with |- context [fill t vs ?H] => destruct (IH vs H L) as [s [v1 [h1 [F E]]]]; rewrite F; cbn [bind]; eexists _, _, _; split; [reflexivity|exact E] end.
  - rewrite holes_cons in *. destruct vs as [|v vs]; [cbn [length] in L; lia|]. destruct (IH vs hs) as [s [v1 [h1 [F E]]]]; [cbn [length] in L; lia|]. rewrite F. cbn [bind]. eexists _, _, _. split; [reflexivity|]. cbn [length]. lia. Qed.
Lemma fill_short t : forall vs hs s v1 h1, fill t vs hs = Ok (s, (v1, h1)) -> length vs = holes t + length v1.
Proof. induction t as [|[c|w] t IH]; intros vs hs s v1 h1 H; cbn [fill] in H.
  - injection H as <- <- <-. reflexivity.
  - rewrite holes_cons. cbn [plus]. destruct (Ascii.eqb c tilde); [destruct hs as [|x hs]|];
      (destruct (fill t vs _) as [[s0 [v0 h0]]|] eqn:F; cbn [bind] in H; [|discriminate]); injection H as _ <- _; exact (IH _ _ _ _ _ F).
  - rewrite holes_cons. destruct vs as [|v vs]; [discriminate|]. destruct (fill t vs hs) as [[s0 [v0 h0]]|] eqn:F; cbn [bind] in H; [|discriminate]. injection H as _ <- _. cbn [length]. rewrite (IH _ _ _ _ _ F). lia. Qed.
Lemma fill_lines_ok ts : forall vs hs, (exists ls, fill_lines ts vs hs = Ok ls) <-> holes_lines ts <= length vs.
Proof. induction ts as [|t ts IH]; intros vs hs; cbn [fill_lines holes_lines fold_right]. { split; [lia|]. intros _. exists []. reflexivity. }
  fold (holes_lines ts). split.
  - intros [ls H]. destruct (fill t vs hs) as [[s [v1 h1]]|] eqn:F; cbn [bind] in H; [|discriminate]. apply fill_short in F.
    destruct (fill_lines ts v1 h1) as [r|] eqn:R; cbn [bind] in H; [|discriminate]. assert (X : holes_lines ts <= length v1) by (apply (IH v1 h1); eauto). lia.
  - intros L. destruct (fill_enough t vs hs) as [s [v1 [h1 [F E]]]]; [lia|]. rewrite F. cbn [bind]. destruct (proj2 (IH v1 h1)) as [r R]; [lia|]. rewrite R. cbn [bind]. eexists. reflexivity. Qed.
(* the printed number depends only on the values, the template, and the room in it *)
Lemma prints_edit n c c' : prints_number [] Kcel n c -> (exists vs, c_values c' = (n, Kcel) :: vs) -> length (c_values c') = length (c_values c) ->
  (exists w rest lines, c_input c' = (Hole w :: rest) :: lines /\ match rest with [] => True | Ch x :: _ => is_ws x = true | Hole _ :: _ => False end) ->
  holes_lines (c_input c') = holes_lines (c_input c) -> prints_number [] Kcel n c'.
Proof. intros [_ [_ [T P]]] V L I H. split; [exact V|]. split; [exact I|]. split; [|exact P]. unfold card_text in *.
  apply (proj2 (fill_lines_ok (c_input c') (map fst (c_values c')) (c_hidden c'))). apply fill_lines_ok in T. rewrite map_length in *. lia. Qed.
Lemma set_mat_head mat n vs : set_first Kmat mat ((n, Kcel) :: vs) = (n, Kcel) :: set_first Kmat mat vs. Proof. reflexivity. Qed.
Lemma set_first_length k z vs : length (set_first k z vs) = length vs.
Proof. induction vs as [|[v k'] vs IH]; cbn [set_first length]; [reflexivity|]. destruct (kind_eqb k' k); cbn [length]; congruence. Qed.
Lemma same_mat mat hid c : same_number c (mkCard (c_name c) (set_first Kmat mat (c_values c)) (c_input c) hid).
Proof. split; [reflexivity|]. intros n P. pose proof P as [[vs V] [I _]]. apply (prints_edit n c); cbn [c_values c_input]; [exact P| |apply set_first_length|exact I|reflexivity].
  exists (set_first Kmat mat vs). now rewrite V, set_mat_head. Qed.
Lemma same_hidden hid c : same_number c (mkCard (c_name c) (c_values c) (c_input c) hid).
Proof. split; [reflexivity|]. intros n P. pose proof P as [V [I _]]. apply (prints_edit n c); cbn [c_values c_input]; try reflexivity; assumption. Qed.
Lemma same_refl c : same_number c c. Proof. split; auto. Qed.
(* the words of a template line and their sum of holes *)
Definition wholes (ws : list tline) : nat := fold_right (fun w n => holes w + n) 0 ws.
Lemma holes_rev t : holes (rev t) = holes t.
Proof. induction t as [|i t IH]; [reflexivity|]. cbn [rev]. rewrite holes_app, IH, !holes_cons. unfold holes at 2. cbn [filter length]. lia. Qed.
Lemma tsplit_holes s : forall cur, wholes (tsplit_aux cur s) = holes cur + holes s.
Proof. induction s as [|i s IH]; intros cur; cbn [tsplit_aux].
  - destruct cur; cbn [wholes fold_right]; [reflexivity|]. rewrite holes_rev. change (holes []) with 0. lia.
  - rewrite holes_cons. destruct (is_ws_t i) eqn:W.
    + destruct i as [c|w]; [|discriminate W]. destruct cur as [|x cur]; [rewrite IH; reflexivity|]. cbn [wholes fold_right]. fold (wholes (tsplit_aux [] s)). rewrite IH, holes_rev. change (holes []) with 0. lia.
    + rewrite IH, holes_cons. lia. Qed.
Lemma tjoin_holes ws : holes (tjoin ws) = wholes ws.
Proof. induction ws as [|w ws IH]; [reflexivity|]. cbn [tjoin wholes fold_right]. fold (wholes ws). destruct ws as [|w2 ws]; [cbn [wholes fold_right]; lia|].
  rewrite holes_app, holes_cons, IH. lia. Qed.
Lemma wholes_app a b : wholes (a ++ b) = wholes a + wholes b.
Proof. induction a as [|w a IH]; [reflexivity|]. cbn [app wholes fold_right]. fold (wholes (a ++ b)) (wholes a). rewrite IH. lia. Qed.
Lemma insert_holes n (x : tline) ws : wholes (insert_at n x ws) = holes x + wholes ws.
Proof. unfold insert_at. rewrite wholes_app. cbn [wholes fold_right]. fold (wholes (skipn n ws)). rewrite <- (firstn_skipn n ws) at 3. rewrite wholes_app. lia. Qed.
Lemma add_row w rest : match rest with [] => True | Ch x :: _ => is_ws x = true | Hole _ :: _ => False end ->
  exists rest', tjoin (insert_at 2 (text [tilde]) (tsplit (Hole w :: rest))) = Hole w :: rest' /\ match rest' with [] => True | Ch x :: _ => is_ws x = true | Hole _ :: _ => False end.
Proof. intros R. unfold tsplit. cbn [tsplit_aux is_ws_t].
  assert (E : exists ws, tsplit_aux [Hole w] rest = [Hole w] :: ws).
  { destruct rest as [|[x|x] rest]; [exists []; reflexivity| |contradiction]. cbn [tsplit_aux is_ws_t]. rewrite R. eexists. reflexivity. }
  destruct E as [ws ->]. unfold insert_at. cbn [firstn skipn app].
  assert (G : forall l, l <> [] -> exists rest', tjoin ([Hole w] :: l) = Hole w :: rest' /\ match rest' with [] => True | Ch x :: _ => is_ws x = true | Hole _ :: _ => False end).
  { intros [|y l] N; [contradiction|]. cbn [tjoin app]. eexists. split; [reflexivity|reflexivity]. }
  apply G. destruct ws; discriminate. Qed.
Lemma same_add mat dens c c' : add_material_to_void_cell mat dens c = Ok c' -> same_number c c'.
Proof. unfold add_material_to_void_cell. destruct (parse_float dens) as [q|]; cbn [bind]; [|discriminate]. destruct ((qtrunc q =? 0)%Z || (mat <=? 0)%Z); [discriminate|].
  destruct (get_m c) as [m|]; [|discriminate]. destruct (m =? 0)%Z; [|intros H; injection H as <-; apply same_refl].
  destruct (c_input c) as [|row rows] eqn:EI; [discriminate|]. intros H. match type of H with Ok ?x = Ok _ => assert (EC : c' = x) by congruence end. clear H. subst c'. split; [reflexivity|]. intros n P.
  pose proof P as [[vs V] [[w [rest [lines [I R]]]] _]]. cbn [map app] in I. rewrite EI in I. injection I as -> ->.
  destruct (add_row w rest R) as [rest' [E' R']].
  apply (prints_edit n c); cbn [c_values c_input]; [exact P| |apply set_first_length| |].
  - exists (set_first Kmat mat vs). now rewrite V, set_mat_head.
  - exists w, rest', lines. rewrite E'. split; [reflexivity|exact R'].
  - rewrite EI. cbn [holes_lines fold_right]. rewrite tjoin_holes, insert_holes. unfold tsplit. rewrite tsplit_holes. reflexivity. Qed.
Lemma same_replace mat dens c c' : replace_cell_material mat dens c = Ok c' -> same_number c c'.
Proof. unfold replace_cell_material. destruct (get_m c) as [old|] eqn:M; [|discriminate]. destruct (old =? 0)%Z; [apply same_add|].
  destruct (mat =? 0)%Z.
  - unfold set_cell_void. rewrite M. destruct (old =? 0)%Z; [intros H; injection H as <-; apply same_refl|]. destruct (c_hidden c); [discriminate|]. intros H. injection H as <-. apply same_mat.
  - destruct (c_hidden c); [discriminate|]. intros H. injection H as <-. apply same_mat. Qed.
Lemma same_scale f c c' : scale_cell f c = Ok c' -> same_number c c'.
Proof. unfold scale_cell. destruct (optz_eqb (get_m c) 0); [intros H; injection H as <-; apply same_refl|]. destruct (get_d c) as [d|]; cbn [bind]; [|discriminate].
  unfold set_d. destruct (c_hidden c); [discriminate|]. intros H. injection H as <-. apply same_hidden. Qed.
Lemma replace_good new dens old us h a h' : good h a -> replace_material new dens old us h a = Ok h' -> good h' a.
Proof. intros G H. unfold replace_material in H. destruct (new <? 0)%Z; [discriminate|]. pose proof (good_parts _ _ G) as [N _].
  destruct (edit_run (fun h l => do c <- hget h l; if optz_eqb (get_m c) old && in_universe us c then do c' <- replace_cell_material new dens c; Ok (hset h l c') else Ok h) same_number) with (2 := H) (3 := N) as [L [O I]].
  - clear. intros h l h' H. destruct (hget h l) as [c|] eqn:E; cbn [bind] in H; [|discriminate]. apply hget_ok in E. destruct (optz_eqb (get_m c) old && in_universe us c).
    + destruct (replace_cell_material new dens c) as [c'|] eqn:R; cbn [bind] in H; [|discriminate]. injection H as <-. exists c, c'. split; [exact E|]. split; [now apply same_replace in R|reflexivity].
    + injection H as <-. exists c, c. split; [exact E|]. split; [apply same_refl|]. symmetry. now apply hset_id.
  - exact (edit_good h h' a G L O I). Qed.
Lemma scale_good f h a h' : good h a -> scale_densities f h (i_cells a) = Ok h' -> good h' a.
Proof. intros G H. unfold scale_densities in H. pose proof (good_parts _ _ G) as [N _].
  destruct (edit_run (fun h l => do c <- hget h l; do c' <- scale_cell f c; Ok (hset h l c')) same_number) with (2 := H) (3 := N) as [L [O I]].
  - clear. intros h l h' H. destruct (hget h l) as [c|] eqn:E; cbn [bind] in H; [|discriminate]. apply hget_ok in E.
    destruct (scale_cell f c) as [c'|] eqn:R; cbn [bind] in H; [|discriminate]. injection H as <-. exists c, c'. split; [exact E|]. split; [now apply same_scale in R|reflexivity].
  - exact (edit_good h h' a G L O I). Qed.
Lemma new_good h a c : good h a -> good (h ++ [c]) a.
Proof. intros [GC [GS [KO [KT [ND AL]]]]]. assert (F : forall l, In l (input_locs a) -> nth_error (h ++ [c]) l = nth_error h l) by (intros l Q; apply nth_error_app1; now apply AL).
  split; [apply (block_frame _ _ h); [exact GC|intros l Q; apply F; unfold input_locs; rewrite !in_app_iff; tauto]|].
  split; [apply (block_frame _ _ h); [exact GS|intros l Q; apply F; unfold input_locs; rewrite !in_app_iff; tauto]|].
  repeat (split; [assumption|]). intros l Q. rewrite app_length. apply AL in Q. lia. Qed.

(** *** runs of renumberings *)
Lemma total_cons k o os : total k (o :: os) = (offset_for k o + total k os)%Z. Proof. reflexivity. Qed.
Lemma shifted_moved o v v' : shifted o v v' -> v' = moved [o] v.
Proof. destruct v as [n k], v' as [n' k']. intros H. pose proof (proj1 H) as K. cbn [snd] in K. subst k'. unfold moved. cbn [fst snd]. f_equal. destruct (Z.eqb_spec n 0) as [->|N].
  - destruct H as [_ H]. cbn [fst snd] in H. destruct k; try exact H; destruct (_ o); try exact H; now apply (proj1 H).
  - rewrite (shifted_num _ _ _ _ N H). rewrite total_cons. unfold total. cbn [map fold_right]. lia. Qed.
Lemma never_step o os v : never_zero (o :: os) v -> never_zero os (moved [o] v).
Proof. unfold never_zero, moved. cbn [fst snd]. intros [E|H]; [rewrite E; left; reflexivity|]. destruct (Z.eqb_spec (fst v) 0) as [E|N]; [left; reflexivity|]. right. intros p q ->.
  specialize (H (o :: p) q eq_refl). rewrite total_cons in *. unfold total at 1. cbn [map fold_right]. lia. Qed.
Lemma moved_step o os v : never_zero (o :: os) v -> moved os (moved [o] v) = moved (o :: os) v.
Proof. intros H. unfold moved. cbn [fst snd]. f_equal. destruct (Z.eqb_spec (fst v) 0) as [E|N]; [reflexivity|]. destruct H as [H|H]; [contradiction|]. specialize (H [o] os eq_refl).
  destruct (Z.eqb_spec (fst v + total (snd v) [o]) 0) as [E|_]; [contradiction|]. rewrite !total_cons. unfold total at 1. cbn [map fold_right]. lia. Qed.
Lemma follows_moved marks k o h h1 d d1 : good_block marks k h d -> follows k marks o h h1 d d1 -> block_moved k marks [o] h h1 d d1.
Proof. intros [_ [G _]] [FL F]. assert (X : forall key l key1, In (key, l) d -> In (key1, l) d1 -> exists pre c c' n, In pre marks /\ nth_error h l = Some c /\ nth_error h1 l = Some c' /\
     c_name c = Some n /\ key = pre ++ str_of_Z n /\ c_values c' = map (moved [o]) (c_values c) /\ c_input c' = c_input c /\ c_hidden c' = c_hidden c /\
     c_name c' = Some (n + total k [o])%Z /\ key1 = pre ++ str_of_Z (n + total k [o])).
  { intros key l key1 Q Q1. destruct (G _ _ Q) as [c [n [pre [A [B [P [NM [Z0 EK]]]]]]]]. destruct (F _ _ Q1) as [pre1 [c0 [c' [n' [B1 [A0 [A' [V [EI [EH [PR [NM' EK']]]]]]]]]]]].
    rewrite A in A0. injection A0 as <-. pose proof (prints_mark _ _ _ _ _ _ _ _ PR P EI) as ->. pose proof (shifted_num _ _ _ _ Z0 (follows_values _ _ _ _ _ _ _ _ P PR V)) as ->.
    assert (T : total k [o] = offset_for k o) by (rewrite total_cons; unfold total; cbn [map fold_right]; lia). rewrite T.
    exists pre, c, c', n. repeat (split; [assumption|]). split; [|tauto].
    clear - V. induction V as [|v v' vs vs' S V IH]; [reflexivity|]. cbn [map]. f_equal; [now apply shifted_moved|exact IH]. }
  clear G F. unfold block_moved. revert d1 FL X. induction d as [|[key l] d IH]; intros [|[key1 l1] d1] FL X; try discriminate FL; [constructor|].
  unfold locs in FL. cbn [map snd] in FL. injection FL as -> FL. constructor.
  - cbn [fst snd]. split; [reflexivity|]. apply X; left; reflexivity.
  - apply IH; [exact FL|]. intros; apply X; right; assumption. Qed.
Lemma block_moved_id marks k h d : good_block marks k h d -> block_moved k marks [] h h d d.
Proof. intros [_ [G _]]. unfold block_moved. induction d as [|[key l] d IH]; constructor.
  - cbn [fst snd]. split; [reflexivity|]. destruct (G key l (or_introl eq_refl)) as [c [n [pre [A [B [P [NM [Z0 EK]]]]]]]]. 
    exists pre, c, c, n. change (total k []) with 0%Z. rewrite Z.add_0_r. repeat (split; [assumption|]). split; [|tauto]. clear. symmetry. rewrite <- map_id. apply map_ext. intros [v k]. unfold moved. cbn [fst snd]. change (total k []) with 0%Z. destruct (Z.eqb_spec v 0); f_equal; lia.
  - apply IH. intros; apply G; right; assumption. Qed.
Lemma block_moved_trans marks k o os h h1 h2 d d1 d2 : block_moved k marks [o] h h1 d d1 -> block_moved k marks os h1 h2 d1 d2 ->
  (forall p q, In p marks -> In q marks -> In p surf_marks /\ In q surf_marks) ->
  (forall l c v, In l (locs d) -> nth_error h l = Some c -> In v (c_values c) -> never_zero (o :: os) v) -> block_moved k marks (o :: os) h h2 d d2.
Proof. unfold block_moved. intros F1. revert d2. induction F1 as [|e e1 d d1 [S1 X1] F1 IH]; intros d2 F2 M NZ; inversion F2 as [|? e2 ? d2' [S2 X2] F2']; subst; constructor.
  - split; [congruence|]. destruct X1 as [p [c [c1 [n [Hp [A [A1 [N [E [V [I [Hd [N1 E1]]]]]]]]]]]]]. destruct X2 as [p2 [c1' [c2 [n2 [Hp2 [A1' [A2 [N2 [E2 [V2 [I2 [Hd2 [N2' E2']]]]]]]]]]]]].
    pose proof (eq_trans (eq_sym A1) (eq_trans (eq_sym (f_equal (nth_error h1) S1)) A1')) as EC. injection EC as <-. rewrite N1 in N2. injection N2 as <-.
    assert (p = p2). { rewrite E1 in E2. apply (app_inv_tail _ _ _ E2). } subst p2.
    exists p, c, c2, n. rewrite total_cons. assert (T : total k [o] = offset_for k o) by (rewrite total_cons; unfold total; cbn [map fold_right]; lia). rewrite T in *.
    rewrite Z.add_assoc. split; [exact Hp|]. split; [exact A|]. split; [exact (eq_trans (eq_sym (f_equal (nth_error h2) S1)) A2)|]. split; [exact N|]. split; [exact E|]. split; [|repeat split; congruence].
    rewrite V2, V, map_map. apply map_ext_in. intros v Hv. apply moved_step. apply (NZ (snd e) c v); [left; reflexivity|exact A|exact Hv].
  - apply IH; [exact F2'|exact M|]. intros l c v Q. apply NZ. right. exact Q. Qed.
Lemma run_moved os : forall h a h' a', good h a -> renumber_run os h a = Ok (h', a') ->
  (forall l c v, In l (locs (i_cells a) ++ locs (i_surfs a)) -> nth_error h l = Some c -> In v (c_values c) -> never_zero os v) ->
  good h' a' /\ block_moved Kcel [[]] os h h' (i_cells a) (i_cells a') /\ block_moved Ksur surf_marks os h h' (i_surfs a) (i_surfs a') /\ i_mats a' = i_mats a.
Proof. induction os as [|o os IH]; intros h a h' a' G H NZ; cbn [renumber_run] in H.
  - injection H as <- <-. split; [exact G|]. split; [apply block_moved_id, G|]. split; [apply block_moved_id, G|reflexivity].
  - destruct (renumber o true h a) as [[h1 a1]|] eqn:R; cbn [bind] in H; [|discriminate].
    assert (NUM : forall marks k d, good_block marks k h d -> (forall l, In l (locs d) -> In l (locs (i_cells a) ++ locs (i_surfs a))) -> forall n, has_number h d n -> (n + offset_for k o)%Z <> 0%Z).
    { intros marks k d GB IN n [key [l [c [Q [A N]]]]]. destruct (proj1 (proj2 GB) _ _ Q) as [c0 [n0 [pre [A0 [_ [[[vs V] _] [N0 [Z0 _]]]]]]]]. rewrite A in A0. injection A0 as <-. rewrite N in N0. injection N0 as <-.
      assert (QL : In l (locs d)) by (apply locs_in; eauto). destruct (NZ l c (n, k) (IN l QL) A) as [E|E]; [rewrite V; left; reflexivity|contradiction|]. specialize (E [o] os eq_refl). cbn [fst snd] in E. rewrite total_cons in E. unfold total in E. cbn [map fold_right] in E. lia. }
    destruct (renumber_good o h a h1 a1 G R) as [G1 [FC [FS M]]].
    { apply (NUM [[]] Kcel); [apply G|]. intros l Q. apply in_app_iff. tauto. } { apply (NUM surf_marks Ksur); [apply G|]. intros l Q. apply in_app_iff. tauto. }
    pose proof (follows_moved _ _ _ _ _ _ _ (proj1 G) FC) as BC. pose proof (follows_moved _ _ _ _ _ _ _ (proj1 (proj2 G)) FS) as BS.
    assert (NZ1 : forall l c v, In l (locs (i_cells a1) ++ locs (i_surfs a1)) -> nth_error h1 l = Some c -> In v (c_values c) -> never_zero os v).
    { assert (Y : forall k marks d d1, block_moved k marks [o] h h1 d d1 -> (forall l, In l (locs d) -> In l (locs (i_cells a) ++ locs (i_surfs a))) -> forall l c v, In l (locs d1) -> nth_error h1 l = Some c -> In v (c_values c) -> never_zero os v).
      { intros k marks d d1 B IN l c v Q A Hv. apply locs_in in Q as [key Q]. destruct (Forall2_in_r _ _ _ _ B Q) as [[key0 l0] [Q0 [S [pre [c0 [c1 [n [_ [A0 [A1 [_ [_ [V _]]]]]]]]]]]]]. cbn [fst snd] in *. subst l0. rewrite A in A1. injection A1 as <-.
        rewrite V in Hv. apply in_map_iff in Hv as [v0 [<- Hv]]. apply never_step. apply (NZ l c0 v0); [apply IN, locs_in; eauto|exact A0|exact Hv]. }
      intros l c v Q. apply in_app_iff in Q as [Q|Q]; [apply (Y _ _ _ _ BC)|apply (Y _ _ _ _ BS)]; try exact Q; intros x X; apply in_app_iff; tauto. }
    destruct (IH _ _ _ _ G1 H NZ1) as [G2 [BC2 [BS2 M2]]]. split; [exact G2|]. split; [|split; [|congruence]].
    + eapply block_moved_trans; [exact BC|exact BC2| |]. { intros p q [<-|[]] [<-|[]]. split; left; reflexivity. } intros l c v Q. apply NZ. apply in_app_iff. tauto.
    + eapply block_moved_trans; [exact BS|exact BS2|tauto|]. intros l c v Q. apply NZ. apply in_app_iff. tauto. Qed.
(* a run whose offsets cancel *)
Lemma moved_zero os v : (forall k, total k os = 0%Z) -> moved os v = v.
Proof. intros T. destruct v as [n k]. unfold moved. cbn [fst snd]. rewrite T. destruct (Z.eqb_spec n 0); f_equal; lia. Qed.
Lemma block_back k marks os h h' d d' : (forall k, total k os = 0%Z) -> block_moved k marks os h h' d d' -> d' = d /\ forall l, In l (locs d) -> nth_error h' l = nth_error h l.
Proof. intros T B. unfold block_moved in B. induction B as [|[key l] [key' l'] d d' [S X] B [IH1 IH2]]; [split; [reflexivity|intros l []]|].
  cbn [fst snd] in *. subst l'. destruct X as [pre [c [c' [n [_ [A [A' [N [E [V [I [Hd [N' E']]]]]]]]]]]]]. rewrite T, Z.add_0_r in *. split; [congruence|].
  intros x [E0|Q]; [cbn [snd] in E0; subst x|now apply IH2]. rewrite A, A'. f_equal. destruct c as [cn cv ci ch], c' as [cn' cv' ci' ch']. cbn [c_name c_values c_input c_hidden] in *. subst. f_equal.
  rewrite <- map_id. apply map_ext. intros v. now apply moved_zero. Qed.
