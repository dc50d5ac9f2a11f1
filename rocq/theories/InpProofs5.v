(** Proofs for C30: the input that extract_cells writes. *)
From Coq Require Import Lia ZArith Permutation Sorted.
From Verif Require Import PyBase PyLemmas PyStr PyStrLemmas PyText D1SProofs2 WWTextProofs LibModel MatModel MatProofs MatProofs2 MatProofs3 MatProofs4 InpModel InpSpec InpProofs InpProofs2 InpProofs3 InpProofs4.
Open Scope nat_scope.

Lemma setter_noop (k : kind) (f : str -> str) (h : heap) (d : cdict) :
  (forall key l, In (key, l) d -> exists c n, nth_error h l = Some c /\ c_name c = Some n /\ f key = str_of_Z n) ->
  foldM (fun h kl => force_num k (f (fst kl)) h (snd kl)) h d = Ok h.
Proof. induction d as [|[key l] d IH]; intros H; cbn [foldM]; [reflexivity|]. destruct (H key l (or_introl eq_refl)) as [c [n [A [B C]]]]. cbn [fst snd].
  rewrite (force_num_settled k _ h l c n A B C). cbn [bind]. apply IH. intros. apply H. right. assumption. Qed.
Lemma stripped_name keep_u req c : c_name (stripped keep_u req c) = c_name c.
Proof. unfold stripped. destruct keep_u; [reflexivity|]. destruct (c_values c) as [|[v k] vs]; [reflexivity|]. destruct (zmem v req); reflexivity. Qed.

Lemma copy_prefix h d h' d' : copy_dict h d = Ok (h', d') -> (forall l, In l (locs d) -> l < length h) -> forall l, l < length h -> nth_error h' l = nth_error h l.
Proof. intros H AL l Q. destruct (copy_same _ _ _ _ H AL) as [_ [[cs ->] _]]. now rewrite nth_error_app1. Qed.
Lemma copy_len h d h' d' : copy_dict h d = Ok (h', d') -> (forall l, In l (locs d) -> l < length h) -> length h <= length h'.
Proof. intros H AL. destruct (copy_same _ _ _ _ H AL) as [_ [[cs ->] _]]. rewrite app_length. lia. Qed.
Lemma same_cards_ext h h' k k' d d' : same_cards h h' d d' -> (forall l, In l (locs d) -> nth_error k l = nth_error h l) -> (forall l, l < length h' -> nth_error k' l = nth_error h' l) -> same_cards k k' d d'.
Proof. intros S A B. unfold locs in A. induction S as [|e e' d d' [E [c [X Y]]] F IH]; constructor.
  - split; [exact E|]. exists c. split; [rewrite A; [exact X|left; reflexivity]|rewrite B; [exact Y|eapply nth_lt; eauto]].
  - apply IH. intros l Q. apply A. right. exact Q. Qed.

Lemma extract_plain fuel h a req keep_u fillers h' b :
  extract_cells fuel h a req None keep_u fillers = Ok (Some (h', b)) ->
  input_allocated h a -> settled h (i_cells a) -> settled h (i_surfs a) ->
  exists ns ss zs, let N := reach (needs h (i_cells a) fillers) req in
    StronglySorted Z.lt ns /\ (forall n, In n ns <-> N n) /\
    Forall2 (fun n (e : str * loc) => fst e = str_of_Z n /\ exists c, cell_of h (i_cells a) n c /\ nth_error h' (snd e) = Some (stripped keep_u req c)) ns (i_cells b) /\
    StronglySorted Z.lt ss /\ (forall s, In s ss <-> exists n c, N n /\ cell_of h (i_cells a) n c /\ In (s, Ksur) (c_values c)) /\
    Forall2 (fun s e => found (i_surfs a) (str_of_Z s) e) ss (i_surfs b) /\
    StronglySorted Z.lt zs /\ (forall z, In z zs <-> z <> 0%Z /\ exists n c, N n /\ cell_of h (i_cells a) n c /\ In (z, Kmat) (c_values c)) /\
    Forall2 (fun z m => ml_get (i_mats a) (mat_key z) = Ok m) zs (ml_list (i_mats b)) /\
    same_cards h h' (i_trans a) (i_trans b) /\ same_cards h h' (i_other a) (i_other b) /\ i_header b = i_header a /\
    (forall l, l < length h -> nth_error h' l = nth_error h l).
Proof. intros H AL SC SS. unfold extract_cells in H.
  destruct (extraction fuel h a req keep_u fillers (negb keep_u)) as [o|] eqn:EX; cbn [bind] in H; [|discriminate].
  destruct o as [[h1 [cells [surfs ms]]]|]; [|discriminate].
  assert (ALC : forall l, In l (locs (i_cells a)) -> l < length h) by (intros l Q; apply AL; unfold input_locs; apply in_or_app; tauto).
  assert (ALT : forall l, In l (locs (i_trans a)) -> l < length h) by (intros l Q; apply AL; unfold input_locs; rewrite !in_app_iff; tauto).
  assert (ALO : forall l, In l (locs (i_other a)) -> l < length h) by (intros l Q; apply AL; unfold input_locs; rewrite !in_app_iff; tauto).
  destruct (extraction_spec _ _ _ _ _ _ _ _ _ _ _ EX) as [ns [ss [zs [P1 [P2 [P3 [P4 [P5 [P6 [P7 [P8 [P9 [P10 [P11 [P12 [P13 P14]]]]]]]]]]]]]]]]; [now intros ->|exact ALC|].
  destruct (copy_dict h1 (i_trans a)) as [[h2 ts]|] eqn:C1; cbn [bind] in H; [|discriminate].
  destruct (copy_dict h2 (i_other a)) as [[h3 os]|] eqn:C2; cbn [bind] in H; [|discriminate].
  assert (A1 : forall l, In l (locs (i_trans a)) -> l < length h1) by (intros l Q; specialize (ALT l Q); lia).
  assert (L2 : length h1 <= length h2) by (eapply copy_len; eauto).
  assert (A2 : forall l, In l (locs (i_other a)) -> l < length h2) by (intros l Q; specialize (ALO l Q); lia).
  assert (L3 : length h2 <= length h3) by (eapply copy_len; eauto).
  assert (V3 : forall l, l < length h1 -> nth_error h3 l = nth_error h1 l).
  { intros l Q. rewrite (copy_prefix _ _ _ _ C2 A2) by lia. now apply (copy_prefix _ _ _ _ C1 A1). }
  assert (SETC : cells_setter h3 cells = Ok h3).
  { unfold cells_setter. apply (setter_noop Kcel (fun s => s)). intros key l Q. destruct (Forall2_in_r _ _ _ _ P3 Q) as [n [Hn [E [c [Hc Hl]]]]]. cbn [fst snd] in *.
    destruct Hc as [l0 [D1 D2]]. destruct (SC (str_of_Z n) l0) as [c0 [m [X1 [X2 X3]]]]; [now apply (dget_some_in str_eqb str_eqb_eq)|].
    rewrite plain_key_num in X3. rewrite D2 in X1. injection X1 as <-.
    exists (stripped keep_u req c), m. rewrite V3 by (apply P13; apply (in_map snd) in Q; exact Q). rewrite stripped_name. split; [exact Hl|]. split; [exact X2|congruence]. }
  assert (SETS : surfs_setter h3 surfs = Ok h3).
  { unfold surfs_setter. apply (setter_noop Ksur key_num). intros key l Q. destruct (Forall2_in_r _ _ _ _ P6 Q) as [s [Hs [D _]]]. cbn [fst snd] in *.
    destruct (SS key l) as [c [m [X1 [X2 X3]]]]; [now apply (dget_some_in str_eqb str_eqb_eq)|]. exists c, m. pose proof (nth_lt _ _ _ X1). rewrite V3, P10 by lia. auto. }
  rewrite SETC in H. cbn [bind] in H. rewrite SETS in H. cbn [bind] in H. injection H as <- <-. cbn [i_cells i_surfs i_mats i_trans i_other i_header].
  exists ns, ss, zs. cbn zeta. split; [exact P1|]. split; [exact P2|]. split.
  { assert (G : Forall (fun e : str * loc => In (snd e) (locs cells)) cells) by (apply Forall_forall; intros e Q; now apply in_map).
    clear - P3 V3 P13 G. revert P13 G. generalize (locs cells) at 1 2. intros L P13 G. induction P3 as [|n e ns cells [E [c [X Y]]] F IH]; constructor.
    - split; [exact E|]. exists c. split; [exact X|]. rewrite V3; [exact Y|]. apply P13. inversion G. assumption.
    - apply IH. inversion G. assumption. }
  split; [exact P4|]. split; [exact P5|]. split; [exact P6|]. split; [exact P7|]. split; [exact P8|]. split; [exact P9|].
  destruct (copy_same _ _ _ _ C1 A1) as [S1 _]. destruct (copy_same _ _ _ _ C2 A2) as [S2 _].
  split; [eapply (same_cards_ext h1 h2); [exact S1| |]|split; [eapply (same_cards_ext h2 h3); [exact S2| |]|split; [reflexivity|]]].
  - intros l Q. symmetry. apply P10, ALT, Q.
  - intros l Q. now apply (copy_prefix _ _ _ _ C2 A2).
  - intros l Q. specialize (ALO l Q). rewrite (copy_prefix _ _ _ _ C1 A1) by lia. symmetry. now apply P10.
  - reflexivity.
  - intros l Q. rewrite V3 by lia. now apply P10. Qed.

(** frames of renumbering *)
Lemma renum_dict_frame o d : forall h h', renum_dict o h d = Ok h' -> forall l, ~ In l (locs d) -> nth_error h' l = nth_error h l.
Proof. unfold renum_dict. induction d as [|[k l0] d IH]; intros h h' H l NI; cbn [foldM] in H; [now injection H as <-|].
  cbn [snd] in H. destruct (hget h l0) as [c|]; cbn [bind] in H; [|discriminate]. rewrite (IH _ _ H) by (intros Q; apply NI; right; exact Q).
  apply hset_other. intros ->. apply NI. left. reflexivity. Qed.
Lemma setter_frame (k : kind) (f : str -> str) (d : cdict) : forall h h', foldM (fun h kl => force_num k (f (fst kl)) h (snd kl)) h d = Ok h' ->
  forall l, ~ In l (locs d) -> nth_error h' l = nth_error h l.
Proof. induction d as [|[key l0] d IH]; intros h h' H l NI; cbn [foldM] in H; [now injection H as <-|].
  cbn [fst snd] in H. destruct (force_num k (f key) h l0) as [h1|] eqn:E; cbn [bind] in H; [|discriminate]. rewrite (IH _ _ H) by (intros Q; apply NI; right; exact Q).
  apply (force_num_frame _ _ _ _ _ E). intros ->. apply NI. left. reflexivity. Qed.
Lemma dset_locs key l (d : cdict) x : In x (locs (dset str_eqb key l d)) -> x = l \/ In x (locs d).
Proof. unfold locs. induction d as [|[k l0] d IH]; cbn [dset map snd]; [intros [<-|[]]; auto|]. destruct (str_eqb key k); cbn [map snd In]; [intuition|].
  intros [<-|Q]; [auto|]. destruct (IH Q); auto. Qed.
Lemma rekey_locs h d d' : rekey h d = Ok d' -> forall l, In l (locs d') -> In l (locs d).
Proof. unfold rekey. assert (G : forall (d acc d' : cdict), foldM (fun nd kl => do c <- hget h (snd kl); do key <- card_key c; Ok (dset str_eqb key (snd kl) nd)) acc d = Ok d' ->
    forall l, In l (locs d') -> In l (locs acc) \/ In l (locs d)).
  { clear. induction d as [|[k l0] d IH]; intros acc d' H l Q; cbn [foldM] in H; [injection H as <-; auto|]. cbn [snd] in H.
    destruct (hget h l0) as [c|]; cbn [bind] in H; [|discriminate]. destruct (card_key c) as [key|]; cbn [bind] in H; [|discriminate].
    destruct (IH _ _ H l Q) as [X|X]; [|right; right; exact X]. apply dset_locs in X as [->|X]; [right; left; reflexivity|auto]. }
  intros H l Q. destruct (G _ _ _ H l Q) as [[]|X]. exact X. Qed.
Lemma renumber_frame o uk h a h' a' : renumber o uk h a = Ok (h', a') -> forall l, ~ In l (input_locs a) -> nth_error h' l = nth_error h l.
Proof. unfold renumber. intros H l NI. unfold input_locs in NI. rewrite !in_app_iff in NI.
  destruct (renum_dict o h (i_cells a)) as [h1|] eqn:E1; cbn [bind] in H; [|discriminate].
  destruct (renum_dict o h1 (i_surfs a)) as [h2|] eqn:E2; cbn [bind] in H; [|discriminate].
  destruct (renum_dict o h2 (i_other a)) as [h3|] eqn:E3; cbn [bind] in H; [|discriminate].
  destruct (renum_dict o h3 (i_trans a)) as [h4|] eqn:E4; cbn [bind] in H; [|discriminate].
  assert (V : nth_error h4 l = nth_error h l).
  { rewrite (renum_dict_frame _ _ _ _ E4) by tauto. rewrite (renum_dict_frame _ _ _ _ E3) by tauto. rewrite (renum_dict_frame _ _ _ _ E2) by tauto. now apply (renum_dict_frame _ _ _ _ E1); tauto. }
  destruct uk; [|injection H as <- <-; exact V]. unfold update_card_keys in H.
  destruct (rekey h4 (i_cells a)) as [cs|] eqn:R1; cbn [bind] in H; [|discriminate]. destruct (rekey h4 (i_surfs a)) as [ss|] eqn:R2; cbn [bind] in H; [|discriminate].
  destruct (rekey h4 (i_other a)) as [os|]; cbn [bind] in H; [|discriminate]. destruct (rekey h4 (i_trans a)) as [ts|]; cbn [bind] in H; [|discriminate].
  destruct (cells_setter h4 cs) as [h5|] eqn:S5; cbn [bind] in H; [|discriminate]. destruct (surfs_setter h5 ss) as [h6|] eqn:S6; cbn [bind] in H; [|discriminate].
  injection H as <- <-. rewrite (setter_frame Ksur key_num _ _ _ S6) by (intros Q; apply (rekey_locs _ _ _ R2) in Q; tauto).
  rewrite (setter_frame Kcel (fun s => s) _ _ _ S5) by (intros Q; apply (rekey_locs _ _ _ R1) in Q; tauto). exact V. Qed.

(** with renumbering: no card of the source changes except the surfaces that were extracted *)
Lemma extract_renumbered_frame fuel h a req o uk keep_u fillers h' b :
  extract_cells fuel h a req (Some (o, uk)) keep_u fillers = Ok (Some (h', b)) -> input_allocated h a ->
  forall l, l < length h -> ~ In l (locs (i_surfs a)) -> nth_error h' l = nth_error h l.
Proof. intros H AL l LT NI. unfold extract_cells in H.
  destruct (extraction fuel h a req keep_u fillers true) as [x|] eqn:EX; cbn [bind] in H; [|discriminate].
  destruct x as [[h1 [cells [surfs ms]]]|]; [|discriminate].
  assert (ALC : forall l, In l (locs (i_cells a)) -> l < length h) by (intros m Q; apply AL; unfold input_locs; apply in_or_app; tauto).
  assert (ALT : forall l, In l (locs (i_trans a)) -> l < length h) by (intros m Q; apply AL; unfold input_locs; rewrite !in_app_iff; tauto).
  assert (ALO : forall l, In l (locs (i_other a)) -> l < length h) by (intros m Q; apply AL; unfold input_locs; rewrite !in_app_iff; tauto).
  destruct (extraction_spec _ _ _ _ _ _ _ _ _ _ _ EX) as [ns [ss [zs [P1 [P2 [P3 [P4 [P5 [P6 [P7 [P8 [P9 [P10 [P11 [P12 [P13 P14]]]]]]]]]]]]]]]]; [reflexivity|exact ALC|].
  destruct (copy_dict h1 (i_trans a)) as [[h2 ts]|] eqn:C1; cbn [bind] in H; [|discriminate].
  destruct (copy_dict h2 (i_other a)) as [[h3 os]|] eqn:C2; cbn [bind] in H; [|discriminate].
  assert (A1 : forall l, In l (locs (i_trans a)) -> l < length h1) by (intros m Q; specialize (ALT m Q); lia).
  assert (L2 : length h1 <= length h2) by (eapply copy_len; eauto).
  assert (A2 : forall l, In l (locs (i_other a)) -> l < length h2) by (intros m Q; specialize (ALO m Q); lia).
  destruct (copy_same _ _ _ _ C1 A1) as [_ [_ [G1 _]]]. destruct (copy_same _ _ _ _ C2 A2) as [_ [_ [G2 _]]].
  assert (NS : ~ In l (locs surfs)).
  { intros Q. apply NI. unfold locs in Q. apply in_map_iff in Q as [[key l'] [E Q]]. cbn [snd] in E. subst l'. destruct (Forall2_in_r _ _ _ _ P6 Q) as [s [_ [D _]]]. cbn [fst snd] in D.
    apply (dget_some_in str_eqb str_eqb_eq) in D. apply (in_map snd) in D. exact D. }
  assert (NC : ~ In l (locs cells)) by (intros Q; specialize (P12 _ Q); lia).
  destruct (cells_setter h3 cells) as [h4|] eqn:S4; cbn [bind] in H; [|discriminate]. destruct (surfs_setter h4 surfs) as [h5|] eqn:S5; cbn [bind] in H; [|discriminate].
  destruct (renumber o uk h5 _) as [[h6 b']|] eqn:R; cbn [bind] in H; [|discriminate]. injection H as <- <-.
  rewrite (renumber_frame _ _ _ _ _ _ R). 2:{ unfold input_locs. cbn [i_cells i_surfs i_other i_trans]. rewrite !in_app_iff. intros [Q|[Q|[Q|Q]]]; [auto|auto|specialize (G2 _ Q); lia|specialize (G1 _ Q); lia]. }
  rewrite (setter_frame Ksur key_num _ _ _ S5) by exact NS. rewrite (setter_frame Kcel (fun s => s) _ _ _ S4) by exact NC.
  rewrite (copy_prefix _ _ _ _ C2 A2) by lia. rewrite (copy_prefix _ _ _ _ C1 A1) by lia. now apply P10. Qed.
