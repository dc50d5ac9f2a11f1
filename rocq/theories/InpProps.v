(** C28-C32, C36: dictionaries of cards, reading, merging, renumbering, extraction. *)
From Coq Require Import Sorted Lia ZArith.
From Verif Require Import PyBase PyLemmas PyStr PyText LibModel MatModel InpModel InpSpec InpExamples D1SProofs2 MatProofs InpProofs InpProofs2 InpProofs3 InpProofs4 InpProofs5 InpProofs6.
Open Scope nat_scope.

(** ** C31 *)
(** after any run of assignments of different cards, the number in every key is the name of its card *)
Theorem C31_keys_denote_card_names : forall k h d ops h' d', assign_all k h d ops = Ok (h', d') -> keys_match h d ->
  NoDup (map snd ops) -> (forall key l, dget str_eqb key d = Some l -> ~ In l (map snd ops)) -> keys_match h' d'.
Proof. intros k h d ops h' d'. apply assign_all_match. Qed.
Print Assumptions C31_keys_denote_card_names.
(** one assignment: the card gets the number of the key as its name, and prints it if it printed its
    name before; its text template is kept and no other card changes *)
Theorem C31_assignment_renames_the_card : forall k h d key l h' d', setitem k h d key l = Ok (h', d') ->
  d' = dset str_eqb key l d /\
  (exists c c' z, nth_error h l = Some c /\ nth_error h' l = Some c' /\ parse_int (key_num key) = Ok z /\ c_name c' = Some z /\
     c_input c' = c_input c /\ c_hidden c' = c_hidden c /\ (self_named k c -> first_of k (c_values c') = Some z)) /\
  forall l', l' <> l -> nth_error h' l' = nth_error h l'.
Proof. intros k h d key l h' d' H. apply setitem_ok in H as [H ->]. split; [reflexivity|]. split; [|exact (proj2 (force_num_frame _ _ _ _ _ H))].
  pose proof (force_num_name _ _ _ _ _ H) as [c' [z [Hc' [Hz P]]]]. pose proof (force_num_spec _ _ _ _ _ H) as [c [n [z' [Hc _]]]].
  exists c, c', z. split; [exact Hc|]. split; [exact Hc'|]. split; [exact P|]. split; [exact Hz|].
  assert (EQ : c_input c' = c_input c /\ c_hidden c' = c_hidden c).
  { apply force_num_spec in H as [c0 [n0 [z0 [H0 [_ [_ [[-> _]| ->]]]]]]].
    - rewrite Hc in Hc'. injection Hc' as <-. split; reflexivity.
    - rewrite hset_same in Hc' by (eapply nth_lt; exact Hc). injection Hc' as <-. rewrite Hc in H0. injection H0 as <-. split; reflexivity. }
  split; [apply EQ|]. split; [apply EQ|]. intros S. destruct (force_num_self _ _ _ _ _ _ H Hc S) as [c2 [A [[m [Nm F]] _]]]. rewrite Hc' in A. injection A as <-. congruence. Qed.
Print Assumptions C31_assignment_renames_the_card.
(** but storing one card under two keys leaves the first key wrong *)
Theorem C31_card_under_two_keys_refuted : exists h d ops h' d', keys_match h d /\ assign_all Kcel h d ops = Ok (h', d') /\ ~ keys_match h' d'.
Proof. exists x_heap, [], [(s2l "8", 0); (s2l "9", 0)]. eexists. eexists. split; [intros ? ? H; discriminate H|]. split; [vm_compute; reflexivity|].
  intros M. destruct (M (s2l "8") 0 eq_refl) as [c [n [A [B C]]]]. vm_compute in A. injection A as <-. vm_compute in B, C. congruence. Qed.
Print Assumptions C31_card_under_two_keys_refuted.
Example C31_witness : exists h' d', assign_all Kcel x_heap [] [(s2l "8", 0); (s2l "2", 1)] = Ok (h', d') /\ keys_match x_heap [] /\ NoDup (map snd [(s2l "8", 0); (s2l "2", 1)]) /\
  (exists c, card_at h' d' (s2l "8") c /\ card_text c = Ok [s2l "8 0 -10 11"]).
Proof. eexists. eexists. split; [vm_compute; reflexivity|]. split; [intros ? ? H; discriminate H|]. split; [repeat constructor; cbn; intuition congruence|].
  eexists. split; [exists 0; split; vm_compute; reflexivity|]. vm_compute. reflexivity. Qed.

(** ** C32 *)
(** every card that is not a comment is stored, in order, under its own key, all keys different *)
Theorem C32_every_card_is_stored : forall cards d, to_dict cards = Ok d ->
  NoDup (map fst d) /\ Forall2 stored (filter (fun p => negb (is_comment p)) cards) d.
Proof. intros cards d H. destruct (to_dict_aux_spec cards None [] d H) as [A [new [-> B]]]; [constructor|]. split; [exact A|exact B]. Qed.
Print Assumptions C32_every_card_is_stored.
(** a repeated number is never accepted *)
Theorem C32_duplicates_are_rejected : forall cards p q a b c, cards = a ++ p :: b ++ q :: c -> is_comment p = false -> is_comment q = false ->
  own_key p = own_key q -> forall d, to_dict cards <> Ok d.
Proof. intros cards p q a b c -> Np Nq E d H. destruct (C32_every_card_is_stored _ _ H) as [ND F].
  rewrite filter_app in F. cbn [filter] in F. rewrite Np in F. cbn [negb] in F. rewrite filter_app in F. cbn [filter] in F. rewrite Nq in F. cbn [negb] in F.
  apply Forall2_app_inv_l in F as [d1 [d2 [_ [F ->]]]]. inversion F as [|x e xs es S F' E1 E2]; subst. apply Forall2_app_inv_l in F' as [d3 [d4 [_ [F' ->]]]]. inversion F' as [|y e' ys es' S' F'' E1 E2]; subst.
  destruct S as [S _], S' as [S' _]. rewrite map_app in ND. cbn [map] in ND. apply NoDup_remove_2 in ND. apply ND. apply in_or_app. right. rewrite map_app. apply in_or_app. right. left.
  congruence. Qed.
Print Assumptions C32_duplicates_are_rejected.
(** the whole text is kept, as long as every comment block is one card followed by a card *)
Theorem C32_text_is_kept : forall cards d, to_dict cards = Ok d -> comments_attached cards -> concat (map snd d) = concat (map p_lines cards).
Proof. intros cards d H CA. unfold to_dict in H. rewrite (to_dict_aux_text cards None [] d H CA); [reflexivity|]. intros X. now elim X. Qed.
Print Assumptions C32_text_is_kept.
(** of two successive comment cards only the second is kept; a final comment is lost *)
Theorem C32_successive_comments_refuted : exists cards d, to_dict cards = Ok d /\ concat (map snd d) <> concat (map p_lines cards).
Proof. exists [ucard "c one
"; ucard "c two
"; ncard "1 0 -10
"]. eexists. split; [vm_compute; reflexivity|]. vm_compute. discriminate. Qed.
Print Assumptions C32_successive_comments_refuted.
Theorem C32_final_comment_refuted : exists cards d, to_dict cards = Ok d /\ concat (map snd d) <> concat (map p_lines cards).
Proof. exists [ncard "1 0 -10
"; ucard "c end
"]. eexists. split; [vm_compute; reflexivity|]. vm_compute. discriminate. Qed.
Print Assumptions C32_final_comment_refuted.
Example C32_witness : let cards := [ucard "c one
"; ncard "1 0 -10
"; ucard "mode n
"] in comments_attached cards /\ to_dict cards = Ok [(s2l "1", [s2l "c one
"; s2l "1 0 -10
"]); (s2l "MODE", [s2l "mode n
"])].
Proof. cbv zeta. split; [cbn; tauto|]. vm_compute. reflexivity. Qed.

(** ** C28 *)
(** on disjoint numbers the merge is the union: the entries of both, in order, and (data cards) those
    of the second input on a common name *)
Theorem C28_merge_is_the_union : forall h a b,
  settled h (i_cells b) -> settled h (i_surfs b) -> NoDup (dkeys (i_cells b)) -> NoDup (dkeys (i_surfs b)) -> NoDup (dkeys (i_trans b)) -> NoDup (dkeys (i_other b)) ->
  disjoint_keys (i_cells a) (i_cells b) -> disjoint_keys (i_surfs a) (i_surfs b) -> disjoint_keys (i_trans a) (i_trans b) ->
  exists m, merge h a b = ((h, m), None) /\
    i_cells m = i_cells a ++ i_cells b /\ i_surfs m = i_surfs a ++ i_surfs b /\ i_trans m = i_trans a ++ i_trans b /\
    (forall key, dget str_eqb key (i_other m) = match dget str_eqb key (i_other b) with Some l => Some l | None => dget str_eqb key (i_other a) end) /\
    i_mats m = ml_extend mt_name (i_mats a) (ml_list (i_mats b)) /\
    i_tallies m = i_tallies a ++ i_tallies b /\ i_fmesh m = i_fmesh a ++ i_fmesh b /\ i_header m = i_header a.
Proof. intros h a b S1 S2 N1 N2 N3 N4 D1 D2 D3. rewrite merge_disjoint by assumption. eexists. split; [reflexivity|]. cbn [i_cells i_surfs i_trans i_other i_mats i_tallies i_fmesh i_header].
  repeat (split; [reflexivity|]). split; [|auto]. intros key. now apply dupdate_get. Qed.
Print Assumptions C28_merge_is_the_union.
(** KeyError exactly on a clash of cells, surfaces or transformations; the cards of neither input
    change and nothing of the first input is lost *)
Theorem C28_clash_is_reported : forall h a b,
  settled h (i_cells b) -> settled h (i_surfs b) -> NoDup (dkeys (i_cells b)) -> NoDup (dkeys (i_surfs b)) -> NoDup (dkeys (i_trans b)) ->
  let '((h', a'), o) := merge h a b in
  h' = h /\
  (exists done rest, i_cells b = done ++ rest /\ i_cells a' = i_cells a ++ done) /\
  (exists done rest, i_surfs b = done ++ rest /\ i_surfs a' = i_surfs a ++ done) /\
  (exists done rest, i_trans b = done ++ rest /\ i_trans a' = i_trans a ++ done) /\
  (i_mats a' = i_mats a \/ i_mats a' = ml_extend mt_name (i_mats a) (ml_list (i_mats b))) /\
  i_header a' = i_header a /\
  (o = None \/ o = Some KeyError /\ i_other a' = i_other a /\ i_tallies a' = i_tallies a /\ i_fmesh a' = i_fmesh a) /\
  (o = None <-> disjoint_keys (i_cells a) (i_cells b) /\ disjoint_keys (i_surfs a) (i_surfs b) /\ disjoint_keys (i_trans a) (i_trans b)).
Proof. intros h a b. apply merge_outcome. Qed.
Print Assumptions C28_clash_is_reported.
(** but a failed merge is not undone *)
Theorem C28_failed_merge_leaves_cells_refuted : exists h a b h' a' e,
  settled h (i_cells b) /\ settled h (i_surfs b) /\ merge h a b = ((h', a'), Some e) /\ i_cells a' <> i_cells a.
Proof. exists y_heap, x_inp, z_inp. eexists. eexists. eexists. split; [|split; [|split; [vm_compute; reflexivity|vm_compute; discriminate]]].
  - intros key l [E|[E|[]]]; injection E as <- <-; eexists; eexists; (split; [vm_compute; reflexivity|split; reflexivity]).
  - intros key l [E|[]]; injection E as <- <-; eexists; eexists; (split; [vm_compute; reflexivity|split; reflexivity]). Qed.
Print Assumptions C28_failed_merge_leaves_cells_refuted.
Example C28_witness : settled y_heap (i_cells y_inp) /\ settled y_heap (i_surfs y_inp) /\ disjoint_keys (i_cells x_inp) (i_cells y_inp) /\
  map fst (i_cells (snd (fst (merge y_heap x_inp y_inp)))) = [s2l "1"; s2l "2"; s2l "3"; s2l "4"; s2l "7"].
Proof. split; [|split; [|split]].
  - intros key l [E|[]]; injection E as <- <-; eexists; eexists; (split; [vm_compute; reflexivity|split; reflexivity]).
  - intros key l [E|[]]; injection E as <- <-; eexists; eexists; (split; [vm_compute; reflexivity|split; reflexivity]).
  - intros key A [<-|[]]. vm_compute in A. repeat (destruct A as [A|A]; [discriminate|]). exact A.
  - vm_compute. reflexivity. Qed.

(** ** C29 *)
(** every number of every card is shifted according to its type, 0 stays 0, and nothing else changes *)
Theorem C29_every_number_is_shifted : forall o h a, NoDup (input_locs a) -> input_allocated h a ->
  exists h', renumber o false h a = Ok (h', a) /\ length h' = length h /\
    (forall l c, In l (input_locs a) -> nth_error h l = Some c -> exists c', nth_error h' l = Some c' /\
        Forall2 (shifted o) (c_values c) (c_values c') /\ c_input c' = c_input c /\ c_hidden c' = c_hidden c /\ c_name c' = c_name c) /\
    (forall l, ~ In l (input_locs a) -> nth_error h' l = nth_error h l).
Proof. intros o h a ND AL. destruct (renumber_spec o h a ND AL) as [h' [R [L F]]]. exists h'. split; [exact R|]. split; [exact L|]. split.
  - intros l c I Hc. exists (apply_map o c). rewrite F. destruct (in_dec Nat.eq_dec l (input_locs a)) as [_|N]; [|contradiction]. rewrite Hc. split; [reflexivity|]. split; [apply apply_map_shifted|]. auto.
  - intros l N. rewrite F. now destruct (in_dec Nat.eq_dec l (input_locs a)). Qed.
Print Assumptions C29_every_number_is_shifted.
(** two non-zero numbers of one type are equal after the shift iff they were equal before *)
Theorem C29_distinct_numbers_stay_distinct : forall o v1 v2 w1 w2, shifted o v1 w1 -> shifted o v2 w2 -> snd v1 = snd v2 ->
  fst v1 <> 0%Z -> fst v2 <> 0%Z -> (fst w1 = fst w2 <-> fst v1 = fst v2).
Proof. exact shifted_inj. Qed.
Print Assumptions C29_distinct_numbers_stay_distinct.
(** renum_all shifts cells, surfaces, universes, fills and transformations, but not materials *)
Theorem C29_renum_all : forall d n k n', shifted (renum_all d) (n, k) (n', k) <->
  n' = (match k with Kmat | Kother => n | _ => if (n =? 0)%Z then 0 else n + d end)%Z.
Proof. intros d n k n'. unfold shifted. cbn [fst snd renum_all o_cel o_sur o_u o_tr]. destruct (Z.eqb_spec n 0) as [->|N]; destruct k; split; intros H; try (split; [reflexivity|]); try tauto; try (split; intros Q; congruence || lia); try (destruct H as [_ [A B]]; auto; fail). Qed.
Print Assumptions C29_renum_all.
(** with update_keys: the cards keep their order, every key and every name is the new number *)
Theorem C29_keys_follow : forall o h a h' a', NoDup (input_locs a) -> input_allocated h a ->
  numbered_block [[]] Kcel h (i_cells a) -> numbered_block surf_marks Ksur h (i_surfs a) ->
  renumber o true h a = Ok (h', a') ->
  follows Kcel [[]] o h h' (i_cells a) (i_cells a') /\ follows Ksur surf_marks o h h' (i_surfs a) (i_surfs a') /\ i_mats a' = i_mats a.
Proof. intros o h a h' a'. apply renumber_keys. Qed.
Print Assumptions C29_keys_follow.
(** so a shifted reference finds the shifted card *)
Theorem C29_references_resolve : forall o h a h' a', NoDup (input_locs a) -> input_allocated h a ->
  numbered_block [[]] Kcel h (i_cells a) -> numbered_block surf_marks Ksur h (i_surfs a) ->
  renumber o true h a = Ok (h', a') ->
  (forall n n' c, card_at h (i_cells a) (str_of_Z n) c -> prints_number [] Kcel n c -> shifted o (n, Kcel) (n', Kcel) ->
     exists c', card_at h' (i_cells a') (str_of_Z n') c' /\ Forall2 (shifted o) (c_values c) (c_values c')) /\
  (forall pre n n' c, In pre surf_marks -> card_at h (i_surfs a) (pre ++ str_of_Z n) c -> prints_number pre Ksur n c -> shifted o (n, Ksur) (n', Ksur) ->
     exists c', card_at h' (i_surfs a') (pre ++ str_of_Z n') c' /\ Forall2 (shifted o) (c_values c) (c_values c')).
Proof. intros o h a h' a' ND AL N1 N2 R. destruct (renumber_keys o h a h' a' ND AL N1 N2 R) as [F1 [F2 _]]. destruct (renumber_nodup _ _ _ _ _ R) as [K1 K2]. split.
  - intros n n' c A P S. exact (follows_resolve Kcel [[]] o h h' _ _ [] n n' c F1 K1 (or_introl eq_refl) A P S).
  - intros pre n n' c I A P S. exact (follows_resolve Ksur surf_marks o h h' _ _ pre n n' c F2 K2 I A P S). Qed.
Print Assumptions C29_references_resolve.
(** the update of the keys also renames the data cards: the tally that was stored as "F4" is then
    only found as "F4:N" *)
Theorem C29_data_keys_change_refuted : exists o h a h' a', NoDup (input_locs a) /\ input_allocated h a /\
  numbered_block [[]] Kcel h (i_cells a) /\ renumber o true h a = Ok (h', a') /\
  In (s2l "F4") (dkeys (i_other a)) /\ ~ In (s2l "F4") (dkeys (i_other a')).
Proof. exists (renum_all 100), x_heap, (mkInp [(s2l "1", 0)] [] (ml_new mt_name []) [] [(s2l "F4", 7)] [4%Z] [] []). eexists. eexists.
  split; [repeat constructor; cbn; intuition congruence|]. split; [intros l [<-|[<-|[]]]; cbn; lia|]. split.
  - split.
    + intros l [<-|[]]. exists x_c1, 1%Z, []. split; [reflexivity|]. split; [left; reflexivity|]. split; [|discriminate].
      refine (conj _ (conj _ (conj _ _))); [eexists; reflexivity| |eexists; vm_compute; reflexivity|constructor]. exists 1. eexists. eexists. split; [reflexivity|]. reflexivity.
    + intros l1 l2 c1 c2 n p1 p2 [<-|[]] [<-|[]] _ _ _ _. reflexivity.
  - split; [vm_compute; reflexivity|]. split; [left; reflexivity|]. vm_compute. intros [H|[]]. discriminate. Qed.
Print Assumptions C29_data_keys_change_refuted.
Example C29_witness : exists h', renumber (renum_all 100) false x_heap x_inp = Ok (h', x_inp) /\ NoDup (input_locs x_inp) /\ input_allocated x_heap x_inp /\
  (exists c, nth_error h' 1 = Some c /\ card_text c = Ok [s2l "102 0 #101 111 fill=105"]).
Proof. eexists. split; [vm_compute; reflexivity|]. split; [repeat constructor; cbn; intuition congruence|]. split.
  - intros l H. cbn in H. cbn. intuition lia.
  - eexists. split; vm_compute; reflexivity. Qed.

(** ** C30 *)
(** what is extracted: exactly the cells reachable from the requested ones through complements and
    fills, exactly the surfaces and materials these cells use, every transformation and data card;
    nothing in the source input changes *)
Theorem C30_extraction_is_the_closure : forall fuel h a req keep_u fillers h' b,
  extract_cells fuel h a req None keep_u fillers = Ok (Some (h', b)) ->
  input_allocated h a -> settled h (i_cells a) -> settled h (i_surfs a) ->
  exists ns ss zs, let N := reach (needs h (i_cells a) fillers) req in
    StronglySorted Z.lt ns /\ (forall n, In n ns <-> N n) /\
    Forall2 (fun n (e : str * loc) => fst e = str_of_Z n /\ exists c, cell_of h (i_cells a) n c /\ nth_error h' (snd e) = Some (stripped keep_u req c)) ns (i_cells b) /\
    StronglySorted Z.lt ss /\ (forall s, In s ss <-> exists n c, N n /\ cell_of h (i_cells a) n c /\ In (s, Ksur) (c_values c)) /\
    Forall2 (fun s e => found (i_surfs a) (str_of_Z s) e) ss (i_surfs b) /\
    StronglySorted Z.lt zs /\ (forall z, In z zs <-> z <> 0%Z /\ exists n c, N n /\ cell_of h (i_cells a) n c /\ In (z, Kmat) (c_values c)) /\
    Forall2 (fun z m => ml_get (i_mats a) (mat_key z) = Ok m) zs (ml_list (i_mats b)) /\
    same_cards h h' (i_trans a) (i_trans b) /\ same_cards h h' (i_other a) (i_other b) /\ i_header b = i_header a /\
    (forall l, l < length h -> nth_error h' l = nth_error h l).
Proof. exact extract_plain. Qed.
Print Assumptions C30_extraction_is_the_closure.
(** the search ends whenever no two different cells need each other, directly or not (a cell may
    mention itself) *)
Theorem C30_search_terminates : forall h cells fillers (rank : Z -> nat) req,
  (forall l, In l (locs cells) -> exists c, nth_error h l = Some c /\ c_values c <> []) ->
  (forall a b, needs h cells fillers a b -> exists c, cell_of h cells b c) ->
  (forall a b, needs h cells fillers a b -> a <> b -> rank b < rank a) ->
  (forall a, In a req -> exists c, cell_of h cells a c) -> req <> [] ->
  exists fuel res, forall n, collect (fuel + n) h cells fillers req req = Ok (Some res).
Proof. intros h cells fillers rank req A B R C NE. destruct (collect_terminates h cells fillers rank A B R (S (fold_right (fun a m => max (rank a) m) 0 req)) req req C) as [res H]; [|exact NE|].
  - intros a I. clear - I. induction req as [|x l IH]; [destruct I|]. cbn [fold_right]. destruct I as [->|I]; [lia|]. specialize (IH I). lia.
  - eexists. exists res. intros n. rewrite Nat.add_comm. induction n as [|n IH]; [exact H|]. cbn [Nat.add]. now apply collect_more. Qed.
Print Assumptions C30_search_terminates.
(** two cells that exclude each other: extracting one of them never ends *)
Theorem C30_mutual_complement_diverges_refuted : forall fuel, extract_cells fuel loop_heap loop_inp [1%Z] None true true = Ok None.
Proof. intros fuel. unfold extract_cells, extraction. assert (G : forall n cset, collect n loop_heap (i_cells loop_inp) true [1%Z] cset = Ok None /\ collect n loop_heap (i_cells loop_inp) true [2%Z] cset = Ok None).
  { induction n as [|n IH]; intros cset; [split; reflexivity|]. split.
    - change (collect (S n) loop_heap (i_cells loop_inp) true [1%Z] cset) with (collect n loop_heap (i_cells loop_inp) true [2%Z] (cset ++ [2%Z])). apply IH.
    - change (collect (S n) loop_heap (i_cells loop_inp) true [2%Z] cset) with (collect n loop_heap (i_cells loop_inp) true [1%Z] (cset ++ [1%Z])). apply IH. }
  now rewrite (proj1 (G fuel [1%Z])). Qed.
Print Assumptions C30_mutual_complement_diverges_refuted.
(** extraction with renumbering changes nothing in the source but its surfaces *)
Theorem C30_renumbered_extraction_frame : forall fuel h a req o uk keep_u fillers h' b,
  extract_cells fuel h a req (Some (o, uk)) keep_u fillers = Ok (Some (h', b)) -> input_allocated h a ->
  forall l, l < length h -> ~ In l (locs (i_surfs a)) -> nth_error h' l = nth_error h l.
Proof. exact extract_renumbered_frame. Qed.
Print Assumptions C30_renumbered_extraction_frame.
(** and it does renumber the surfaces of the source input *)
Theorem C30_renumbered_extraction_changes_source_refuted : exists h a h' b l, input_allocated h a /\ settled h (i_cells a) /\ settled h (i_surfs a) /\
  extract_cells 5 h a [4%Z] (Some (mkOff None (Some 1000%Z) None None, false)) true true = Ok (Some (h', b)) /\
  In (s2l "12", l) (i_surfs a) /\ (exists c, nth_error h l = Some c /\ card_text c = Ok [s2l "12 px 0"]) /\ (exists c, nth_error h' l = Some c /\ card_text c = Ok [s2l "1012 px 0"]).
Proof. exists x_heap, x_inp. eexists. eexists. exists 6. split; [intros l H; cbn in H; cbn; intuition lia|]. split; [|split; [|split; [vm_compute; reflexivity|split; [cbn; auto|split; eexists; split; vm_compute; reflexivity]]]].
  - intros key l H. cbn in H. repeat (destruct H as [E|H]; [injection E as <- <-; eexists; eexists; split; [vm_compute; reflexivity|split; reflexivity]|]). destruct H.
  - intros key l H. cbn in H. repeat (destruct H as [E|H]; [injection E as <- <-; eexists; eexists; split; [vm_compute; reflexivity|split; reflexivity]|]). destruct H. Qed.
Print Assumptions C30_renumbered_extraction_changes_source_refuted.
(** extract_universe extracts the cells of the universe and what they need *)
Theorem C30_extract_universe : forall fuel h a u ren keep_u r, extract_universe fuel h a u ren keep_u = Ok r ->
  exists req, extract_cells fuel h a req ren keep_u true = Ok r /\
    forall n, In n req <-> exists key l c k, In (key, l) (i_cells a) /\ nth_error h l = Some c /\ get_u c = Some u /\ head (c_values c) = Some (n, k).
Proof. intros fuel h a u ren keep_u r H. unfold extract_universe in H. destruct (universe_cells h a u) as [req|] eqn:U; cbn [bind] in H; [|discriminate]. exists req. split; [exact H|].
  unfold universe_cells in U. match type of U with bind ?X _ = _ => destruct X as [l|] eqn:M end; cbn [bind] in U; [|discriminate]. injection U as <-.
  clear H. revert l M. induction (i_cells a) as [|[key l0] d IH]; intros l M n; cbn [mapM] in M.
  - injection M as <-. split; [intros []|intros [? [? [? [? [[] _]]]]]].
  - cbn [snd] in M. match type of M with bind ?X _ = _ => destruct X as [y|] eqn:Y end; cbn [bind] in M; [|discriminate].
    match type of M with bind ?X _ = _ => destruct X as [ys|] eqn:YS end; cbn [bind] in M; [|discriminate]. injection M as <-.
    cbn [concat]. rewrite in_app_iff, (IH ys eq_refl). destruct (hget h l0) as [c|] eqn:Hc; cbn [bind] in Y; [|discriminate]. apply hget_ok in Hc. split.
    + intros [I|[k1 [l1 [c1 [kk [I R]]]]]]; [|exists k1, l1, c1, kk; split; [right; exact I|exact R]].
      destruct (get_u c) as [u'|] eqn:GU; [|injection Y as <-; destruct I]. destruct (Z.eqb_spec u' u) as [->|]; [|injection Y as <-; destruct I].
      destruct (c_values c) as [|[v k] vs] eqn:V; [discriminate|]. injection Y as <-. destruct I as [<-|[]]. exists key, l0, c, k. split; [left; reflexivity|]. rewrite V. auto.
    + intros [k1 [l1 [c1 [kk [[I|I] R]]]]]; [left|right; exists k1, l1, c1, kk; split; [exact I|exact R]]. injection I as <- <-. destruct R as [R1 [R2 R3]]. rewrite Hc in R1. injection R1 as <-.
      rewrite R2, Z.eqb_refl in Y. destruct (c_values c) as [|[v k] vs]; [discriminate|]. cbn in R3. injection R3 as -> ->. injection Y as <-. left. reflexivity. Qed.
Print Assumptions C30_extract_universe.
(** removing the universe takes "u=5" out of the printed card and leaves the rest *)
Theorem C30_remove_universe_text : forall c pre t1 a w t2 post va u vb ls,
  c_input c = pre ++ (t1 ++ Ch a :: Ch "="%char :: Hole w :: t2) :: post -> is_u a ->
  Forall no_u pre -> no_u t1 -> no_u t2 -> Forall no_u post ->
  c_values c = va ++ (u, Ku) :: vb -> (forall v, In v va -> snd v <> Ku) -> length va = holes_lines pre + holes t1 ->
  card_text c = Ok ls ->
  exists l1 s1 s2 l2, ls = l1 ++ (s1 ++ a :: "="%char :: ljust w (str_of_Z u) ++ s2) :: l2 /\ card_text (remove_u c) = Ok (l1 ++ (s1 ++ s2) :: l2).
Proof. exact remove_u_text. Qed.
Print Assumptions C30_remove_universe_text.
(** a universe given without an equal sign: its number is dropped but its hole is not, and the card
    can no longer be printed *)
Theorem C30_remove_universe_without_equal_refuted : card_text u_card = Ok [s2l "3 0 -10 u 5"] /\ card_text (remove_u u_card) = Err IndexError.
Proof. vm_compute. split; reflexivity. Qed.
Print Assumptions C30_remove_universe_without_equal_refuted.
Example C30_witness : exists h' b, extract_cells 5 x_heap x_inp [2%Z] None false true = Ok (Some (h', b)) /\
  map fst (i_cells b) = [s2l "1"; s2l "2"; s2l "3"] /\ map fst (i_surfs b) = [s2l "10"; s2l "*11"] /\
  input_allocated x_heap x_inp /\ settled x_heap (i_cells x_inp) /\ settled x_heap (i_surfs x_inp).
Proof. eexists. eexists. split; [vm_compute; reflexivity|]. split; [reflexivity|]. split; [reflexivity|]. split; [intros l H; cbn in H; cbn; intuition lia|].
  split; intros key l H; cbn in H; repeat (destruct H as [E|H]; [injection E as <- <-; eexists; eexists; split; [vm_compute; reflexivity|split; reflexivity]|]); destruct H. Qed.
Example C30_witness_universe : card_text (remove_u x_c3) = Ok [s2l "3 0 -10 "] /\ c_input x_c3 = [] ++ (tmpl "@ @ -@ " ++ Ch "u"%char :: Ch "="%char :: Hole 1 :: []) :: [] /\
  no_u (tmpl "@ @ -@ ") /\ length [(3, Kcel); (0, Kmat); (10, Ksur)]%Z = holes_lines [] + holes (tmpl "@ @ -@ ").
Proof. vm_compute. repeat split; reflexivity. Qed.

(** ** C36 *)
(** True iff no number of the range, as printed, is a key of the dictionary stripped of its marks *)
Theorem C36_check_range : forall a rng,
  (exists r, check_range a rng BCell = Ok r /\ (r = true <-> forall i, In i rng -> forall key, In key (dkeys (i_cells a)) -> strip_marks key <> str_of_Z i)) /\
  (exists r, check_range a rng BSurf = Ok r /\ (r = true <-> forall i, In i rng -> forall key, In key (dkeys (i_surfs a)) -> strip_marks key <> str_of_Z i)) /\
  check_range a rng BBad = Err ValueError.
Proof. intros a rng. assert (G : forall keys, negb (existsb (fun i => existsb (fun j => str_eqb (str_of_Z i) (strip_marks j)) keys) rng) = true <-> forall i, In i rng -> forall key, In key keys -> strip_marks key <> str_of_Z i).
  { intros keys. rewrite negb_true_iff. split.
    - intros H i I key K E. assert (X : existsb (fun i => existsb (fun j => str_eqb (str_of_Z i) (strip_marks j)) keys) rng = true); [|congruence].
      apply existsb_exists. exists i. split; [exact I|]. apply existsb_exists. exists key. split; [exact K|]. apply str_eqb_eq. congruence.
    - intros H. destruct (existsb (fun i => existsb (fun j => str_eqb (str_of_Z i) (strip_marks j)) keys) rng) eqn:E; [|reflexivity]. apply existsb_exists in E as [i [I E]]. apply existsb_exists in E as [key [K E]]. apply str_eqb_eq in E. exfalso. apply (H i I key K). congruence. }
  split; [eexists; split; [reflexivity|apply G]|]. split; [eexists; split; [reflexivity|apply G]|reflexivity]. Qed.
Print Assumptions C36_check_range.
(** in terms of numbers: when every key is a number with marks, True iff no card of the kind has a
    number in the range *)
Theorem C36_no_number_in_the_range : forall a rng (num : str -> Z),
  (forall key, In key (dkeys (i_cells a)) -> key = str_of_Z (num key)) ->
  (forall key, In key (dkeys (i_surfs a)) -> exists pre, In pre [[]; s2l "*"; s2l "+"] /\ key = pre ++ str_of_Z (num key)) ->
  (check_range a rng BCell = Ok true <-> forall key, In key (dkeys (i_cells a)) -> ~ In (num key) rng) /\
  (check_range a rng BSurf = Ok true <-> forall key, In key (dkeys (i_surfs a)) -> ~ In (num key) rng).
Proof. intros a rng num HC HS. destruct (C36_check_range a rng) as [[r1 [-> R1]] [[r2 [-> R2]] _]].
  assert (MS : forall n, strip_marks (str_of_Z n) = str_of_Z n).
  { intros n. apply strip_no_marks; [apply str_of_Z_no_star|]. destruct (memb Ascii.eqb "+"%char (str_of_Z n)) eqn:E; [|reflexivity]. exfalso. clear - E.
    assert (H : forall c, In c (str_of_Z n) -> c <> "+"%char).
    { intros c I ->. assert (G : forall m, ~ In "+"%char (PyStr.str_of_N m)). { intros m Q. pose proof (PyStrLemmas.str_of_N_digits m) as D. unfold PyStrLemmas.digits in D. rewrite Forall_forall in D. specialize (D _ Q). vm_compute in D. discriminate. }
      unfold str_of_Z in I. destruct n; [exact (G _ I)|exact (G _ I)|]. destruct I as [I|I]; [discriminate|exact (G _ I)]. }
    induction (str_of_Z n) as [|c s IH]; [discriminate|]. cbn [memb] in E. apply orb_true_iff in E as [E|E]; [apply Ascii.eqb_eq in E; apply (H c); [left; reflexivity|congruence]|]. apply IH; [exact E|]. intros d I. apply H. right. exact I. }
  split; split; intros H.
  - injection H as ->. intros key K I. apply (proj1 R1 eq_refl (num key) I key K). rewrite (HC key K) at 1. apply MS.
  - f_equal. apply R1. intros i I key K E. rewrite (HC key K), MS in E. apply str_of_Z_inj in E. apply (H key K). now rewrite E.
  - injection H as ->. intros key K I. destruct (HS key K) as [pre [P E]]. apply (proj1 R2 eq_refl (num key) I key K). rewrite E at 1. destruct P as [<-|[<-|[<-|[]]]]; cbn [app s2l]; unfold strip_marks; cbn; apply MS.
  - f_equal. apply R2. intros i I key K E. destruct (HS key K) as [pre [P Ek]]. assert (X : strip_marks key = str_of_Z (num key)) by (rewrite Ek at 1; destruct P as [<-|[<-|[<-|[]]]]; cbn [app s2l]; unfold strip_marks; cbn; apply MS).
    rewrite X in E. apply str_of_Z_inj in E. apply (H key K). now rewrite E. Qed.
Print Assumptions C36_no_number_in_the_range.
Example C36_witness : check_range x_inp [1; 2]%Z BCell = Ok false /\ check_range x_inp [5; 6]%Z BCell = Ok true /\ check_range x_inp [11]%Z BSurf = Ok false.
Proof. vm_compute. repeat split; reflexivity. Qed.
