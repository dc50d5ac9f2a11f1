(** Proofs for C30: what extract_cells writes, and what it does to the input it is applied to. *)
From Coq Require Import Lia ZArith Permutation Sorted.
From Verif Require Import PyBase PyLemmas PyStr PyStrLemmas PyText D1SProofs2 WWTextProofs LibModel MatModel MatProofs MatProofs2 MatProofs3 MatProofs4 InpModel InpSpec InpProofs InpProofs2 InpProofs3.
Open Scope nat_scope.

Lemma insert_z_in z l x : In x (insert_z z l) <-> x = z \/ In x l.
Proof. induction l as [|y l IH]; cbn [insert_z]; [cbn; intuition|]. destruct (z =? y)%Z eqn:E; [apply Z.eqb_eq in E; subst; cbn; intuition|].
  destruct (z <? y)%Z; cbn [In]; [intuition|]. rewrite IH. intuition. Qed.
Lemma sort_set_in l x : In x (sort_set l) <-> In x l.
Proof. unfold sort_set. induction l as [|y l IH]; cbn [fold_right In]; [tauto|]. rewrite insert_z_in, IH. intuition. Qed.
Lemma insert_z_sorted z l : StronglySorted Z.lt l -> StronglySorted Z.lt (insert_z z l).
Proof. induction 1 as [|y l S IH F]; cbn [insert_z]; [repeat constructor|]. destruct (z =? y)%Z eqn:E; [constructor; assumption|].
  apply Z.eqb_neq in E. destruct (z <? y)%Z eqn:L; [apply Z.ltb_lt in L|apply Z.ltb_ge in L].
  - constructor; [constructor; assumption|]. constructor; [exact L|]. eapply Forall_impl; [|exact F]. cbn. intros. lia.
  - constructor; [exact IH|]. apply Forall_forall. intros x Hx. apply insert_z_in in Hx as [->|Hx]; [lia|]. rewrite Forall_forall in F. auto. Qed.
Lemma sort_set_sorted l : StronglySorted Z.lt (sort_set l).
Proof. induction l; [constructor|]. now apply insert_z_sorted. Qed.
Lemma sorted_nodup l : StronglySorted Z.lt l -> NoDup l.
Proof. induction 1 as [|y l S IH F]; constructor; [|exact IH]. intros Q. rewrite Forall_forall in F. specialize (F _ Q). lia. Qed.

(** *** _get_cards_by_id *)
Lemma str_of_Z_no_star n : memb Ascii.eqb "*"%char (str_of_Z n) = false.
Proof. assert (D : forall s, digits s -> memb Ascii.eqb "*"%char s = false).
  { induction 1 as [|x s Hx _ IH]; [reflexivity|]. cbn [memb]. rewrite IH. destruct (Ascii.eqb "*" x) eqn:E; [|reflexivity]. apply Ascii.eqb_eq in E. subst x. discriminate Hx. }
  destruct n as [|p|p]; cbn [str_of_Z]; try (apply D, str_of_N_digits). cbn [memb]. change (Ascii.eqb "*" minus) with false. cbn [orb]. apply D, str_of_N_digits. Qed.
Lemma str_of_Z_not_star n s : str_of_Z n <> star s.
Proof. intros E. pose proof (str_of_Z_no_star n) as H. rewrite E in H. discriminate H. Qed.

Lemma get_cards_run (d : cdict) : forall ns sel sel' , foldM (fun sel id =>
    match dget str_eqb id d with
    | Some l => Ok (dset str_eqb id l sel)
    | None => match dget str_eqb (star id) d with
              | Some l => Ok (dset str_eqb (star id) l sel)
              | None => Err KeyError
              end
    end) sel (map str_of_Z ns) = Ok sel' -> NoDup ns ->
  (forall n, In n ns -> ~ In (str_of_Z n) (map fst sel) /\ ~ In (star (str_of_Z n)) (map fst sel)) ->
  exists new, sel' = sel ++ new /\ Forall2 (fun n e => found d (str_of_Z n) e) ns new.
Proof. induction ns as [|n ns IH]; intros sel sel' H ND FR; cbn [map foldM] in H.
  - injection H as <-. exists []. rewrite app_nil_r. split; [reflexivity|constructor].
  - inversion ND as [|? ? NI ND']; subst. destruct (FR n (or_introl eq_refl)) as [F1 F2].
    assert (STEP : forall k l, (k = str_of_Z n \/ k = star (str_of_Z n)) -> found d (str_of_Z n) (k, l) ->
      foldM (fun sel id => match dget str_eqb id d with
        | Some l => Ok (dset str_eqb id l sel)
        | None => match dget str_eqb (star id) d with Some l => Ok (dset str_eqb (star id) l sel) | None => Err KeyError end
        end) (dset str_eqb k l sel) (map str_of_Z ns) = Ok sel' ->
      exists new, sel' = sel ++ new /\ Forall2 (fun n e => found d (str_of_Z n) e) (n :: ns) new).
    { intros k l HK FD H'. rewrite (dset_new str_eqb) in H'. 2:{ apply (dget_none_iff str_eqb str_eqb_eq). destruct HK as [->| ->]; assumption. }
      destruct (IH _ _ H' ND') as [new [-> F]].
      - intros m Hm. destruct (FR m (or_intror Hm)) as [G1 G2]. rewrite map_app. cbn [map fst].
        split; intros Q; apply in_app_or in Q as [Q|[Q|[]]]; try contradiction; destruct HK as [->| ->].
        + apply str_of_Z_inj in Q. subst. contradiction.
        + symmetry in Q. exact (str_of_Z_not_star _ _ Q).
        + exact (str_of_Z_not_star _ _ Q).
        + injection Q as Q. apply str_of_Z_inj in Q. subst. contradiction.
      - exists ((k, l) :: new). rewrite <- app_assoc. split; [reflexivity|]. constructor; [exact FD|exact F]. }
    destruct (dget str_eqb (str_of_Z n) d) as [l|] eqn:G.
    + cbn [bind] in H. eapply STEP; [left; reflexivity| |exact H]. split; [exact G|left; reflexivity].
    + destruct (dget str_eqb (star (str_of_Z n)) d) as [l|] eqn:G2; cbn [bind] in H; [|discriminate].
      eapply STEP; [right; reflexivity| |exact H]. split; [exact G2|right; split; [reflexivity|exact G]]. Qed.
Lemma get_cards_ok d ns sel : get_cards_by_id (map str_of_Z ns) d = Ok sel -> NoDup ns -> Forall2 (fun n e => found d (str_of_Z n) e) ns sel.
Proof. intros H ND. destruct (get_cards_run d ns [] sel H ND) as [new [E F]]; [intros; cbn; tauto|]. now subst. Qed.

(** *** deepcopy *)
Lemma copy_dict_run (h0 : heap) (d : cdict) : forall (pre : heap) (acc : cdict) h' d',
  foldM (fun hd kl => do c <- hget (fst hd) (snd kl); Ok (fst hd ++ [c], snd hd ++ [(fst kl, length (fst hd))])) (h0 ++ pre, acc) d = Ok (h', d') ->
  (forall l, In l (locs d) -> l < length h0) ->
  exists cs, h' = h0 ++ pre ++ cs /\ Forall2 (fun (kl : str * loc) c => nth_error h0 (snd kl) = Some c) d cs /\
    d' = acc ++ combine (map fst d) (seq (length (h0 ++ pre)) (length d)).
Proof. induction d as [|[key l] d IH]; intros pre acc h' d' H AL; cbn [foldM] in H.
  - injection H as <- <-. exists []. rewrite !app_nil_r. repeat split; constructor.
  - cbn [fst snd] in H. destruct (hget (h0 ++ pre) l) as [c|] eqn:G; cbn [bind] in H; [|discriminate]. apply hget_ok in G.
    rewrite nth_error_app1 in G by (apply AL; left; reflexivity). rewrite <- app_assoc in H.
    destruct (IH _ _ _ _ H) as [cs [E1 [F E2]]]; [intros x Hx; apply AL; right; exact Hx|].
    exists (c :: cs). split; [rewrite E1, <- app_assoc; reflexivity|]. split; [constructor; assumption|].
    rewrite E2, <- app_assoc. cbn [map fst length seq combine app]. repeat f_equal. rewrite !app_length. cbn [length]. lia. Qed.
Lemma copy_dict_ok h d h' d' : copy_dict h d = Ok (h', d') -> (forall l, In l (locs d) -> l < length h) ->
  exists cs, h' = h ++ cs /\ Forall2 (fun (kl : str * loc) c => nth_error h (snd kl) = Some c) d cs /\ d' = combine (map fst d) (seq (length h) (length d)).
Proof. unfold copy_dict. intros H AL. destruct (copy_dict_run h d [] [] h' d') as [cs [E1 [F E2]]]; [rewrite app_nil_r; exact H|exact AL|].
  rewrite app_nil_r in E2. exists cs. auto. Qed.
Lemma copy_same h d h' d' : copy_dict h d = Ok (h', d') -> (forall l, In l (locs d) -> l < length h) ->
  same_cards h h' d d' /\ (exists cs, h' = h ++ cs) /\ (forall l, In l (locs d') -> length h <= l < length h') /\ NoDup (locs d').
Proof. intros H AL. destruct (copy_dict_ok _ _ _ _ H AL) as [cs [-> [F ->]]].
  assert (G : forall pre (d : cdict) cs, Forall2 (fun (kl : str * loc) c => nth_error h (snd kl) = Some c) d cs ->
    let d' := combine (map fst d) (seq (length (h ++ pre)) (length d)) in
    same_cards h (h ++ pre ++ cs) d d' /\ locs d' = seq (length (h ++ pre)) (length d) /\ length d = length cs).
  { clear. intros pre d cs F. revert pre. induction F as [|[key l] c d cs Hc F IH]; intros pre; cbn [map fst length seq combine]; [repeat split; constructor|].
    destruct (IH (pre ++ [c])) as [SM [L N]]. rewrite <- app_assoc in SM. cbn [app] in SM.
    replace (length (h ++ pre ++ [c])) with (S (length (h ++ pre))) in * by (rewrite !app_length; cbn [length]; lia).
    repeat split.
    - constructor; [|exact SM]. cbn [fst snd]. split; [reflexivity|]. exists c. split; [exact Hc|]. rewrite app_assoc, nth_error_app2 by lia. now rewrite Nat.sub_diag.
    - unfold locs in *. cbn [map snd]. now rewrite L.
    - now rewrite N. }
  destruct (G [] d cs F) as [S [L N]]. rewrite app_nil_r in *. cbn [app] in S. split; [exact S|]. split; [eauto|]. rewrite L. split; [|apply seq_NoDup].
  intros l Q. apply in_seq in Q. rewrite app_length. lia. Qed.

Lemma same_cards_refl h d : (forall l, In l (locs d) -> l < length h) -> same_cards h h d d.
Proof. induction d as [|[k l] d IH]; intros AL; constructor; [|apply IH; intros; apply AL; right; assumption].
  split; [reflexivity|]. destruct (hget_some h l) as [c [Hc _]]; [apply AL; left; reflexivity|]. exists c. auto. Qed.
Lemma same_cards_keys h h' d d' : same_cards h h' d d' -> map fst d' = map fst d.
Proof. induction 1 as [|e e' d d' [E _] _ IH]; [reflexivity|]. cbn [map]. now rewrite E, IH. Qed.

(** *** removal of the universe *)
Lemma strip_run req (d : cdict) : forall h h', strip_requested req h d = Ok h' -> NoDup (locs d) ->
  length h' = length h /\ forall l, nth_error h' l = if in_dec Nat.eq_dec l (locs d) then option_map (stripped false req) (nth_error h l) else nth_error h l.
Proof. unfold strip_requested. induction d as [|[key l0] d IH]; intros h h' H ND; unfold locs in *; cbn [foldM map snd] in *.
  - injection H as <-. split; [reflexivity|]. intros l. reflexivity.
  - inversion ND as [|? ? NI ND']; subst. destruct (hget h l0) as [c|] eqn:G; cbn [bind] in H; [|discriminate]. apply hget_ok in G.
    assert (X : exists h1, h1 = hset h l0 (stripped false req c) /\ foldM (fun h kl => do c <- hget h (snd kl);
                     match c_values c with
                     | (v, _) :: _ => if zmem v req then Ok (hset h (snd kl) (remove_u c)) else Ok h
                     | [] => Err IndexError
                     end) h1 d = Ok h').
    { eexists. split; [reflexivity|]. unfold stripped. destruct (c_values c) as [|[v k] vs] eqn:V; [discriminate|]. destruct (zmem v req); cbn [bind] in H; [exact H|]. rewrite hset_id by exact G. exact H. }
    destruct X as [h1 [-> X]]. destruct (IH _ _ X ND') as [L V]. rewrite hset_length in L. split; [exact L|]. intros l. rewrite V.
    assert (LT : l0 < length h) by (eapply nth_lt; eauto).
    destruct (in_dec Nat.eq_dec l (map snd d)) as [i|n]; destruct (in_dec Nat.eq_dec l (l0 :: map snd d)) as [i'|n'].
    + rewrite hset_other; [reflexivity|]. intros ->. contradiction.
    + exfalso. apply n'. right. exact i.
    + destruct i' as [->|i']; [|contradiction]. rewrite hset_same by exact LT. now rewrite G.
    + apply hset_other. intros ->. apply n'. left. reflexivity. Qed.

Lemma reach_self R req n : (forall x, In x req -> True) -> In n req -> reach R req n.
Proof. intros _. apply reach_start. Qed.

Lemma extraction_spec fuel h a req keep_u fillers copy h2 cells surfs ms :
  extraction fuel h a req keep_u fillers copy = Ok (Some (h2, (cells, (surfs, ms)))) ->
  (keep_u = false -> copy = true) ->
  (forall l, In l (locs (i_cells a)) -> l < length h) ->
  exists ns ss zs, let N := reach (needs h (i_cells a) fillers) req in
    StronglySorted Z.lt ns /\ (forall n, In n ns <-> N n) /\
    Forall2 (fun n (e : str * loc) => fst e = str_of_Z n /\ exists c, cell_of h (i_cells a) n c /\ nth_error h2 (snd e) = Some (stripped keep_u req c)) ns cells /\
    StronglySorted Z.lt ss /\ (forall s, In s ss <-> exists n c, N n /\ cell_of h (i_cells a) n c /\ In (s, Ksur) (c_values c)) /\
    Forall2 (fun s e => found (i_surfs a) (str_of_Z s) e) ss surfs /\
    StronglySorted Z.lt zs /\ (forall z, In z zs <-> z <> 0%Z /\ exists n c, N n /\ cell_of h (i_cells a) n c /\ In (z, Kmat) (c_values c)) /\
    Forall2 (fun z m => ml_get (i_mats a) (mat_key z) = Ok m) zs (ml_list ms) /\
    (forall l, l < length h -> nth_error h2 l = nth_error h l) /\ length h <= length h2 /\
    (if copy then forall l, In l (locs cells) -> length h <= l else forall l, In l (locs cells) -> In l (locs (i_cells a))) /\
    (forall l, In l (locs cells) -> l < length h2) /\ (copy = true -> NoDup (locs cells)).
Proof. intros H KC AL. unfold extraction in H.
  destruct (collect fuel h (i_cells a) fillers req req) as [o|] eqn:CO; cbn [bind] in H; [|discriminate]. destruct o as [cset|]; [|discriminate].
  destruct (collect_correct h (i_cells a) fillers req fuel req req cset CO) as [RES EX]; auto.
  { intros n Hn. now apply reach_start. } { intros; contradiction. } { intros; contradiction. }
  destruct (get_cards_by_id (map str_of_Z (sort_set cset)) (i_cells a)) as [sel|] eqn:SEL; cbn [bind] in H; [|discriminate].
  apply get_cards_ok in SEL; [|apply sorted_nodup, sort_set_sorted].
  assert (SEL2 : Forall2 (fun n (e : str * loc) => fst e = str_of_Z n /\ exists c, cell_of h (i_cells a) n c /\ dget str_eqb (str_of_Z n) (i_cells a) = Some (snd e) /\ nth_error h (snd e) = Some c) (sort_set cset) sel).
  { assert (SUB : forall n, In n (sort_set cset) -> exists c, cell_of h (i_cells a) n c) by (intros n Hn; apply EX; now apply sort_set_in).
    clear - SEL SUB. induction SEL as [|n [k l] ns sel [A B] F IH]; constructor; [|apply IH; intros; apply SUB; right; assumption].
    destruct (SUB n (or_introl eq_refl)) as [c [l' [C1 C2]]]. cbn [fst snd] in *. destruct B as [->|[_ B]]; [|congruence].
    split; [reflexivity|]. exists c. split; [exists l'; auto|]. split; [exact A|]. congruence. }
  assert (SL : forall l, In l (locs sel) -> In l (locs (i_cells a))).
  { intros l Q. unfold locs in Q. apply in_map_iff in Q as [[k l'] [<- Q]]. destruct (Forall2_in_r _ _ _ _ SEL2 Q) as [n [_ [E [c [_ [D _]]]]]]. cbn [snd] in *.
    apply (dget_some_in str_eqb str_eqb_eq) in D. apply (in_map snd) in D. exact D. }
  assert (CP : exists h1, (if copy then copy_dict h sel else Ok (h, sel)) = Ok (h1, cells) /\
     (do cs <- mapM (fun kl : str * loc => hget h1 (snd kl)) cells;
      do h3 <- (if keep_u then Ok h1 else strip_requested req h1 cells);
      do surfs <- get_cards_by_id (map str_of_Z (sort_set (concat (map surfs_of cs)))) (i_surfs a);
      do ms <- mapM (fun z => ml_get (i_mats a) (mat_key z)) (sort_set (concat (map mats_of cs)));
      Ok (Some (h3, (cells, (surfs, ml_new mt_name ms))))) = Ok (Some (h2, (cells, (surfs, ms))))).
  { destruct (if copy then copy_dict h sel else Ok (h, sel)) as [[h1 cl]|] eqn:C; cbn [bind] in H; [|discriminate].
    assert (cl = cells).
    { destruct (mapM (fun kl : str * loc => hget h1 (snd kl)) cl) as [cs|]; cbn [bind] in H; [|discriminate].
      destruct (if keep_u then Ok h1 else strip_requested req h1 cl) as [h3|]; cbn [bind] in H; [|discriminate].
      destruct (get_cards_by_id (map str_of_Z (sort_set (concat (map surfs_of cs)))) (i_surfs a)) as [s0|]; cbn [bind] in H; [|discriminate].
      destruct (mapM (fun z => ml_get (i_mats a) (mat_key z)) (sort_set (concat (map mats_of cs)))) as [m0|]; cbn [bind] in H; [|discriminate]. injection H as <- <- <- <-. reflexivity. }
    subst cl. exists h1. auto. }
  clear H. destruct CP as [h1 [CP H]].
  assert (SC : same_cards h h1 sel cells /\ (forall l, l < length h -> nth_error h1 l = nth_error h l) /\ length h <= length h1 /\
    (if copy then forall l, In l (locs cells) -> length h <= l else forall l, In l (locs cells) -> In l (locs (i_cells a))) /\
    (forall l, In l (locs cells) -> l < length h1) /\ (copy = true -> NoDup (locs cells))).
  { destruct copy.
    - destruct (copy_same _ _ _ _ CP) as [S [[cs ->] [LG N]]]; [intros; apply AL, SL; assumption|]. split; [exact S|].
      split; [intros; now rewrite nth_error_app1|]. split; [rewrite app_length; lia|]. split; [intros l Q; apply LG in Q; lia|]. split; [intros l Q; apply LG in Q; lia|auto].
    - injection CP as <- <-. split; [apply same_cards_refl; intros; apply AL, SL; assumption|]. split; [reflexivity|]. split; [lia|]. split; [exact SL|]. split; [auto|discriminate]. }
  destruct SC as [SC [H1O [H1L [LF [LB LN]]]]].
  destruct (mapM (fun kl : str * loc => hget h1 (snd kl)) cells) as [cs|] eqn:MC; cbn [bind] in H; [|discriminate].
  destruct (if keep_u then Ok h1 else strip_requested req h1 cells) as [h3|] eqn:ST; cbn [bind] in H; [|discriminate].
  destruct (get_cards_by_id (map str_of_Z (sort_set (concat (map surfs_of cs)))) (i_surfs a)) as [sf|] eqn:GS; cbn [bind] in H; [|discriminate].
  destruct (mapM (fun z => ml_get (i_mats a) (mat_key z)) (sort_set (concat (map mats_of cs)))) as [ml|] eqn:GM; cbn [bind] in H; [|discriminate].
  injection H as <- <- <-.
  apply get_cards_ok in GS; [|apply sorted_nodup, sort_set_sorted]. apply mapM_Forall2 in GM. apply mapM_Forall2 in MC.
  (* the cards that are inspected are those of the needed cells *)
  assert (CS : Forall2 (fun n c => cell_of h (i_cells a) n c) (sort_set cset) cs).
  { clear - SEL2 SC MC. revert cells cs SC MC. induction SEL2 as [|n e ns sel [A [c [B [C D]]]] F IH]; intros cells cs SC MC; inversion SC as [|? e' ? cells' [S1 [c' [S2 S3]]] SC']; subst; inversion MC as [|? y ? cs' M1 MC']; subst; constructor.
    - apply hget_ok in M1. replace y with c by congruence. exact B.
    - eapply IH; eauto. }
  assert (CSI : forall n c, reach (needs h (i_cells a) fillers) req n -> cell_of h (i_cells a) n c -> In c cs).
  { intros n c Hn Hc. assert (In n (sort_set cset)) by (apply sort_set_in, RES; exact Hn). clear - CS Hc H. induction CS as [|m c' ns cs R F IH]; [destruct H|].
    destruct H as [->|H]; [left; destruct R as [l1 [R1 R2]], Hc as [l2 [Q1 Q2]]; congruence|right; auto]. }
  exists (sort_set cset), (sort_set (concat (map surfs_of cs))), (sort_set (concat (map mats_of cs))). cbn zeta.
  assert (H3 : (forall l, l < length h -> nth_error h3 l = nth_error h l) /\ length h3 = length h1 /\
     forall l, In l (locs cells) -> nth_error h3 l = option_map (stripped keep_u req) (nth_error h1 l)).
  { destruct keep_u.
    - injection ST as <-. split; [exact H1O|]. split; [reflexivity|]. intros l _. unfold stripped. destruct (nth_error h1 l); reflexivity.
    - assert (copy = true) by auto. subst copy. destruct (strip_run _ _ _ _ ST (LN eq_refl)) as [L V]. split; [|split; [exact L|]].
      + intros l Q. rewrite V. destruct (in_dec Nat.eq_dec l (locs cells)) as [i|n]; [specialize (LF _ i); lia|auto].
      + intros l Q. rewrite V. destruct (in_dec Nat.eq_dec l (locs cells)) as [i|n]; [reflexivity|contradiction]. }
  destruct H3 as [H3O [H3L H3V]].
  split; [apply sort_set_sorted|]. split; [intros n; rewrite sort_set_in; apply RES|]. split.
  { clear - SEL2 SC H3V. revert cells SC H3V. induction SEL2 as [|n e ns sel [A [c [B [C D]]]] F IH]; intros cells SC H3V; inversion SC as [|? e' ? cells' [S1 [c' [S2 S3]]] SC']; subst; constructor.
    - split; [congruence|]. exists c. split; [exact B|]. rewrite H3V by (left; reflexivity). rewrite S3. cbn [option_map]. congruence.
    - apply IH; [exact SC'|]. intros l Q. apply H3V. right. exact Q. }
  split; [apply sort_set_sorted|]. split.
  { intros s. rewrite sort_set_in, in_concat. split.
    - intros [x [Hx Hs]]. apply in_map_iff in Hx as [c [<- Hc]]. destruct (Forall2_in_r _ _ _ _ CS Hc) as [n [Hn Q]]. exists n, c. split; [apply RES, sort_set_in; exact Hn|]. split; [exact Q|].
      unfold surfs_of in Hs. apply in_map_iff in Hs as [[v k] [<- Hv]]. apply filter_In in Hv as [Hv E]. cbn [snd fst] in *. apply kind_eqb_eq in E. now subst.
    - intros [n [c [Hn [Hc Hs]]]]. exists (surfs_of c). split; [apply in_map; eapply CSI; eauto|]. unfold surfs_of. apply in_map_iff. exists (s, Ksur). split; [reflexivity|]. apply filter_In. auto. }
  split; [exact GS|]. split; [apply sort_set_sorted|]. split.
  { intros z. rewrite sort_set_in, in_concat. split.
    - intros [x [Hx Hs]]. apply in_map_iff in Hx as [c [<- Hc]]. destruct (Forall2_in_r _ _ _ _ CS Hc) as [n [Hn Q]].
      unfold mats_of in Hs. apply filter_In in Hs as [Hs NZ]. apply in_map_iff in Hs as [[v k] [<- Hv]]. apply filter_In in Hv as [Hv E]. cbn [snd fst] in *. apply kind_eqb_eq in E. subst k.
      split; [intros ->; discriminate NZ|]. exists n, c. split; [apply RES, sort_set_in; exact Hn|]. auto.
    - intros [NZ [n [c [Hn [Hc Hs]]]]]. exists (mats_of c). split; [apply in_map; eapply CSI; eauto|]. unfold mats_of. apply filter_In. split.
      + apply in_map_iff. exists (z, Kmat). split; [reflexivity|]. apply filter_In. auto.
      + apply Z.eqb_neq in NZ. now rewrite NZ. }
  split; [exact GM|]. split; [exact H3O|]. split; [lia|]. split; [exact LF|]. split; [intros l Q; rewrite H3L; auto|exact LN]. Qed.
