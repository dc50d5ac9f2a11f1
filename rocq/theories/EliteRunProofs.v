(** Proofs for C111: what a call writes as a function of the cards of the input only. *)
From Coq Require Import Lia ZArith QArith Sorted.
From Verif Require Import PyBase PyLemmas PyStr PyStrLemmas PyText D1SProofs2 WWTextProofs LibModel MatModel MatProofs MatProofs2 InpModel InpSpec InpProofs InpProofs2 InpProofs3 InpProofs4 InpProofs5 LookModel LookProofs EliteModel EliteRunModel.
Open Scope nat_scope.

Definition frame (h h' : heap) : Prop := length h <= length h' /\ forall l, l < length h -> nth_error h' l = nth_error h l.
Lemma frame_refl h : frame h h. Proof. split; auto. Qed.
Lemma frame_trans a b c : frame a b -> frame b c -> frame a c.
Proof. intros [A1 A2] [B1 B2]. split; [lia|]. intros l Q. rewrite B2 by lia. auto. Qed.
Lemma frame_app h cs : frame h (h ++ cs).
Proof. split; [rewrite app_length; lia|]. intros l Q. now rewrite nth_error_app1. Qed.
Lemma frame_hset h h' l c : frame h h' -> length h <= l -> frame h (hset h' l c).
Proof. intros [A B] L. split; [now rewrite hset_length|]. intros x Q. rewrite hset_other by lia. auto. Qed.
Lemma frame_get h h' l : frame h h' -> l < length h -> hget h' l = hget h l.
Proof. intros [_ F] L. unfold hget. now rewrite F. Qed.

Lemma mapM_ext {A B} (f g : A -> res B) l : (forall x, In x l -> f x = g x) -> mapM f l = mapM g l.
Proof. induction l as [|x l IH]; intros H; [reflexivity|]. cbn [mapM]. rewrite (H x) by (left; reflexivity). rewrite IH; [reflexivity|]. intros y Q. apply H. now right. Qed.

(** *** dictionaries by value *)
Lemma val_frame h h' d : frame h h' -> (forall l, In l (locs d) -> l < length h) -> by_value h' d = by_value h d.
Proof. intros F AL. unfold by_value. apply mapM_ext. intros [k l] Q. cbn [snd fst]. rewrite (frame_get h h'); auto. apply AL. now apply (in_map snd) in Q. Qed.
Lemma val_ok h d : (forall l, In l (locs d) -> l < length h) -> exists w, by_value h d = Ok w /\ map fst w = map fst d.
Proof. induction d as [|[k l] d IH]; intros AL; [exists []; auto|]. destruct IH as [w [E K]]; [intros x Q; apply AL; now right|].
  destruct (hget_some h l) as [c [_ G]]; [apply AL; left; reflexivity|]. exists ((k, c) :: w). unfold by_value in *. cbn [mapM fst snd]. rewrite G, E. cbn [bind map fst]. split; [reflexivity|congruence]. Qed.
Lemma val_get h d w : by_value h d = Ok w -> forall k, dget str_eqb k w = match dget str_eqb k d with Some l => nth_error h l | None => None end.
Proof. unfold by_value. revert w. induction d as [|[k l] d IH]; intros w H q; cbn [mapM fst snd] in H.
  - injection H as <-. reflexivity.
  - destruct (hget h l) as [c|] eqn:G; cbn [bind] in H; [|discriminate]. destruct (mapM _ d) as [w'|]; cbn [bind] in H; [|discriminate]. injection H as <-. cbn [dget]. destruct (str_eqb q k); [symmetry; now apply hget_ok|now apply IH]. Qed.
Lemma val_dset h d w k l c : by_value h d = Ok w -> nth_error h l = Some c -> by_value h (dset str_eqb k l d) = Ok (dset str_eqb k c w).
Proof. unfold by_value. revert w. induction d as [|[k0 l0] d IH]; intros w H G; cbn [mapM fst snd dset] in *.
  - injection H as <-. apply hget_ok in G. rewrite G. reflexivity.
  - destruct (hget h l0) as [c0|] eqn:G0; cbn [bind] in H; [|discriminate]. destruct (mapM _ d) as [w'|] eqn:E; cbn [bind] in H; [|discriminate]. injection H as <-. cbn [dset].
    destruct (str_eqb k k0); cbn [mapM fst snd].
    + pose proof G as G'. apply hget_ok in G'. rewrite G'. cbn [bind]. rewrite E. reflexivity.
    + rewrite G0. cbn [bind]. rewrite (IH _ eq_refl G). reflexivity. Qed.
Lemma val_hset h d w k l c : NoDup (locs d) -> by_value h d = Ok w -> dget str_eqb k d = Some l -> l < length h -> by_value (hset h l c) d = Ok (dset str_eqb k c w).
Proof. unfold by_value. revert w. induction d as [|[k0 l0] d IH]; intros w ND H D L; cbn [mapM fst snd dget locs map] in *; [discriminate|].
  inversion ND as [|? ? NI ND']; subst. destruct (hget h l0) as [c0|] eqn:G0; cbn [bind] in H; [|discriminate]. destruct (mapM _ d) as [w'|] eqn:E; cbn [bind] in H; [|discriminate]. injection H as <-. cbn [dset].
  destruct (str_eqb k k0).
  - injection D as ->. unfold hget at 1. rewrite hset_same by exact L. cbn [of_opt bind]. rewrite (mapM_ext _ (fun kl => do c <- hget h (snd kl); Ok (fst kl, c))).
    + rewrite E. reflexivity.
    + intros [k1 l1] Q. cbn [snd fst]. unfold hget. rewrite hset_other; [reflexivity|]. intros ->. apply NI. now apply (in_map snd) in Q.
  - assert (NE : l <> l0). { intros ->. apply NI. apply (dget_some_in str_eqb str_eqb_eq) in D. now apply (in_map snd) in D. }
    unfold hget at 1. rewrite hset_other by exact NE. fold (hget h l0). rewrite G0. cbn [bind]. rewrite (IH _ ND' eq_refl D L). reflexivity. Qed.
Lemma val_in h d w : by_value h d = Ok w -> Forall2 (fun (kl : str * loc) (kc : str * card) => fst kl = fst kc /\ nth_error h (snd kl) = Some (snd kc)) d w.
Proof. unfold by_value. intros H. apply mapM_Forall2 in H. eapply Forall2_impl; [|exact H]. intros [k l] kc Q. cbn [fst snd] in *. destruct (hget h l) as [c|] eqn:G; cbn [bind] in Q; [|discriminate]. injection Q as <-. split; [reflexivity|now apply hget_ok]. Qed.
Lemma val_hgets h d w : by_value h d = Ok w -> mapM (fun kl : str * loc => hget h (snd kl)) d = Ok (map snd w).
Proof. unfold by_value. revert w. induction d as [|[k l] d IH]; intros w H; cbn [mapM fst snd] in *; [injection H as <-; reflexivity|].
  destruct (hget h l) as [c|]; cbn [bind] in *; [|discriminate]. destruct (mapM _ d) as [w'|]; cbn [bind] in H; [|discriminate]. injection H as <-. rewrite (IH _ eq_refl). reflexivity. Qed.

(** *** deepcopy by value *)
Lemma copy_val h d : (forall l, In l (locs d) -> l < length h) ->
  exists h' d' w, copy_dict h d = Ok (h', d') /\ by_value h d = Ok w /\ by_value h' d' = Ok w /\ frame h h' /\ map fst d' = map fst d /\
    NoDup (locs d') /\ forall l, In l (locs d') -> length h <= l < length h'.
Proof. intros AL. destruct (copy_total h d AL) as (h' & d' & E). destruct (val_ok h d AL) as (w & W & K). exists h', d', w.
  destruct (copy_same _ _ _ _ E AL) as [S [[cs ->] [L N]]]. split; [exact E|]. split; [exact W|]. split.
  - clear - S W. unfold by_value in *. revert w W. induction S as [|[k l] [k' l'] d d' [A [c [B C]]] _ IH]; intros w W; cbn [mapM fst snd] in *; [exact W|].
    destruct (hget h l) as [c0|] eqn:G; cbn [bind] in W; [|discriminate]. apply hget_ok in G. apply hget_ok in C. rewrite C. cbn [bind].
    destruct (mapM (fun kl : str * loc => do c1 <- hget h (snd kl); Ok (fst kl, c1)) d) as [w'|] eqn:M; cbn [bind] in W; [|discriminate]. injection W as <-. rewrite (IH _ eq_refl). cbn [bind]. congruence.
  - split; [apply frame_app|]. split; [exact (same_cards_keys _ _ _ _ S)|]. split; [exact N|exact L]. Qed.

(** *** removal of the universe by value *)
Definition strip1 (req : list Z) (kc : str * card) : res (str * card) :=
  match c_values (snd kc) with (v, _) :: _ => Ok (fst kc, if zmem v req then remove_u (snd kc) else snd kc) | [] => Err IndexError end.
Lemma strip_val req (d : cdict) : forall h w, NoDup (locs d) -> (forall l, In l (locs d) -> l < length h) -> by_value h d = Ok w ->
  match mapM (strip1 req) w with
  | Err e => strip_requested req h d = Err e
  | Ok w' => exists h', strip_requested req h d = Ok h' /\ by_value h' d = Ok w' /\ length h' = length h /\ forall l, ~ In l (locs d) -> nth_error h' l = nth_error h l
  end.
Proof. unfold strip_requested, by_value. induction d as [|[k l] d IH]; intros h w ND AL H; cbn [mapM fst snd foldM locs map] in *.
  - injection H as <-. cbn [mapM]. exists h. auto.
  - inversion ND as [|? ? NI ND']; subst. destruct (hget h l) as [c|] eqn:G; cbn [bind] in H; [|discriminate].
    destruct (mapM (fun kl : str * loc => do c0 <- hget h (snd kl); Ok (fst kl, c0)) d) as [w0|] eqn:E; cbn [bind] in H; [|discriminate]. injection H as <-. cbn [mapM bind].
    unfold strip1 at 1. cbn [snd fst]. destruct (c_values c) as [|[v kk] vs] eqn:V; [cbn [bind]; reflexivity|]. cbn [bind].
    apply hget_ok in G. set (c' := if zmem v req then remove_u c else c).
    assert (X : (if zmem v req then @Ok heap (hset h l (remove_u c)) else @Ok heap h) = @Ok heap (hset h l c')) by (unfold c'; destruct (zmem v req); [reflexivity|now rewrite hset_id]).
    rewrite X. cbn [bind]. assert (LT : l < length h) by (apply AL; left; reflexivity).
    specialize (IH (hset h l c') w0 ND'). assert (E' : mapM (fun kl : str * loc => do c0 <- hget (hset h l c') (snd kl); Ok (fst kl, c0)) d = Ok w0).
    { rewrite <- E. apply mapM_ext. intros [k1 l1] Q. cbn [snd fst]. unfold hget. rewrite hset_other; [reflexivity|]. intros ->. apply NI. now apply (in_map snd) in Q. }
    specialize (IH ltac:(intros x Q; rewrite hset_length; apply AL; right; exact Q) E'). destruct (mapM (strip1 req) w0) as [w1|e]; cbn [bind].
    + destruct IH as (h' & A & B & C & D). exists h'. split; [exact A|]. rewrite hset_length in C. split; [|split; [exact C|]].
      * unfold hget at 1. rewrite D by exact NI. rewrite hset_same by exact LT. cbn [of_opt bind]. rewrite B. reflexivity.
      * intros x Q. rewrite D by (intros U; apply Q; right; exact U). apply hset_other. intros ->. apply Q. left. reflexivity.
    + exact IH. Qed.

(** *** the extraction by value *)
Definition ext_values (fuel : nat) (h : heap) (a : input) (req : list Z) : res (option (list (str * card) * (cdict * matlist material))) :=
  do o <- collect fuel h (i_cells a) true req req;
  match o with
  | None => Ok None
  | Some cset =>
      do sel <- get_cards_by_id (map str_of_Z (sort_set cset)) (i_cells a);
      do w <- by_value h sel;
      do w' <- mapM (strip1 req) w;
      do surfs <- get_cards_by_id (map str_of_Z (sort_set (concat (map surfs_of (map snd w))))) (i_surfs a);
      do ms <- mapM (fun z => ml_get (i_mats a) (mat_key z)) (sort_set (concat (map mats_of (map snd w))));
      Ok (Some (w', (surfs, ml_new mt_name ms)))
  end.
Lemma get_cards_locs ids d sel : get_cards_by_id ids d = Ok sel -> forall l, In l (locs sel) -> In l (locs d).
Proof. unfold get_cards_by_id. assert (G : forall acc sel, (forall l, In l (locs acc) -> In l (locs d)) -> foldM (fun (s : cdict) id => match dget str_eqb id d with Some l => Ok (dset str_eqb id l s) | None => match dget str_eqb (star id) d with Some l => Ok (dset str_eqb (star id) l s) | None => Err KeyError end end) acc ids = Ok sel -> forall l, In l (locs sel) -> In l (locs d)).
  { induction ids as [|id ids IH]; intros acc s A H; cbn [foldM] in H; [injection H as <-; exact A|].
    destruct (dget str_eqb id d) as [l0|] eqn:D; [|destruct (dget str_eqb (star id) d) as [l0|] eqn:D'; [|discriminate]]; cbn [bind] in H; (eapply IH; [|exact H]);
      intros l Q; apply dset_locs in Q; destruct Q as [->|Q]; auto; [apply (dget_some_in str_eqb str_eqb_eq) in D; now apply (in_map snd) in D|apply (dget_some_in str_eqb str_eqb_eq) in D'; now apply (in_map snd) in D']. }
  apply G. intros l []. Qed.
Lemma collect_frame h h' cells (AL : forall l, In l (locs cells) -> l < length h) : frame h h' -> forall fuel front cset, collect fuel h' cells true front cset = collect fuel h cells true front cset.
Proof. intros F. induction fuel as [|fuel IH]; intros front cset; [reflexivity|]. cbn [collect].
  assert (E : collect_step h' cells true front = collect_step h cells true front).
  { unfold collect_step. rewrite (mapM_ext (fun n => do l <- of_opt KeyError (dget str_eqb (str_of_Z n) cells); hget h' l) (fun n => do l <- of_opt KeyError (dget str_eqb (str_of_Z n) cells); hget h l)).
    - destruct (mapM _ front) as [cs|]; cbn [bind]; [|reflexivity]. erewrite mapM_ext; [reflexivity|]. intros [k l] Q. cbn [snd]. rewrite (frame_get h h'); auto. apply AL. now apply (in_map snd) in Q.
    - intros n _. destruct (dget str_eqb (str_of_Z n) cells) as [l|] eqn:D; cbn [of_opt bind]; [|reflexivity]. apply (frame_get h h' l F). apply AL. apply (dget_some_in str_eqb str_eqb_eq) in D. now apply (in_map snd) in D. }
  rewrite E. destruct (collect_step h cells true front) as [[|z r]|]; cbn [bind]; [reflexivity| |reflexivity]. apply IH. Qed.
Lemma ext_frame fuel h h' a req : (forall l, In l (locs (i_cells a)) -> l < length h) -> frame h h' -> ext_values fuel h' a req = ext_values fuel h a req.
Proof. intros AL F. unfold ext_values. rewrite (collect_frame h h' _ AL F). destruct (collect fuel h (i_cells a) true req req) as [[cset|]|]; cbn [bind]; try reflexivity.
  destruct (get_cards_by_id (map str_of_Z (sort_set cset)) (i_cells a)) as [sel|] eqn:E; cbn [bind]; [|reflexivity]. rewrite (val_frame h h' sel F); [reflexivity|]. intros l Q. apply AL. eapply get_cards_locs; eauto. Qed.

Lemma extraction_val fuel h a req : (forall l, In l (locs (i_cells a)) -> l < length h) ->
  match ext_values fuel h a req with
  | Err e => extraction fuel h a req false true true = Err e
  | Ok None => extraction fuel h a req false true true = Ok None
  | Ok (Some (w, (surfs, ms))) => exists h2 cells, extraction fuel h a req false true true = Ok (Some (h2, (cells, (surfs, ms)))) /\
      by_value h2 cells = Ok w /\ frame h h2 /\ (forall l, In l (locs cells) -> length h <= l < length h2) /\ (forall l, In l (locs surfs) -> In l (locs (i_surfs a)))
  end.
Proof. intros AL. unfold ext_values, extraction. destruct (collect fuel h (i_cells a) true req req) as [[cset|]|]; cbn [bind]; try reflexivity.
  destruct (get_cards_by_id (map str_of_Z (sort_set cset)) (i_cells a)) as [sel|] eqn:SEL; cbn [bind]; [|reflexivity].
  assert (AS : forall l, In l (locs sel) -> l < length h) by (intros l Q; apply AL; eapply get_cards_locs; eauto).
  destruct (copy_val h sel AS) as (h1 & d1 & w & C & W & W1 & F & K & ND & L). rewrite C, W. cbn [bind]. rewrite (val_hgets _ _ _ W1). cbn [bind].
  assert (L' : forall l, In l (locs d1) -> l < length h1) by (intros l Q; apply L in Q; lia).
  pose proof (strip_val req d1 h1 w ND L' W1) as SV. destruct (mapM (strip1 req) w) as [w'|e]; cbn [bind].
  - destruct SV as (h2 & S1 & S2 & S3 & S4). rewrite S1. cbn [bind].
    destruct (get_cards_by_id (map str_of_Z (sort_set (concat (map surfs_of (map snd w))))) (i_surfs a)) as [surfs|] eqn:SU; cbn [bind]; [|reflexivity].
    destruct (mapM (fun z => ml_get (i_mats a) (mat_key z)) (sort_set (concat (map mats_of (map snd w))))) as [ms|]; cbn [bind]; [|reflexivity].
    exists h2, d1. split; [reflexivity|]. split; [exact S2|]. split.
    + destruct F as [F1 F2]. split; [lia|]. intros l Q. rewrite S4; [auto|]. intros U. apply L in U. lia.
    + split; [intros l Q; rewrite S3; auto|]. exact (get_cards_locs _ _ _ SU).
  - rewrite SV. reflexivity. Qed.
