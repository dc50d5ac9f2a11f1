(** Proofs about the lists of tallies of an input over its life. *)
From Coq Require Import Lia ZArith Permutation.
From Verif Require Import PyBase PyLemmas PyStr PyStrLemmas PyText D1SProofs2 LibModel MatModel MatProofs MatProofs2 InpModel InpGeomSpec RssaProofs2 DataModel DataSpec DataProofs DataProofs2 TalSumModel TalSumSpec TalSumProofs HelpSpec TalHistModel TalHistSpec.
Open Scope nat_scope.

Lemma kMesh : letters (s2l "FMESH"). Proof. repeat constructor. Qed.
Lemma fmesh_name key : pat_fmesh key = true <-> mesh_name key.
Proof.
  unfold pat_fmesh, mesh_name. destruct (strip_prefix (s2l "FMESH") key) as [r|] eqn:E.
  - pose proof (proj1 (strip_prefix_spec _ _ _) E) as K. split.
    + destruct r as [|d r]; [discriminate|]. intros D. exists d, r. auto.
    + intros (d & r' & K' & D). rewrite K in K'. apply app_inv_head in K'. rewrite K'. exact D.
  - split; [discriminate|]. intros (d & r & K & D). assert (X : strip_prefix (s2l "FMESH") key = Some (d :: r)) by (apply strip_prefix_spec; exact K). congruence.
Qed.
Lemma dset_keys_iff {V} (k k' : str) (v : V) d : In k' (dkeys (dset str_eqb k v d)) <-> k' = k \/ In k' (dkeys d).
Proof. exact (dset_keys str_eqb str_eqb_eq k v d k'). Qed.
Lemma put_keys key k ls d : In k (dkeys (d_other (put key ls d))) <-> k = key \/ In k (dkeys (d_other d)).
Proof. apply dset_keys_iff. Qed.

(** ** reading *)
Lemma list_cards cards : forall l l', foldM list_card l cards = Ok l' -> exists ts ms, l' = (fst l ++ ts, snd l ++ ms) /\
  Forall2 (fun kc n => rc_name (snd kc) = Some n) (filter (fun kc => rc_fn (snd kc)) cards) ts /\
  Forall2 (fun kc n => rc_name (snd kc) = Some n) (filter (fun kc => negb (rc_fn (snd kc)) && pat_fmesh (fst kc)) cards) ms.
Proof.
  induction cards as [|kc cards IH]; intros l l' H.
  - apply Ok_inj in H. rewrite <- H. exists [], []. rewrite !app_nil_r. split; [destruct l; reflexivity|split; constructor].
  - cbn [foldM] in H. unfold list_card at 1 in H. cbn [filter]. destruct (rc_fn (snd kc)) eqn:F; cbn [negb andb].
    + destruct (rc_name (snd kc)) as [n|] eqn:N; [|discriminate H]. cbn [of_opt bind] in H. destruct (IH _ _ H) as (ts & ms & -> & A & B). cbn [fst snd]. exists (n :: ts), ms. rewrite <- app_assoc. split; [reflexivity|]. split; [constructor; assumption|exact B].
    + destruct (pat_fmesh (fst kc)) eqn:P.
      * destruct (rc_name (snd kc)) as [n|] eqn:N; [|discriminate H]. cbn [of_opt bind] in H. destruct (IH _ _ H) as (ts & ms & -> & A & B). cbn [fst snd]. exists ts, (n :: ms). rewrite <- app_assoc. split; [reflexivity|]. split; [exact A|constructor; assumption].
      * cbn [bind] in H. exact (IH _ _ H).
Qed.
Lemma list_cards_ok cards : Forall right cards -> forall l, exists l', foldM list_card l cards = Ok l'.
Proof.
  intros R. induction R as [|kc cards (A & B & C) _ IH]; intros l; [eexists; reflexivity|]. cbn [foldM]. unfold list_card at 1.
  destruct (rc_fn (snd kc)) eqn:F.
  - destruct (proj1 A eq_refl) as (n & P & K). rewrite (B n P (or_introl K)). cbn [of_opt bind]. apply IH.
  - destruct (pat_fmesh (fst kc)) eqn:P; [|apply IH]. apply fmesh_name in P. destruct (C P) as (n & Q & K). rewrite (B n Q (or_intror K)). cbn [of_opt bind]. apply IH.
Qed.
Lemma F2_in_r {A B} (R : A -> B -> Prop) la lb y : Forall2 R la lb -> In y lb -> exists x, In x la /\ R x y.
Proof. intros F. induction F as [|a b la lb H _ IH]; intros I; [destruct I|]. destruct I as [<-|I]; [exists a; split; [left; reflexivity|exact H]|]. destruct (IH I) as (x & X & Y). exists x. split; [right; exact X|exact Y]. Qed.
Lemma F2_in_l {A B} (R : A -> B -> Prop) la lb x : Forall2 R la lb -> In x la -> exists y, In y lb /\ R x y.
Proof. intros F. induction F as [|a b la lb H _ IH]; intros I; [destruct I|]. destruct I as [<-|I]; [exists b; split; [left; reflexivity|exact H]|]. destruct (IH I) as (y & X & Y). exists y. split; [right; exact X|exact Y]. Qed.

Definition inv (t : tinput) : Prop :=
  (forall n, In n (ti_tallies t) <-> (0 <= n)%Z /\ In (kcat "F" n) (dkeys (ti_other t))) /\
  (forall n, In n (ti_meshes t) <-> (0 <= n)%Z /\ In (kcat "FMESH" n) (dkeys (ti_other t))).
Lemma str_of_Z_digits n : (0 <= n)%Z -> str_of_Z n <> [] /\ Forall (fun c => is_digit c = true) (str_of_Z n).
Proof. intros P. split; [apply str_of_Z_no_ws|]. destruct n as [|p|p]; [apply str_of_N_digits|apply str_of_N_digits|lia]. Qed.
Lemma mesh_digit n : (0 <= n)%Z -> mesh_name (kcat "FMESH" n).
Proof. intros P. unfold mesh_name, kcat. destruct (str_of_Z_digits n P) as [A B]. destruct (str_of_Z n) as [|d r]; [congruence|]. exists d, r. split; [reflexivity|]. inversion B; assumption. Qed.
Lemma read_inv cards t : Forall right cards -> read_tallies cards = Ok t -> inv t.
Proof.
  intros R H. unfold read_tallies in H. destruct (foldM list_card ([], []) cards) as [l|] eqn:E; [|discriminate H]. cbn [bind] in H. apply Ok_inj in H. destruct (list_cards _ _ _ E) as (ts & ms & -> & A & B). cbn [fst snd app] in H.
  assert (KE : dkeys (ti_other t) = map fst cards) by (rewrite <- H; cbn [ti_other]; unfold dkeys; rewrite map_map; reflexivity).
  assert (TE : ti_tallies t = ts /\ ti_meshes t = ms) by (rewrite <- H; auto). clear H. destruct TE as [TE1 TE2]. unfold inv. rewrite TE1, TE2.
  rewrite Forall_forall in R. split; intros n; rewrite KE, in_map_iff; (split; [intros I|intros (P & kc & K & I)]).
  - destruct (F2_in_r _ _ _ n A I) as (kc & J & N). apply filter_In in J. destruct J as [J F]. destruct (R kc J) as (RA & RB & _). destruct (proj1 RA F) as (m & P & K). pose proof (RB m P (or_introl K)) as X. assert (m = n) by congruence. subst m. split; [exact P|]. exists kc. auto.
  - destruct (R kc I) as (RA & RB & _). assert (F : rc_fn (snd kc) = true) by (apply RA; exists n; auto). destruct (F2_in_l _ _ _ kc A) as (m & M & X); [apply filter_In; auto|]. pose proof (RB n P (or_introl K)) as Y. assert (m = n) by congruence. subst m. exact M.
  - destruct (F2_in_r _ _ _ n B I) as (kc & J & N). apply filter_In in J. destruct J as [J F]. apply andb_prop in F. destruct F as [_ F]. apply fmesh_name in F. destruct (R kc J) as (_ & RB & RC). destruct (RC F) as (m & P & K). pose proof (RB m P (or_intror K)) as X. assert (m = n) by congruence. subst m. split; [exact P|]. exists kc. auto.
  - destruct (R kc I) as (RA & RB & _). assert (F : rc_fn (snd kc) = false).
    { destruct (rc_fn (snd kc)) eqn:F; [|reflexivity]. destruct (proj1 RA eq_refl) as (m & _ & K'). rewrite K in K'. apply kcat_inj in K'; [|exact kMesh|exact kF]. destruct K' as [K' _]. discriminate K'. }
    destruct (F2_in_l _ _ _ kc B) as (m & M & X); [apply filter_In; split; [exact I|]; rewrite F; cbn [negb andb]; rewrite K; apply fmesh_name, mesh_digit, P|]. pose proof (RB n P (or_intror K)) as Y. assert (m = n) by congruence. subst m. exact M.
Qed.

(** ** adding *)
Section Add.
  Context (wrap : list str -> list str).
  Lemma opt_put_keys {A} (o : option A) key k (f : A -> list str) d : k <> key -> (In k (dkeys (d_other (match o with Some x => put key (f x) d | None => d end))) <-> In k (dkeys (d_other d))).
  Proof. intros N. destruct o; [rewrite put_keys; tauto|tauto]. Qed.
  Lemma if_put_keys (b : bool) key k ls d : k <> key -> (In k (dkeys (d_other (if b then put key ls d else d))) <-> In k (dkeys (d_other d))).
  Proof. intros N. destruct b; [rewrite put_keys; tauto|tauto]. Qed.
  Lemma add_spec x t t' : add_tally wrap x t = (t', None) ->
    ti_tallies t' = ti_tallies t ++ [a_id x] /\ ti_meshes t' = ti_meshes t /\
    (forall k, ~ In k [kcat "FC" (a_id x); kcat "E" (a_id x); kcat "SD" (a_id x); kcat "FM" (a_id x)] -> (In k (dkeys (ti_other t')) <-> k = kcat "F" (a_id x) \/ In k (dkeys (ti_other t)))).
  Proof.
    unfold add_tally, add_F_tally. destruct (particles_text (a_particles x)) as [ps|e]; [|intros H; apply pair_equal_spec in H; destruct H as [_ H]; discriminate H]. intros H. apply pair_equal_spec in H. destruct H as [H _]. rewrite <- H. cbn [ti_tallies ti_meshes ti_other].
    split; [destruct (a_mult x), (a_sd x), (a_energies x), (a_desc x); reflexivity|]. split; [reflexivity|].
    intros k N. cbn [In] in N. assert (N1 : k <> kcat "FC" (a_id x)) by (intros X; apply N; auto). assert (N2 : k <> kcat "E" (a_id x)) by (intros X; apply N; auto). assert (N3 : k <> kcat "SD" (a_id x)) by (intros X; apply N; auto). assert (N4 : k <> kcat "FM" (a_id x)) by (intros X; apply N; auto 6).
    rewrite opt_put_keys by exact N4. rewrite if_put_keys by exact N3. rewrite opt_put_keys by exact N2. rewrite put_keys. rewrite opt_put_keys by exact N1. reflexivity.
  Qed.
End Add.
Lemma other_kinds n m : ~ In (kcat "F" n) [kcat "FC" m; kcat "E" m; kcat "SD" m; kcat "FM" m] /\ ~ In (kcat "FMESH" n) [kcat "FC" m; kcat "E" m; kcat "SD" m; kcat "FM" m].
Proof. split; (intros I; cbn [In] in I; destruct I as [I|[I|[I|[I|[]]]]]; (apply kcat_inj in I; [destruct I as [I _]; discriminate I|first [exact kFC|exact kE|exact kSD|exact kFM]|first [exact kF|exact kMesh]])). Qed.
Lemma add_inv wrap x t t' : (0 <= a_id x)%Z -> inv t -> add_tally wrap x t = (t', None) -> inv t'.
Proof.
  intros P [A B] H. destruct (add_spec wrap x t t' H) as (T & M & K). split; intros n.
  - rewrite T, (K _ (proj1 (other_kinds n (a_id x)))), in_app_iff, A. cbn [In]. split.
    + intros [[Q I]|[<-|[]]]; [auto|auto].
    + intros [Q [E|I]]; [|auto]. apply kcat_inj in E; [|exact kF|exact kF]. destruct E as [_ ->]. auto.
  - rewrite M, (K _ (proj2 (other_kinds n (a_id x)))), B. split; [intros [Q I]; auto|]. intros [Q [E|I]]; [|auto]. apply kcat_inj in E; [|exact kMesh|exact kF]. destruct E as [E _]. discriminate E.
Qed.
Lemma stop_inv q t : inv t -> inv (add_stop q t).
Proof.
  intros [A B]. unfold add_stop, add_stopCard. split; intros n; cbn [ti_tallies ti_meshes ti_other]; rewrite put_keys; [rewrite A|rewrite B]; cbn [d_other]; (split; [intros [Q I]; auto|intros [Q [E|I]]; [discriminate E|auto]]).
Qed.
Lemma update_keys_iff {V} (b a : list (str * V)) k : In k (dkeys (fold_left (fun d kl => dset str_eqb (fst kl) (snd kl) d) b a)) <-> In k (dkeys a) \/ In k (dkeys b).
Proof.
  revert a. induction b as [|kl b IH]; intros a; cbn [fold_left]; [cbn [dkeys map In]; tauto|]. rewrite IH, dset_keys_iff. cbn [dkeys map In]. unfold dkeys. intuition congruence.
Qed.
Lemma merge_inv t u : inv t -> inv u -> inv (merge_tallies t u).
Proof. intros [A B] [C D]. split; intros n; cbn [merge_tallies ti_tallies ti_meshes ti_other]; rewrite in_app_iff, update_keys_iff; [rewrite A, C|rewrite B, D]; tauto. Qed.
Lemma life_inv wrap l : forall t, sound_life l -> live wrap l = Ok t -> inv t.
Proof.
  induction l as [cards|x l IH|q l IH|l IH o IHo]; intros t S H; cbn [live sound_life] in *.
  - exact (read_inv _ _ S H).
  - destruct (live wrap l) as [t0|] eqn:E; [|discriminate H]. cbn [bind] in H. destruct (add_tally wrap x t0) as [t1 [e|]] eqn:EA; [discriminate H|]. apply Ok_inj in H. subst t1. destruct S as [P S]. exact (add_inv _ _ _ _ P (IH _ S eq_refl) EA).
  - destruct (live wrap l) as [t0|] eqn:E; [|discriminate H]. cbn [bind] in H. apply Ok_inj in H. subst t. apply stop_inv. exact (IH _ S eq_refl).
  - destruct (live wrap l) as [t0|] eqn:E; [|discriminate H]. cbn [bind] in H. destruct (live wrap o) as [u|] eqn:E'; [|discriminate H]. cbn [bind] in H. apply Ok_inj in H. subst t. destruct S as [S1 S2]. apply merge_inv; [exact (IH _ S1 eq_refl)|exact (IHo _ S2 eq_refl)].
Qed.
Lemma life_given wrap l : forall t, live wrap l = Ok t -> given l (ti_tallies t) /\ given_meshes l (ti_meshes t).
Proof.
  induction l as [cards|x l IH|q l IH|l IH o IHo]; intros t H; cbn [live given given_meshes] in *.
  - unfold read_tallies in H. destruct (foldM list_card ([], []) cards) as [p|] eqn:E; [|discriminate H]. cbn [bind] in H. apply Ok_inj in H. rewrite <- H. destruct (list_cards _ _ _ E) as (ts & ms & -> & A & B). cbn [fst snd app ti_tallies ti_meshes]. split; [exact A|]. eexists. split; [exact B|reflexivity].
  - destruct (live wrap l) as [t0|] eqn:E; [|discriminate H]. cbn [bind] in H. destruct (add_tally wrap x t0) as [t1 [e|]] eqn:EA; [discriminate H|]. apply Ok_inj in H. subst t1. destruct (add_spec _ _ _ _ EA) as (T & M & _). destruct (IH _ eq_refl) as [G1 G2]. rewrite T, M. split; [|exact G2]. exists (ti_tallies t0). auto.
  - destruct (live wrap l) as [t0|] eqn:E; [|discriminate H]. cbn [bind] in H. apply Ok_inj in H. subst t. exact (IH _ eq_refl).
  - destruct (live wrap l) as [t0|] eqn:E; [|discriminate H]. cbn [bind] in H. destruct (live wrap o) as [u|] eqn:E'; [|discriminate H]. cbn [bind] in H. apply Ok_inj in H. subst t. destruct (IH _ eq_refl) as [G1 G2]. destruct (IHo _ eq_refl) as [G3 G4]. cbn [merge_tallies ti_tallies ti_meshes]. split; eauto 8.
Qed.

(** ** the summary *)
Lemma row_tally repr tag d n r : tally_row repr tag d n = Ok r -> r_tally r = n.
Proof. unfold tally_row. destruct (foldM (add_card repr tag n d) (mkTI None None None) (get_tally_cards n (mkD d []))) as [i|]; [|discriminate]. destruct (i_mult i) as [[|m ms]|]; [discriminate| |]; intros H; apply Ok_inj in H; rewrite <- H; reflexivity. Qed.
Lemma mapM_rows repr tag d ns : forall rows, mapM (tally_row repr tag d) ns = Ok rows -> Forall2 (fun n r => tally_row repr tag d n = Ok r) ns rows.
Proof. induction ns as [|n ns IH]; intros rows H; cbn [mapM] in H; [apply Ok_inj in H; subst rows; constructor|]. destruct (tally_row repr tag d n) as [r|] eqn:E; [|discriminate H]. cbn [bind] in H. destruct (mapM (tally_row repr tag d) ns) as [rs|]; [|discriminate H]. cbn [bind] in H. apply Ok_inj in H. subst rows. constructor; [exact E|apply IH; reflexivity]. Qed.
Lemma summary_rows repr fmesh d tk fk rows : get_tally_summary repr fmesh d tk fk = Ok rows ->
  exists rs, Permutation rows rs /\ Forall2 (fun n r => tally_row repr (if fmesh then "FMESH" else "F")%string d n = Ok r) (if fmesh then fk else tk) rs.
Proof.
  unfold get_tally_summary. destruct (mapM _ _) as [rs|] eqn:E; [|discriminate]. destruct rs as [|r rs]; [discriminate|]. intros H. apply Ok_inj in H. exists (r :: rs). split; [rewrite <- H; apply sort_perm|]. exact (mapM_rows _ _ _ _ _ E).
Qed.
Lemma F2_split {A B} (R : A -> B -> Prop) n l1 l2 : In n l1 -> In n l2 -> (forall r r', R n r -> R n r' -> r = r') -> forall rs, Forall2 R (l1 ++ l2) rs -> exists r l, R n r /\ Permutation rs (r :: r :: l).
Proof.
  intros I1 I2 U rs F. apply Forall2_app_inv_l in F. destruct F as (r1 & r2 & F1 & F2 & ->). destruct (F2_in_l _ _ _ n F1 I1) as (r & J1 & X1). destruct (F2_in_l _ _ _ n F2 I2) as (r' & J2 & X2). assert (r' = r) by (apply U; assumption). subst r'.
  apply in_split in J1, J2. destruct J1 as (a & b & ->). destruct J2 as (c & e & ->). exists r, (a ++ b ++ c ++ e). split; [exact X1|]. rewrite <- app_assoc. cbn [app]. rewrite <- Permutation_middle. constructor. rewrite !app_assoc. rewrite <- Permutation_middle. reflexivity.
Qed.
Lemma merge_get a b k : NoDup (dkeys (ti_other b)) -> dget str_eqb k (ti_other (merge_tallies a b)) = match dget str_eqb k (ti_other b) with Some v => Some v | None => dget str_eqb k (ti_other a) end.
Proof.
  unfold merge_tallies. cbn [ti_other]. generalize (ti_other a) as d. induction (ti_other b) as [|[k0 v] e IH]; intros d N; [reflexivity|]. cbn [fold_left dget fst snd]. cbn [dkeys map fst] in N. inversion N as [|? ? N1 N2]; subst. rewrite IH by exact N2. destruct (str_eqb k k0) eqn:E.
  - apply str_eqb_eq in E. subst k0. destruct (dget str_eqb k e) eqn:G; [|apply (dget_dset_same str_eqb str_eqb_eq)]. apply (dget_some_in str_eqb str_eqb_eq) in G. destruct N1. apply (in_map fst) in G. exact G.
  - rewrite (dget_dset_other str_eqb str_eqb_eq); [reflexivity|]. intros X. subst k0. rewrite str_eqb_refl in E. discriminate E.
Qed.

(** ** cards that are parsed right *)
Lemma right_tally n ls : (0 <= n)%Z -> right (kcat "F" n, mkRC ls true (Some n)).
Proof.
  intros P. unfold right. cbn [fst snd rc_fn rc_name]. split; [split; [intros _; exists n; auto|reflexivity]|]. split.
  - intros m Q [E|E]; (apply kcat_inj in E; [|exact kF|first [exact kF|exact kMesh]]); destruct E as [E ->]; [reflexivity|discriminate E].
  - intros (d & r & E & D). exfalso. unfold kcat in E. change (s2l "FMESH" ++ d :: r) with ("F"%char :: "M"%char :: "E"%char :: "S"%char :: "H"%char :: d :: r) in E. change (s2l "F") with ["F"%char] in E. cbn [app] in E. destruct (str_of_Z_digits n P) as [A B]. destruct (str_of_Z n) as [|c s]; [congruence|]. injection E as E _. subst c. inversion B as [|? ? X _]. discriminate X.
Qed.
Lemma right_mesh n ls : (0 <= n)%Z -> right (kcat "FMESH" n, mkRC ls false (Some n)).
Proof.
  intros P. unfold right. cbn [fst snd rc_fn rc_name]. split; [split; [discriminate|]|].
  - intros (m & _ & E). apply kcat_inj in E; [|exact kMesh|exact kF]. destruct E as [E _]. discriminate E.
  - split; [|intros _; exists n; auto]. intros m Q [E|E]; (apply kcat_inj in E; [|exact kMesh|first [exact kF|exact kMesh]]); destruct E as [E ->]; [discriminate E|reflexivity].
Qed.
Lemma right_other (p : string) n ls : letters (s2l p) -> s2l p <> s2l "F" -> s2l p <> s2l "FMESH" -> right (kcat p n, mkRC ls false None).
Proof.
  intros L N1 N2. unfold right. cbn [fst snd rc_fn rc_name]. split; [split; [discriminate|]|].
  - intros (m & _ & E). apply kcat_inj in E; [|exact L|exact kF]. destruct E as [E _]. contradiction.
  - split; [intros m Q [E|E]; (apply kcat_inj in E; [|exact L|first [exact kF|exact kMesh]]); destruct E as [E _]; contradiction|].
    intros (d & r & E & D). exfalso. assert (X : LibModel.span_letters (kcat p n) = (s2l "FMESH", d :: r)) by (rewrite E; apply DataProofs.span_letters_app; [exact kMesh|apply digit_not_letter, D]). rewrite (kcat_span p n L) in X. apply pair_equal_spec in X. destruct X as [X _]. contradiction.
Qed.

(** Updating the keys: the lists stay, and the cards are found under the first word of their text. *)
Lemma update_lists t t' : update_keys t = Ok t' -> ti_tallies t' = ti_tallies t /\ ti_meshes t' = ti_meshes t.
Proof. unfold update_keys. destruct (foldM _ _ _) as [d|]; [|discriminate]. cbn [bind]. intros H. injection H as <-. auto. Qed.
Lemma update_fold (l : list (str * list str)) : forall nd d, foldM (fun nd (kl : str * list str) => do k <- data_key (snd kl); Ok (dset str_eqb k (snd kl) nd)) nd l = Ok d ->
  (forall k ls, dget str_eqb k d = Some ls -> (exists k0, In (k0, ls) l /\ data_key ls = Ok k) \/ dget str_eqb k nd = Some ls)
  /\ (forall k, dget str_eqb k nd <> None -> dget str_eqb k d <> None)
  /\ (forall k0 ls, In (k0, ls) l -> exists k, data_key ls = Ok k /\ dget str_eqb k d <> None).
Proof.
  induction l as [|[k1 l1] l IH]; intros nd d H; cbn [foldM] in H.
  - injection H as <-. split; [auto|]. split; [auto|]. intros k0 ls [].
  - cbn [snd] in H. destruct (data_key l1) as [k|] eqn:Ek; [|discriminate H]. cbn [bind] in H. destruct (IH _ _ H) as (A & B & C).
    assert (Self : dget str_eqb k d <> None). { apply B. rewrite (dget_dset_same str_eqb str_eqb_eq). discriminate. }
    split; [|split].
    + intros k' ls E. destruct (A k' ls E) as [(k0 & I & K)|E'].
      * left. exists k0. split; [right; exact I|exact K].
      * destruct (str_eqb k k') eqn:Eq.
        -- apply str_eqb_eq in Eq. subst k'. rewrite (dget_dset_same str_eqb str_eqb_eq) in E'. injection E' as <-. left. exists k1. split; [left; reflexivity|exact Ek].
        -- right. rewrite (dget_dset_other str_eqb str_eqb_eq) in E'; [exact E'|]. intros ->. rewrite (proj2 (str_eqb_eq _ _) eq_refl) in Eq. discriminate Eq.
    + intros k' N. apply B. destruct (str_eqb k k') eqn:Eq.
      * apply str_eqb_eq in Eq. subst k'. rewrite (dget_dset_same str_eqb str_eqb_eq). discriminate.
      * rewrite (dget_dset_other str_eqb str_eqb_eq); [exact N|]. intros ->. rewrite (proj2 (str_eqb_eq _ _) eq_refl) in Eq. discriminate Eq.
    + intros k0 ls [E|I]; [injection E as <- <-; exists k; auto|exact (C k0 ls I)].
Qed.
Lemma update_cards t t' : update_keys t = Ok t' ->
  (forall k ls, dget str_eqb k (ti_other t') = Some ls -> exists k0, In (k0, ls) (ti_other t) /\ data_key ls = Ok k)
  /\ (forall k0 ls, In (k0, ls) (ti_other t) -> exists k ls', data_key ls = Ok k /\ dget str_eqb k (ti_other t') = Some ls' /\ ((forall k1 l1, In (k1, l1) (ti_other t) -> data_key l1 = Ok k -> l1 = ls) -> ls' = ls)).
Proof.
  unfold update_keys. destruct (foldM _ _ _) as [d|] eqn:E; [|discriminate]. cbn [bind]. intros H. injection H as <-. cbn [ti_other].
  destruct (update_fold _ _ _ E) as (A & _ & C). assert (A' : forall k ls, dget str_eqb k d = Some ls -> exists k0, In (k0, ls) (ti_other t) /\ data_key ls = Ok k).
  { intros k ls F. destruct (A k ls F) as [?|X]; [assumption|discriminate X]. }
  split; [exact A'|]. intros k0 ls I. destruct (C k0 ls I) as (k & K & N). destruct (dget str_eqb k d) as [ls'|] eqn:F; [|congruence].
  exists k, ls'. split; [exact K|]. split; [exact F|]. intros U. destruct (A' k ls' F) as (k1 & I1 & K1). exact (U k1 ls' I1 K1).
Qed.

Lemma first_word ls k : data_key ls = Ok k <-> FirstWord ls k.
Proof.
  unfold data_key, FirstWord. induction (map (filter (fun c => negb (Ascii.eqb c nl))) ls) as [|l xs IH]; cbn [key_of_lines].
  - split; [discriminate|]. intros (a & l & b & w & ws & E & _). destruct a; discriminate E.
  - assert (G : forall P : Prop, (Skipped l -> key_of_lines (l :: xs) = key_of_lines xs) /\ (~ Skipped l -> key_of_lines (l :: xs) = match split l with w :: _ => Ok (upper w) | [] => Err IndexError end)).
    { intros _. unfold Skipped. cbn [key_of_lines]. destruct l as [|c l]; [split; [reflexivity|intros N; destruct N; left; reflexivity]|].
      destruct (pat_comment ((c :: l) ++ [nl])) eqn:Ec; [split; [reflexivity|intros N; destruct N; right; reflexivity]|].
      split; [intros [X|X]; discriminate X|reflexivity]. }
    assert (Dec : Skipped l \/ ~ Skipped l).
    { unfold Skipped. destruct l; [auto|]. destruct (pat_comment _); [auto|]. right. intros [X|X]; discriminate X. }
    destruct (G True) as [G1 G2]. cbn [key_of_lines] in G1, G2. destruct Dec as [Y|N].
    + rewrite (G1 Y). rewrite IH. split.
      * intros (a & l' & b & w & ws & -> & Fa & R). exists (l :: a), l', b, w, ws. split; [reflexivity|]. split; [constructor; assumption|exact R].
      * intros (a & l' & b & w & ws & E & Fa & R). destruct a as [|x a]; [injection E as -> ->; destruct R; contradiction|]. injection E as -> ->. inversion Fa; subst. exists a, l', b, w, ws. auto.
    + rewrite (G2 N). split.
      * destruct (split l) as [|w ws] eqn:Es; [discriminate|]. intros H. injection H as <-. exists [], l, xs, w, ws. auto using Forall_nil.
      * intros (a & l' & b & w & ws & E & Fa & R). destruct a as [|x a]; [|injection E as -> ->; inversion Fa; contradiction].
        injection E as -> ->. destruct R as (_ & Es & ->). rewrite Es. reflexivity.
Qed.
Lemma update_fold_ok (l : list (str * list str)) : forall nd, (forall k ls, In (k, ls) l -> exists k', data_key ls = Ok k') ->
  exists d, foldM (fun nd (kl : str * list str) => do k <- data_key (snd kl); Ok (dset str_eqb k (snd kl) nd)) nd l = Ok d.
Proof.
  induction l as [|[k1 l1] l IH]; intros nd H; cbn [foldM]; [eauto|]. cbn [snd]. destruct (H k1 l1 (or_introl eq_refl)) as (k' & ->). cbn [bind].
  apply IH. intros k ls I. exact (H k ls (or_intror I)).
Qed.
Lemma update_total t : (exists t', update_keys t = Ok t') <-> forall k ls, In (k, ls) (ti_other t) -> exists k', FirstWord ls k'.
Proof.
  split.
  - intros (t' & H) k ls I. destruct (update_cards _ _ H) as [_ D]. destruct (D k ls I) as (k' & _ & K & _). exists k'. apply first_word. exact K.
  - intros H. unfold update_keys. destruct (update_fold_ok (ti_other t) []) as (d & ->); [|cbn [bind]; eauto].
    intros k ls I. destruct (H k ls I) as (k' & F). exists k'. apply first_word. exact F.
Qed.
