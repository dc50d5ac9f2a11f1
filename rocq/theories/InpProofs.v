(** Proofs for C28, C29, C31, C32 (no statements of properties here). *)
From Coq Require Import Lia ZArith.
From Verif Require Import PyBase PyLemmas PyStr PyStrLemmas PyText D1SProofs2 WWTextProofs LibModel MatModel MatProofs MatProofs2 MatProofs4 InpModel InpSpec.
Open Scope nat_scope.

Lemma kind_eqb_eq a b : kind_eqb a b = true <-> a = b.
Proof. destruct a, b; cbn; split; congruence. Qed.
Lemma kind_eqb_refl a : kind_eqb a a = true. Proof. now apply kind_eqb_eq. Qed.

(** *** heap *)
Lemma hset_length h : forall l c, length (hset h l c) = length h.
Proof. induction h as [|x h IH]; intros [|l] c; cbn; congruence. Qed.
Lemma hset_same h : forall l c, l < length h -> nth_error (hset h l c) l = Some c.
Proof. induction h as [|x h IH]; intros [|l] c H; cbn in *; try lia; [reflexivity|]. apply IH. lia. Qed.
Lemma hset_other h : forall l l' c, l <> l' -> nth_error (hset h l c) l' = nth_error h l'.
Proof. induction h as [|x h IH]; intros [|l] [|l'] c H; cbn; try reflexivity; try congruence. apply IH. congruence. Qed.
Lemma hset_id h : forall l c, nth_error h l = Some c -> hset h l c = h.
Proof. induction h as [|x h IH]; intros [|l] c H; cbn in *; try congruence. now rewrite IH. Qed.
Lemma hget_ok h l c : hget h l = Ok c <-> nth_error h l = Some c.
Proof. unfold hget, of_opt. destruct (nth_error h l); split; congruence. Qed.
Lemma hget_some h l : l < length h -> exists c, nth_error h l = Some c /\ hget h l = Ok c.
Proof. intros H. apply nth_error_Some in H. destruct (nth_error h l) as [c|] eqn:E; [|congruence]. exists c. split; [reflexivity|]. now apply hget_ok. Qed.
Lemma nth_lt {A} (h : list A) l c : nth_error h l = Some c -> l < length h.
Proof. intros H. apply nth_error_Some. congruence. Qed.

Lemma set_first_first k z vs : first_of k vs <> None -> first_of k (set_first k z vs) = Some z.
Proof. unfold first_of. induction vs as [|[v k'] vs IH]; cbn [find set_first]; intros H; [now destruct H|].
  cbn [snd] in *. destruct (kind_eqb k' k) eqn:E; cbn [find snd]; rewrite E; [reflexivity|]. apply IH. exact H. Qed.
Lemma set_first_id k z vs : first_of k vs = Some z -> set_first k z vs = vs.
Proof. unfold first_of. induction vs as [|[v k'] vs IH]; cbn [find set_first snd]; intros H; [reflexivity|].
  destruct (kind_eqb k' k); cbn [option_map fst] in H; [congruence|]. now rewrite IH. Qed.

(** *** C31 *)
Lemma force_num_spec k num h l h' : force_num k num h l = Ok h' ->
  exists c n z, nth_error h l = Some c /\ c_name c = Some n /\ parse_int num = Ok z /\
    (h' = h /\ z = n \/ h' = hset h l (rename k z c)).
Proof. unfold force_num. intros H. destruct (hget h l) as [c|] eqn:G; cbn [bind] in H; [|discriminate]. apply hget_ok in G.
  destruct (c_name c) as [n|] eqn:N; cbn [of_opt bind] in H; [|discriminate].
  destruct (str_eqb num (str_of_Z n)) eqn:E.
  - injection H as <-. apply str_eqb_eq in E. subst num. exists c, n, n. rewrite parse_str_of_Z. repeat split; auto.
  - destruct (parse_int num) as [z|] eqn:P; cbn [bind] in H; [|discriminate]. injection H as <-. exists c, n, z. repeat split; auto. Qed.
Lemma force_num_frame k num h l h' : force_num k num h l = Ok h' -> length h' = length h /\ forall l', l' <> l -> nth_error h' l' = nth_error h l'.
Proof. intros H. apply force_num_spec in H as [c [n [z [Hc [Hn [Hz [[-> _]| ->]]]]]]]; [split; reflexivity|].
  rewrite hset_length. split; [reflexivity|]. intros. apply hset_other. congruence. Qed.
Lemma force_num_name k num h l h' : force_num k num h l = Ok h' ->
  exists c z, nth_error h' l = Some c /\ c_name c = Some z /\ parse_int num = Ok z.
Proof. intros H. apply force_num_spec in H as [c [n [z [Hc [Hn [Hz [[-> ->]| ->]]]]]]].
  - exists c, n. auto.
  - exists (rename k z c), z. rewrite hset_same by (eapply nth_lt; eauto). auto. Qed.
Lemma force_num_self k num h l h' c : force_num k num h l = Ok h' -> nth_error h l = Some c -> self_named k c ->
  exists c', nth_error h' l = Some c' /\ self_named k c' /\ c_input c' = c_input c /\ c_hidden c' = c_hidden c.
Proof. intros H Hc [m [Hm Hf]]. apply force_num_spec in H as [c0 [n [z [Hc0 [Hn [Hz D]]]]]]. rewrite Hc in Hc0. injection Hc0 as <-.
  destruct D as [[-> ->]| ->]; [exists c; repeat split; auto; exists m; auto|].
  exists (rename k z c). rewrite hset_same by (eapply nth_lt; eauto). repeat split. exists z. split; [reflexivity|].
  cbn [rename c_values]. apply set_first_first. congruence. Qed.
Lemma force_num_settled k num h l c n : nth_error h l = Some c -> c_name c = Some n -> num = str_of_Z n -> force_num k num h l = Ok h.
Proof. intros Hc Hn ->. unfold force_num. apply hget_ok in Hc. rewrite Hc. cbn [bind]. rewrite Hn. cbn [of_opt bind]. now rewrite str_eqb_refl. Qed.


Lemma setitem_ok k h d key l h' d' : setitem k h d key l = Ok (h', d') -> force_num k (key_num key) h l = Ok h' /\ d' = dset str_eqb key l d.
Proof. unfold setitem. destruct (force_num k (key_num key) h l) as [x|]; cbn [bind]; [|discriminate]. intros H. injection H as <- <-. auto. Qed.

Lemma setitem_keys_match k h d key l h' d' : setitem k h d key l = Ok (h', d') -> keys_match h d ->
  (forall key', dget str_eqb key' d = Some l -> key' = key) -> keys_match h' d'.
Proof. intros H M F. apply setitem_ok in H as [H ->]. intros key' l' G.
  destruct (str_dec key' key) as [->|Hne].
  - rewrite (dget_dset_same str_eqb str_eqb_eq) in G. injection G as <-. destruct (force_num_name _ _ _ _ _ H) as [c [z [A [B C]]]]. exists c, z. auto.
  - rewrite (dget_dset_other str_eqb str_eqb_eq) in G by exact Hne. destruct (M _ _ G) as [c [n [A [B C]]]].
    assert (l' <> l) by (intros ->; apply Hne; apply F; exact G).
    exists c, n. rewrite (proj2 (force_num_frame _ _ _ _ _ H)) by assumption. auto. Qed.

Lemma assign_all_match k ops : forall h d h' d', assign_all k h d ops = Ok (h', d') -> keys_match h d ->
  NoDup (map snd ops) -> (forall key l, dget str_eqb key d = Some l -> ~ In l (map snd ops)) -> keys_match h' d'.
Proof. unfold assign_all. induction ops as [|[key l] ops IH]; cbn [foldM]; intros h d h' d' H M ND F.
  - injection H as <- <-. exact M.
  - cbn [fst snd] in H. destruct (setitem k h d key l) as [[h1 d1]|] eqn:S; cbn [bind] in H; [|discriminate].
    cbn [map snd] in ND. inversion ND; subst. eapply IH; [exact H| | |].
    + eapply setitem_keys_match; [exact S|exact M|]. intros key' G. exfalso. apply (F _ _ G). left. reflexivity.
    + assumption.
    + apply setitem_ok in S as [S ->]. intros key' l' G. destruct (str_dec key' key) as [->|Hne].
      * rewrite (dget_dset_same str_eqb str_eqb_eq) in G. injection G as <-. assumption.
      * rewrite (dget_dset_other str_eqb str_eqb_eq) in G by exact Hne. intros Q. apply (F _ _ G). right. exact Q. Qed.

(** *** C32 *)
Lemma to_dict_aux_spec cards : forall pend acc d, to_dict_aux pend acc cards = Ok d -> NoDup (map fst acc) ->
  NoDup (map fst d) /\ exists new, d = acc ++ new /\ Forall2 stored (filter (fun p => negb (is_comment p)) cards) new.
Proof. induction cards as [|p cards IH]; cbn [to_dict_aux filter]; intros pend acc d H ND.
  - injection H as <-. split; [exact ND|]. exists []. rewrite app_nil_r. split; [reflexivity|constructor].
  - assert (ST : forall key, own_key p = Ok key -> is_comment p = false ->
      (if dmem str_eqb key acc then Err KeyError else to_dict_aux None (dset str_eqb key (match pend with Some c => c ++ p_lines p | None => p_lines p end) acc) cards) = Ok d ->
      NoDup (map fst d) /\ exists new, d = acc ++ new /\ Forall2 stored (p :: filter (fun p => negb (is_comment p)) cards) new).
    { intros key Hk Hc HH. unfold dmem in HH. destruct (dget str_eqb key acc) eqn:G; [discriminate|].
      rewrite (dset_new str_eqb) in HH by exact G.
      destruct (IH _ _ _ HH) as [N [new [-> F2]]].
      { rewrite map_app. cbn [map fst]. apply (dget_none_iff str_eqb str_eqb_eq) in G. unfold dkeys in G.
        apply nodup_app; [exact ND|repeat constructor; tauto|]. intros x Hx [<-|[]]. contradiction. }
      split; [exact N|]. rewrite <- app_assoc. eexists. split; [reflexivity|]. cbn [app]. constructor; [|exact F2].
      split; [exact Hk|]. cbn [snd]. destruct pend as [c|]; [exists c; reflexivity|exists []; reflexivity]. }
    unfold is_comment in *. unfold own_key in ST. destruct (p_named p) eqn:Pn.
    + cbn [negb andb]. destruct (p_key p) as [key|] eqn:K; cbn [bind] in H; [|discriminate]. apply (ST key); auto.
    + cbn [negb andb]. destruct (p_lines p) as [|l ls] eqn:L; [discriminate|]. destruct (pat_comment l) eqn:C.
      * cbn [negb]. apply (IH _ _ _ H ND).
      * cbn [negb]. destruct (p_first_word p) as [key|] eqn:K; cbn [bind] in H; [|discriminate]. apply (ST key); auto. Qed.

Definition pend_lines (o : option (list str)) : list str := match o with Some c => c | None => [] end.
Lemma to_dict_aux_text cards : forall pend acc d, to_dict_aux pend acc cards = Ok d -> comments_attached cards ->
  (pend <> None -> exists q r, cards = q :: r /\ is_comment q = false) ->
  concat (map snd d) = concat (map snd acc) ++ pend_lines pend ++ concat (map p_lines cards).
Proof. induction cards as [|p cards IH]; cbn [to_dict_aux comments_attached map concat]; intros pend acc d H CA HP.
  - injection H as <-. destruct pend as [c|]; [destruct HP as [q [r [Q _]]]; [discriminate|discriminate Q]|]. cbn [pend_lines app]. now rewrite app_nil_r.
  - destruct CA as [C1 CA].
    assert (ST : forall key, is_comment p = false ->
      (if dmem str_eqb key acc then Err KeyError else to_dict_aux None (dset str_eqb key (match pend with Some c => c ++ p_lines p | None => p_lines p end) acc) cards) = Ok d ->
      concat (map snd d) = concat (map snd acc) ++ pend_lines pend ++ p_lines p ++ concat (map p_lines cards)).
    { intros key Hc HH. unfold dmem in HH. destruct (dget str_eqb key acc) eqn:G; [discriminate|].
      rewrite (dset_new str_eqb) in HH by exact G. rewrite (IH _ _ _ HH CA) by (intros Q; now destruct Q).
      rewrite map_app, concat_app. cbn [map concat snd pend_lines]. destruct pend; cbn [pend_lines app]; rewrite ?app_nil_r, <- ?app_assoc; reflexivity. }
    destruct (is_comment p) eqn:IC.
    + destruct pend as [c|]. { destruct HP as [q [r [Q R]]]; [discriminate|]. injection Q as <- <-. congruence. }
      unfold is_comment in IC. destruct (p_named p); [discriminate|]. destruct (p_lines p) as [|l ls] eqn:L; [discriminate|].
      cbn [negb andb] in IC. rewrite IC in H. rewrite (IH _ _ _ H CA); [reflexivity|]. intros _. destruct cards as [|q r]; [destruct C1|]. exists q, r. auto.
    + unfold is_comment in *. destruct (p_named p) eqn:Pn.
      * destruct (p_key p) as [key|] eqn:K; cbn [bind] in H; [|discriminate]. apply (ST key); auto.
      * cbn [negb andb] in IC. destruct (p_lines p) as [|l ls] eqn:L; [discriminate|]. rewrite IC in H.
        destruct (p_first_word p) as [key|] eqn:K; cbn [bind] in H; [|discriminate]. apply (ST key); auto. Qed.

(** *** C28 *)
Definition mem_dec (d : cdict) key : {l | dget str_eqb key d = Some l} + {~ In key (dkeys d)}.
Proof. destruct (dget str_eqb key d) as [l|] eqn:G; [left; exists l; reflexivity|right; now apply (dget_none_iff str_eqb str_eqb_eq) in G]. Defined.
Lemma dmem_true key (d : cdict) : dmem str_eqb key d = true <-> In key (dkeys d).
Proof. unfold dmem. destruct (dget str_eqb key d) as [l|] eqn:G.
  - split; [|reflexivity]. intros _. apply (dget_some_in str_eqb str_eqb_eq) in G. apply (in_map fst) in G. exact G.
  - apply (dget_none_iff str_eqb str_eqb_eq) in G. split; [discriminate|contradiction]. Qed.
Lemma setitem_settled k h d key l : (exists c n, nth_error h l = Some c /\ c_name c = Some n /\ key_num key = str_of_Z n) ->
  setitem k h d key l = Ok (h, dset str_eqb key l d).
Proof. intros [c [n [A [B C]]]]. unfold setitem. now rewrite (force_num_settled k _ h l c n). Qed.
Lemma safe_update_run k ext : forall h d, settled h ext ->
  exists done, fst (safe_update k h d ext) = (h, d ++ done) /\ (exists rest, ext = done ++ rest) /\
    match snd (safe_update k h d ext) with
    | None => done = ext /\ NoDup (dkeys ext) /\ disjoint_keys d ext
    | Some e => e = KeyError /\ (~ NoDup (dkeys ext) \/ exists key, In key (dkeys d) /\ In key (dkeys ext))
    end.
Proof. induction ext as [|[key l] ext IH]; intros h d S; cbn [safe_update].
  - exists []. rewrite app_nil_r. split; [reflexivity|]. split; [exists []; reflexivity|]. cbn [snd]. split; [reflexivity|]. split; [constructor|intros x _ []].
  - destruct (dmem str_eqb key d) eqn:E.
    + apply dmem_true in E. exists []. rewrite app_nil_r. split; [reflexivity|]. split; [eexists; reflexivity|]. cbn [snd]. split; [reflexivity|].
      right. exists key. split; [exact E|left; reflexivity].
    + rewrite (setitem_settled k h d key l) by (apply S; left; reflexivity).
      assert (G : dget str_eqb key d = None) by (unfold dmem in E; destruct (dget str_eqb key d); [discriminate|reflexivity]).
      rewrite (dset_new str_eqb) by exact G. cbv iota beta.
      match goal with |- context [safe_update k h ?D ext] => destruct (IH h D (fun k' l' Q => S k' l' (or_intror Q))) as [done [F [[rest R] X]]]; set (D0 := D) in * end.
      exists ((key, l) :: done). split; [rewrite F; unfold D0; now rewrite <- app_assoc|]. split; [exists rest; now rewrite R|].
      destruct (snd (safe_update k h D0 ext)) as [e|]; unfold D0 in X; clear D0 F.
      * destruct X as [-> X]. split; [reflexivity|]. cbn [dkeys map fst]. destruct X as [X|[x [X1 X2]]].
        { left. intros N. inversion N. contradiction. }
        unfold dkeys in X1. rewrite map_app in X1. apply in_app_or in X1 as [X1|[<-|[]]].
        { right. exists x. split; [exact X1|right; exact X2]. }
        { left. intros N. inversion N. contradiction. }
      * destruct X as [-> [N D]]. split; [reflexivity|]. cbn [dkeys map fst]. split.
        { constructor; [|exact N]. intros Q. apply (D key); [|exact Q]. unfold dkeys. rewrite map_app. apply in_or_app. right. left. reflexivity. }
        { intros x Hx [<-|Q]; [apply (dget_none_iff str_eqb str_eqb_eq) in G; contradiction|].
          apply (D x); [|exact Q]. unfold dkeys. rewrite map_app. apply in_or_app. left. exact Hx. } Qed.
Lemma safe_update_plain_run ext : forall d,
  exists done, fst (safe_update_plain d ext) = d ++ done /\ (exists rest, ext = done ++ rest) /\
    match snd (safe_update_plain d ext) with
    | None => done = ext /\ NoDup (dkeys ext) /\ disjoint_keys d ext
    | Some e => e = KeyError /\ (~ NoDup (dkeys ext) \/ exists key, In key (dkeys d) /\ In key (dkeys ext))
    end.
Proof. induction ext as [|[key l] ext IH]; intros d; cbn [safe_update_plain].
  - exists []. rewrite app_nil_r. split; [reflexivity|]. split; [exists []; reflexivity|]. cbn [snd]. split; [reflexivity|]. split; [constructor|intros x _ []].
  - destruct (dmem str_eqb key d) eqn:E.
    + apply dmem_true in E. exists []. rewrite app_nil_r. split; [reflexivity|]. split; [eexists; reflexivity|]. cbn [snd]. split; [reflexivity|].
      right. exists key. split; [exact E|left; reflexivity].
    + assert (G : dget str_eqb key d = None) by (unfold dmem in E; destruct (dget str_eqb key d); [discriminate|reflexivity]).
      rewrite (dset_new str_eqb) by exact G.
      match goal with |- context [safe_update_plain ?D ext] => destruct (IH D) as [done [F [[rest R] X]]]; set (D0 := D) in * end.
      exists ((key, l) :: done). split; [rewrite F; unfold D0; now rewrite <- app_assoc|]. split; [exists rest; now rewrite R|].
      destruct (snd (safe_update_plain D0 ext)) as [e|]; unfold D0 in X; clear D0 F.
      * destruct X as [-> X]. split; [reflexivity|]. cbn [dkeys map fst]. destruct X as [X|[x [X1 X2]]].
        { left. intros N. inversion N. contradiction. }
        unfold dkeys in X1. rewrite map_app in X1. apply in_app_or in X1 as [X1|[<-|[]]].
        { right. exists x. split; [exact X1|right; exact X2]. }
        { left. intros N. inversion N. contradiction. }
      * destruct X as [-> [N D]]. split; [reflexivity|]. cbn [dkeys map fst]. split.
        { constructor; [|exact N]. intros Q. apply (D key); [|exact Q]. unfold dkeys. rewrite map_app. apply in_or_app. right. left. reflexivity. }
        { intros x Hx [<-|Q]; [apply (dget_none_iff str_eqb str_eqb_eq) in G; contradiction|].
          apply (D x); [|exact Q]. unfold dkeys. rewrite map_app. apply in_or_app. left. exact Hx. } Qed.

Lemma dget_app key (d e : cdict) : dget str_eqb key (d ++ e) = match dget str_eqb key d with Some l => Some l | None => dget str_eqb key e end.
Proof. induction d as [|[k l] d IH]; cbn [app dget]; [reflexivity|]. destruct (str_eqb key k); [reflexivity|exact IH]. Qed.
Lemma dupdate_get ext : forall d key, NoDup (dkeys ext) ->
  dget str_eqb key (dupdate d ext) = match dget str_eqb key ext with Some l => Some l | None => dget str_eqb key d end.
Proof. unfold dupdate. induction ext as [|[k l] ext IH]; intros d key ND; cbn [fold_left dget]; [reflexivity|].
  cbn [dkeys map fst] in ND. inversion ND; subst. rewrite IH by assumption. cbn [fst snd]. destruct (str_eqb key k) eqn:E.
  - apply str_eqb_eq in E. subst k. destruct (dget str_eqb key ext) as [l'|] eqn:G.
    + exfalso. apply H1. apply (dget_some_in str_eqb str_eqb_eq) in G. apply (in_map fst) in G. exact G.
    + apply (dget_dset_same str_eqb str_eqb_eq).
  - destruct (dget str_eqb key ext); [reflexivity|]. apply (dget_dset_other str_eqb str_eqb_eq). intros ->. rewrite str_eqb_refl in E. discriminate. Qed.

Lemma merge_disjoint h a b :
  settled h (i_cells b) -> settled h (i_surfs b) ->
  NoDup (dkeys (i_cells b)) -> NoDup (dkeys (i_surfs b)) -> NoDup (dkeys (i_trans b)) ->
  disjoint_keys (i_cells a) (i_cells b) -> disjoint_keys (i_surfs a) (i_surfs b) -> disjoint_keys (i_trans a) (i_trans b) ->
  merge h a b = ((h, mkInp (i_cells a ++ i_cells b) (i_surfs a ++ i_surfs b) (ml_extend mt_name (i_mats a) (ml_list (i_mats b)))
                       (i_trans a ++ i_trans b) (dupdate (i_other a) (i_other b)) (i_tallies a ++ i_tallies b) (i_fmesh a ++ i_fmesh b) (i_header a)), None).
Proof. intros Sc Ss Nc Ns Nt Dc Ds Dt. unfold merge.
  destruct (safe_update_run Kcel (i_cells b) h (i_cells a) Sc) as [dn [F [_ X]]].
  destruct (safe_update Kcel h (i_cells a) (i_cells b)) as [[h1 cs] [e|]]; cbn [fst snd] in *.
  { exfalso. destruct X as [_ [X|[x [X1 X2]]]]; [contradiction|exact (Dc x X1 X2)]. }
  destruct X as [-> _]. injection F as -> ->.
  destruct (safe_update_run Ksur (i_surfs b) h (i_surfs a) Ss) as [dn [F [_ X]]].
  destruct (safe_update Ksur h (i_surfs a) (i_surfs b)) as [[h2 ss] [e|]]; cbn [fst snd] in *.
  { exfalso. destruct X as [_ [X|[x [X1 X2]]]]; [contradiction|exact (Ds x X1 X2)]. }
  destruct X as [-> _]. injection F as -> ->.
  destruct (safe_update_plain_run (i_trans b) (i_trans a)) as [dn [F [_ X]]].
  destruct (safe_update_plain (i_trans a) (i_trans b)) as [ts [e|]]; cbn [fst snd] in *.
  { exfalso. destruct X as [_ [X|[x [X1 X2]]]]; [contradiction|exact (Dt x X1 X2)]. }
  destruct X as [-> _]. subst ts. reflexivity. Qed.

Lemma merge_outcome h a b : settled h (i_cells b) -> settled h (i_surfs b) ->
  NoDup (dkeys (i_cells b)) -> NoDup (dkeys (i_surfs b)) -> NoDup (dkeys (i_trans b)) ->
  let '((h', a'), o) := merge h a b in
  h' = h /\
  (exists done rest, i_cells b = done ++ rest /\ i_cells a' = i_cells a ++ done) /\
  (exists done rest, i_surfs b = done ++ rest /\ i_surfs a' = i_surfs a ++ done) /\
  (exists done rest, i_trans b = done ++ rest /\ i_trans a' = i_trans a ++ done) /\
  (i_mats a' = i_mats a \/ i_mats a' = ml_extend mt_name (i_mats a) (ml_list (i_mats b))) /\
  i_header a' = i_header a /\
  (o = None \/ o = Some KeyError /\ i_other a' = i_other a /\ i_tallies a' = i_tallies a /\ i_fmesh a' = i_fmesh a) /\
  (o = None <-> disjoint_keys (i_cells a) (i_cells b) /\ disjoint_keys (i_surfs a) (i_surfs b) /\ disjoint_keys (i_trans a) (i_trans b)).
Proof. intros Sc Ss Nc Ns Nt. unfold merge.
  assert (NIL : forall d e : cdict, exists done rest, e = done ++ rest /\ d = d ++ done) by (intros d e; exists [], e; now rewrite app_nil_r).
  destruct (safe_update_run Kcel (i_cells b) h (i_cells a) Sc) as [dn [F [[r R] X]]].
  destruct (safe_update Kcel h (i_cells a) (i_cells b)) as [[h1 cs] [e|]]; cbn [fst snd] in *.
  { injection F as -> ->. destruct X as [-> [X|[x [X1 X2]]]]; [contradiction|].
    cbn [i_cells i_surfs i_trans i_mats i_header i_other i_tallies i_fmesh].
    repeat split; eauto 6; try discriminate. intros [D _]. destruct (D x X1 X2). }
  injection F as -> ->. destruct X as [-> [_ Dc]].
  destruct (safe_update_run Ksur (i_surfs b) h (i_surfs a) Ss) as [dn [F [[r2 R2] X]]].
  destruct (safe_update Ksur h (i_surfs a) (i_surfs b)) as [[h2 ss] [e|]]; cbn [fst snd] in *.
  { injection F as -> ->. destruct X as [-> [X|[x [X1 X2]]]]; [contradiction|].
    cbn [i_cells i_surfs i_trans i_mats i_header i_other i_tallies i_fmesh].
    repeat split; eauto 6; try discriminate. intros [_ [D _]]. destruct (D x X1 X2). }
  injection F as -> ->. destruct X as [-> [_ Ds]].
  destruct (safe_update_plain_run (i_trans b) (i_trans a)) as [dn [F [[r3 R3] X]]].
  destruct (safe_update_plain (i_trans a) (i_trans b)) as [ts [e|]]; cbn [fst snd] in *.
  { subst ts. destruct X as [-> [X|[x [X1 X2]]]]; [contradiction|].
    cbn [i_cells i_surfs i_trans i_mats i_header i_other i_tallies i_fmesh].
    repeat split; eauto 6; try discriminate. intros [_ [_ D]]. destruct (D x X1 X2). }
  subst ts. destruct X as [-> [_ Dt]].
  cbn [i_cells i_surfs i_trans i_mats i_header i_other i_tallies i_fmesh].
  repeat split; eauto 6. Qed.

(** *** C29 *)
Lemma renum_dict_spec o d : forall h, NoDup (locs d) -> (forall l, In l (locs d) -> l < length h) ->
  exists h', renum_dict o h d = Ok h' /\ length h' = length h /\
    forall l, nth_error h' l = if in_dec Nat.eq_dec l (locs d) then option_map (apply_map o) (nth_error h l) else nth_error h l.
Proof. unfold renum_dict. induction d as [|[key l0] d IH]; intros h ND AL; cbn [foldM locs map snd] in *.
  - exists h. split; [reflexivity|]. split; [reflexivity|]. intros l. reflexivity.
  - inversion ND; subst. destruct (hget_some h l0) as [c [Hc Hg]]; [apply AL; left; reflexivity|]. rewrite Hg. cbn [bind].
    destruct (IH (hset h l0 (apply_map o c)) H2) as [h' [E [L V]]]; [intros l Q; rewrite hset_length; apply AL; right; exact Q|].
    exists h'. split; [exact E|]. split; [now rewrite L, hset_length|]. intros l. rewrite V. fold (locs d).
    assert (LT : l0 < length h) by (eapply nth_lt; eauto).
    destruct (in_dec Nat.eq_dec l (locs d)) as [i|n]; destruct (in_dec Nat.eq_dec l (l0 :: locs d)) as [i'|n'].
    + rewrite hset_other; [reflexivity|]. intros ->. contradiction.
    + exfalso. apply n'. right. exact i.
    + destruct i' as [->|i']; [|contradiction]. rewrite hset_same by exact LT. now rewrite Hc.
    + apply hset_other. intros ->. apply n'. left. reflexivity. Qed.

Lemma nodup_app_l {A} (a b : list A) : NoDup (a ++ b) -> NoDup a /\ NoDup b /\ (forall x, In x a -> ~ In x b).
Proof. induction a as [|x a IH]; cbn [app]; intros H; [repeat split; [constructor|exact H|tauto]|].
  inversion H; subst. destruct (IH H3) as [A1 [A2 A3]]. repeat split; [|exact A2|].
  - constructor; [|exact A1]. intros Q. apply H2. apply in_or_app. tauto.
  - intros y [<-|Q]; [intros Q; apply H2; apply in_or_app; tauto|auto]. Qed.

Lemma renumber_spec o h a : NoDup (input_locs a) -> input_allocated h a ->
  exists h', renumber o false h a = Ok (h', a) /\ length h' = length h /\
    forall l, nth_error h' l = if in_dec Nat.eq_dec l (input_locs a) then option_map (apply_map o) (nth_error h l) else nth_error h l.
Proof. intros ND AL. unfold input_locs in *. unfold input_allocated in AL.
  apply nodup_app_l in ND as [N1 [ND D1]]. apply nodup_app_l in ND as [N2 [ND D2]]. apply nodup_app_l in ND as [N3 [N4 D3]].
  unfold renumber.
  destruct (renum_dict_spec o (i_cells a) h N1) as [h1 [E1 [L1 V1]]]. { intros l Q. apply AL. apply in_or_app. tauto. }
  destruct (renum_dict_spec o (i_surfs a) h1 N2) as [h2 [E2 [L2 V2]]]. { intros l Q. rewrite L1. apply AL. apply in_or_app; right; apply in_or_app. tauto. }
  destruct (renum_dict_spec o (i_other a) h2 N3) as [h3 [E3 [L3 V3]]]. { intros l Q. rewrite L2, L1. apply AL. apply in_or_app; right; apply in_or_app; right; apply in_or_app. tauto. }
  destruct (renum_dict_spec o (i_trans a) h3 N4) as [h4 [E4 [L4 V4]]]. { intros l Q. rewrite L3, L2, L1. apply AL. apply in_or_app; right; apply in_or_app; right; apply in_or_app. tauto. }
  rewrite E1; cbn [bind]. rewrite E2; cbn [bind]. rewrite E3; cbn [bind]. rewrite E4; cbn [bind].
  exists h4. split; [reflexivity|]. split; [congruence|]. intros l. rewrite V4, V3, V2, V1. unfold input_locs.
  destruct (in_dec Nat.eq_dec l (locs (i_cells a) ++ locs (i_surfs a) ++ locs (i_other a) ++ locs (i_trans a))) as [i|n].
  - rewrite !in_app_iff in i.
    destruct (in_dec Nat.eq_dec l (locs (i_cells a))) as [i1|n1]; destruct (in_dec Nat.eq_dec l (locs (i_surfs a))) as [i2|n2];
    destruct (in_dec Nat.eq_dec l (locs (i_other a))) as [i3|n3]; destruct (in_dec Nat.eq_dec l (locs (i_trans a))) as [i4|n4];
      try reflexivity; try tauto; exfalso;
      try (apply (D1 l i1); rewrite !in_app_iff; tauto); try (apply (D2 l i2); rewrite !in_app_iff; tauto); try (apply (D3 l i3); tauto).
  - rewrite !in_app_iff in n.
    destruct (in_dec Nat.eq_dec l (locs (i_cells a))); [tauto|]. destruct (in_dec Nat.eq_dec l (locs (i_surfs a))); [tauto|].
    destruct (in_dec Nat.eq_dec l (locs (i_other a))); [tauto|]. destruct (in_dec Nat.eq_dec l (locs (i_trans a))); [tauto|]. reflexivity. Qed.
