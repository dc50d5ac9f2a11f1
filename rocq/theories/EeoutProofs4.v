(** Proofs about the results in .eeout files. *)
From Coq Require Import Lia ZArith.
From Verif Require Import PyBase PyLemmas PyStr PyText D1SModel D1SProofs2 DataModel MeshModel MeshSpec MeshProofs MctalProofs EliteProofs3 OutModel OutSpec OutProofs OutProofs2 OutProofs4 FispModel FispProofs EeoutModel EeoutSpec EeoutProofs EeoutProofs2 EeoutProofs3.
Open Scope nat_scope.

(** ** the title of an edit *)
Lemma search_cons {A} (f : str -> option A) c s : search f (c :: s) = match f (c :: s) with Some x => Some x | None => search f s end.
Proof. reflexivity. Qed.
Lemma tag_class p w g r : (exists c q, s2l p = c :: q /\ is_upper c = true) -> Forall (fun c => is_ws c = true \/ is_digit c = true) g -> search (after_tag p w) (g ++ r) = search (after_tag p w) r.
Proof.
  intros (x & q & E & U) F. apply search_skip. intros a1 c a2 Eg. unfold after_tag. rewrite E. cbn [strip_prefix].
  destruct (Ascii.eqb_spec x c) as [->|_]; [|reflexivity]. exfalso. rewrite Forall_forall in F. destruct (F c) as [H|H]; [rewrite Eg; apply in_or_app; right; left; reflexivity| |];
    [rewrite (ws_upper c H) in U|rewrite (digit_upper c H) in U]; discriminate U.
Qed.
Lemma tag_here p w b t r : blanks b -> t <> [] -> Forall (fun c => w c = true) t -> (forall c, w c = true -> is_ws c = false) -> not_starting w r ->
  search (after_tag p w) (s2l p ++ b ++ t ++ r) = Some t.
Proof.
  intros [Hb Fb] Ht Ft Hw Hr. apply search_here. unfold after_tag. rewrite (proj2 (strip_prefix_some (s2l p) (s2l p ++ b ++ t ++ r) (b ++ t ++ r)) eq_refl). cbn [obind].
  rewrite (some1_app is_ws b (t ++ r) Hb Fb). 2:{ intros c s E. destruct t as [|y t]; [congruence|]. injection E as <- _. apply Hw. exact (Forall_inv Ft). }
  cbn [obind]. rewrite (some1_app w t r Ht Ft Hr). reflexivity.
Qed.
Lemma word_ws c : is_word c = true -> is_ws c = false. Proof. destruct c as [[] [] [] [] [] [] [] []]; vm_compute; congruence. Qed.
Lemma ws_or w : blanks w -> Forall (fun c => is_ws c = true \/ is_digit c = true) w. Proof. intros [_ H]. revert H. apply Forall_impl. auto. Qed.
Lemma dg_or w : all_digits w -> Forall (fun c => is_ws c = true \/ is_digit c = true) w. Proof. intros [_ H]. revert H. apply Forall_impl. auto. Qed.
Ltac walk := repeat (rewrite search_cons; match goal with |- match ?x with Some _ => _ | None => _ end = _ => change x with (@None str); cbn iota end).
Lemma search_str {A} (f : str -> option A) (q s : str) r : (forall a1 c a2, q = a1 ++ c :: a2 -> f (c :: a2 ++ s) = None) -> search f s = r -> search f (q ++ s) = r.
Proof. intros H E. rewrite search_skip by exact H. exact E. Qed.
Lemma key_ok t l : EditTitle t l -> edit_key l = Ok (edit_name t).
Proof.
  intros (w1 & p & w2 & e & w3 & z & -> & Hw1 & Hw2 & Hw3 & Hp & Ep & He & Ee & Ht & Ft & Hz & _). unfold edit_key.
  assert (A1 : search (after_tag "DATA OUTPUT PARTICLE :" is_digit) (s2l " DATA OUTPUT PARTICLE :" ++ w1 ++ p ++ s2l " ; EDIT LIST :" ++ w2 ++ e ++ s2l " ; TYPE :" ++ w3 ++ t_type t ++ z) = Some p).
  { change (s2l " DATA OUTPUT PARTICLE :") with (" "%char :: s2l "DATA OUTPUT PARTICLE :"). cbn [app]. rewrite search_cons. change (after_tag "DATA OUTPUT PARTICLE :" is_digit (" "%char :: ?x)) with (@None str).
    match goal with |- match ?x with Some _ => _ | None => _ end = _ => replace x with (@None str) by reflexivity end.
    apply tag_here; [exact Hw1|exact (proj1 Hp)|exact (proj2 Hp)|exact digit_ws|]. intros c r E. injection E as <- _. reflexivity. }
  assert (A2 : search (after_tag "EDIT LIST :" is_digit) (s2l " DATA OUTPUT PARTICLE :" ++ w1 ++ p ++ s2l " ; EDIT LIST :" ++ w2 ++ e ++ s2l " ; TYPE :" ++ w3 ++ t_type t ++ z) = Some e).
  { cbn [s2l list_ascii_of_string app]. do 23 (rewrite search_cons; match goal with |- match ?x with Some _ => _ | None => _ end = _ => replace x with (@None str) by reflexivity end).
    rewrite tag_class; [|eexists; eexists; split; reflexivity|exact (ws_or _ Hw1)]. rewrite tag_class; [|eexists; eexists; split; reflexivity|exact (dg_or _ Hp)].
    do 3 (rewrite search_cons; match goal with |- match ?x with Some _ => _ | None => _ end = _ => replace x with (@None str) by reflexivity end).
    apply (tag_here "EDIT LIST :" is_digit w2 e (" "%char :: ";"%char :: " "%char :: "T"%char :: "Y"%char :: "P"%char :: "E"%char :: " "%char :: ":"%char :: w3 ++ t_type t ++ z)); [exact Hw2|exact (proj1 He)|exact (proj2 He)|exact digit_ws|].
    intros c r E. injection E as <- _. reflexivity. }
  assert (A3 : search (after_tag "TYPE :" is_word) (s2l " DATA OUTPUT PARTICLE :" ++ w1 ++ p ++ s2l " ; EDIT LIST :" ++ w2 ++ e ++ s2l " ; TYPE :" ++ w3 ++ t_type t ++ z) = Some (t_type t)).
  { cbn [s2l list_ascii_of_string app]. do 23 (rewrite search_cons; match goal with |- match ?x with Some _ => _ | None => _ end = _ => replace x with (@None str) by reflexivity end).
    rewrite tag_class; [|eexists; eexists; split; reflexivity|exact (ws_or _ Hw1)]. rewrite tag_class; [|eexists; eexists; split; reflexivity|exact (dg_or _ Hp)].
    do 14 (rewrite search_cons; match goal with |- match ?x with Some _ => _ | None => _ end = _ => replace x with (@None str) by reflexivity end).
    rewrite tag_class; [|eexists; eexists; split; reflexivity|exact (ws_or _ Hw2)]. rewrite tag_class; [|eexists; eexists; split; reflexivity|exact (dg_or _ He)].
    do 3 (rewrite search_cons; match goal with |- match ?x with Some _ => _ | None => _ end = _ => replace x with (@None str) by reflexivity end).
    apply (tag_here "TYPE :" is_word w3 (t_type t) z); [exact Hw3|exact Ht|exact Ft|exact word_ws|exact Hz]. }
  rewrite A1. cbn [of_opt bind]. rewrite (parse_digits p Hp). cbn [bind]. rewrite A2. cbn [of_opt bind]. rewrite (parse_digits e He). cbn [bind]. rewrite A3. cbn [of_opt bind].
  unfold edit_name. rewrite Ep, Ee. reflexivity.
Qed.

(** ** blocks *)
Lemma edits_app a : forall i s b, Forall (fun l => has "CENTROIDS X" l = false) a -> read_edits i s (a ++ b) = do s' <- foldM edit_line s a; read_edits (i + length a) s' b.
Proof.
  induction a as [|l a IH]; intros i s b H; cbn [app foldM length].
  - cbn [bind]. rewrite Nat.add_0_r. reflexivity.
  - pose proof (Forall_inv H) as Hl. cbn beta in Hl. cbn [read_edits]. destruct (edit_line s l); [|reflexivity]. cbn [bind]. rewrite Hl. rewrite IH by exact (Forall_inv_tail H).
    replace (i + S (length a)) with (S i + length a) by lia. reflexivity.
Qed.
Lemma quiet_has l : Quiet l -> has "DATA OUTPUT PARTICLE" l = false /\ has "DATA SETS RESULT TIME BIN" l = false /\ has "DATA SETS REL ERROR TIME BIN" l = false /\ has "CENTROIDS X" l = false.
Proof. intros H. unfold Quiet, says_none, edit_titles in H. repeat rewrite Forall_cons_iff in H. destruct H as (H1 & H2 & H3 & H4 & _). auto using has_not. Qed.
Lemma quiet_line l d k : Quiet l -> edit_line (mkEdits d k None) l = Ok (mkEdits d k None).
Proof. intros H. destruct (quiet_has l H) as (H1 & H2 & H3 & _). unfold edit_line. rewrite H1. cbn [bind e_block]. rewrite H2, H3. reflexivity. Qed.
Lemma quiet_lines ls d k : Forall Quiet ls -> foldM edit_line (mkEdits d k None) ls = Ok (mkEdits d k None).
Proof. induction 1 as [|l ls H _ IH]; [reflexivity|]. cbn [foldM]. rewrite quiet_line by exact H. cbn [bind]. exact IH. Qed.
Lemma num_quiet l : (forall c, In c l -> num_char c = true) -> Quiet l.
Proof. intros H. unfold Quiet, says_none, edit_titles. repeat constructor; intros X; apply has_iff in X; rewrite numeric_has in X by (reflexivity || exact H); discriminate X. Qed.
Lemma value_lines qss ls : Forall2 Numbers qss ls -> forall d k er qs, foldM edit_line (mkEdits d k (Some (er, qs))) ls = Ok (mkEdits d k (Some (er, qs ++ concat qss))).
Proof.
  induction 1 as [|q l qss ls H _ IH]; intros d k er qs; [cbn [foldM concat]; rewrite app_nil_r; reflexivity|]. cbn [foldM].
  destruct (quiet_has l (num_quiet l (fun c => numbers_chars q l c H))) as (H1 & H2 & H3 & _). unfold edit_line at 1. rewrite H1. cbn [bind e_block]. rewrite (numbers_value q l H), (floats_ok q l H). cbn [bind].
  rewrite H2, H3. cbn [orb]. cbn [e_all e_current bind]. rewrite IH. cbn [concat]. rewrite app_assoc. reflexivity.
Qed.
Definition upd (f : field) (b : block) : field := if b_errors b then mkField (f_values f) (Some (b_values b)) else mkField (Some (b_values b)) (f_errors f).
Lemma dset_last {V} (k : str) (v w : V) d : ~ In k (map fst d) -> dset str_eqb k w (d ++ [(k, v)]) = d ++ [(k, w)].
Proof.
  induction d as [|[k' v'] d IH]; intros H; cbn [app dset]; [rewrite (proj2 (str_eqb_eq k k) eq_refl); reflexivity|].
  destruct (str_eqb k k') eqn:E; [apply str_eqb_eq in E; exfalso; apply H; left; symmetry; exact E|]. rewrite IH by (intros X; apply H; right; exact X). reflexivity.
Qed.
Lemma dget_last {V} (k : str) (v : V) d : ~ In k (map fst d) -> dget str_eqb k (d ++ [(k, v)]) = Some v.
Proof.
  induction d as [|[k' v'] d IH]; intros H; cbn [app dget]; [rewrite (proj2 (str_eqb_eq k k) eq_refl); reflexivity|].
  destruct (str_eqb k k') eqn:E; [apply str_eqb_eq in E; exfalso; apply H; left; symmetry; exact E|]. apply IH. intros X; apply H; right; exact X.
Qed.
Lemma block_title er l d k : BlockTitle er l -> edit_line (mkEdits d k None) l = Ok (mkEdits d k (Some (er, []))) /\ has "CENTROIDS X" l = false.
Proof.
  intros (H & H1 & H2 & H3). split; [|apply has_not; exact H2]. unfold edit_line. rewrite (has_not _ _ H1). cbn [bind e_block e_all e_current]. destruct er.
  - destruct H as [Ha Hb]. rewrite (proj2 (has_iff _ _) Ha), (has_not _ _ Hb), Bool.orb_true_r. reflexivity.
  - rewrite (proj2 (has_iff _ _) H). cbn [orb]. replace (has "RESULT" l) with true; [reflexivity|]. symmetry. apply has_iff. destruct H as (a & b & ->). exists (a ++ s2l "DATA SETS "), (s2l " TIME BIN" ++ b). rewrite <- !app_assoc. reflexivity.
Qed.
Lemma block_run b ls d k f : BlockText b ls -> ~ In k (map fst d) ->
  foldM edit_line (mkEdits (d ++ [(k, f)]) (Some k) None) ls = Ok (mkEdits (d ++ [(k, upd f b)]) (Some k) None) /\ Forall (fun l => has "CENTROIDS X" l = false) ls.
Proof.
  intros (t & vs & e & rest & -> & Ht & (qss & Eq & Hv) & He & Hve & Hr) Hk. destruct (block_title _ t (d ++ [(k, f)]) (Some k) Ht) as [E1 C1]. split.
  - cbn [foldM]. rewrite E1. cbn [bind]. rewrite foldM_app, (value_lines _ _ Hv). cbn [bind app foldM].
    destruct (quiet_has e He) as (H1 & H2 & H3 & H4). unfold edit_line at 1. rewrite H1. cbn [bind e_block]. rewrite Hve. unfold store. cbn [e_current e_all of_opt bind]. rewrite (dget_last k f d Hk). cbn [of_opt bind].
    rewrite H2, H3. cbn [orb bind]. rewrite <- Eq. cbn [tl]. rewrite (dset_last k f) by exact Hk. rewrite quiet_lines by exact Hr. unfold upd. destruct (b_errors b); reflexivity.
  - constructor; [exact C1|]. apply Forall_app. split; [|constructor; [exact (proj2 (proj2 (proj2 (quiet_has e He))))|]].
    + clear -Hv. induction Hv as [|q l qss vs H _ IH]; constructor; [|exact IH]. exact (proj2 (proj2 (proj2 (quiet_has l (num_quiet l (fun c => numbers_chars q l c H)))))).
    + revert Hr. apply Forall_impl. intros l H. exact (proj2 (proj2 (proj2 (quiet_has l H)))).
Qed.
Lemma blocks_run bs ls : Forall2 BlockText bs ls -> forall d k f, ~ In k (map fst d) ->
  foldM edit_line (mkEdits (d ++ [(k, f)]) (Some k) None) (concat ls) = Ok (mkEdits (d ++ [(k, fold_left upd bs f)]) (Some k) None) /\ Forall (fun l => has "CENTROIDS X" l = false) (concat ls).
Proof.
  induction 1 as [|b l bs ls H _ IH]; intros d k f Hk; [split; [reflexivity|constructor]|]. cbn [concat fold_left]. destruct (block_run b l d k f H Hk) as [E C]. rewrite foldM_app, E. cbn [bind].
  destruct (IH d k (upd f b) Hk) as [E2 C2]. split; [exact E2|]. apply Forall_app. split; assumption.
Qed.
Definition field_of (t : edit) : field := fold_left upd (t_blocks t) (mkField None None).
Lemma edit_run t ls d k0 : EditText t ls -> ~ In (edit_name t) (map fst d) ->
  foldM edit_line (mkEdits d k0 None) ls = Ok (mkEdits (d ++ [(edit_name t, field_of t)]) (Some (edit_name t)) None) /\ Forall (fun l => has "CENTROIDS X" l = false) ls.
Proof.
  intros (l & other & bs & -> & Hl & Ho & Hb) Hk. destruct (blocks_run _ _ Hb d (edit_name t) (mkField None None) Hk) as [E C]. pose proof (key_ok t l Hl) as K.
  destruct Hl as (w1 & p & w2 & e & w3 & z & El & _ & _ & _ & _ & _ & _ & _ & _ & _ & _ & Hs). unfold says_none in Hs. repeat rewrite Forall_cons_iff in Hs. destruct Hs as (S1 & S2 & S3 & _).
  assert (D : has "DATA OUTPUT PARTICLE" l = true). { apply has_iff. exists [sp]. eexists. rewrite El. cbn [s2l list_ascii_of_string app]. repeat f_equal. }
  split.
  - cbn [foldM]. unfold edit_line at 1. rewrite D, K. cbn [bind e_block e_all e_current]. rewrite (has_not _ _ S1), (has_not _ _ S2). cbn [orb bind].
    rewrite dset_end by exact Hk. rewrite foldM_app, quiet_lines by exact Ho. cbn [bind]. exact E.
  - constructor; [apply has_not; exact S3|]. apply Forall_app. split; [|exact C]. revert Ho. apply Forall_impl. intros x H. exact (proj2 (proj2 (proj2 (quiet_has x H)))).
Qed.
Lemma edits_run ts ls : Forall2 EditText ts ls -> forall d k0, NoDup (map fst d ++ map edit_name ts) ->
  exists k1, foldM edit_line (mkEdits d k0 None) (concat ls) = Ok (mkEdits (d ++ map (fun t => (edit_name t, field_of t)) ts) k1 None) /\ Forall (fun l => has "CENTROIDS X" l = false) (concat ls).
Proof.
  induction 1 as [|t l ts ls H _ IH]; intros d k0 Hd; [exists k0; split; [cbn; rewrite app_nil_r; reflexivity|constructor]|]. cbn [concat map] in *.
  destruct (edit_run t l d k0 H) as [E C]. { apply NoDup_remove_2 in Hd. intros X. apply Hd. apply in_or_app; left; exact X. }
  rewrite foldM_app, E. cbn [bind]. destruct (IH (d ++ [(edit_name t, field_of t)]) (Some (edit_name t))) as (k1 & E2 & C2).
  { rewrite map_app. cbn [map fst]. rewrite <- app_assoc. exact Hd. }
  exists k1. split; [rewrite E2, <- app_assoc; reflexivity|]. apply Forall_app. split; assumption.
Qed.
Lemma edits_ok tn a es cx rest i ts : Quiet tn -> Forall Quiet a -> Forall2 EditText ts es -> NoDup (map edit_name ts) -> Title "CENTROIDS X" cx ->
  read_edits i no_edits (tn :: a ++ concat es ++ cx :: rest) = Ok (map (fun t => (edit_name t, field_of t)) ts, i + length (tn :: a ++ concat es)).
Proof.
  intros Htn Ha F Hd Hcx. destruct (edits_run _ _ F [] None Hd) as (k1 & E & C). replace (tn :: a ++ concat es ++ cx :: rest) with ((tn :: a ++ concat es) ++ cx :: rest) by (cbn [app]; rewrite <- app_assoc; reflexivity).
  rewrite edits_app. 2:{ constructor; [exact (proj2 (proj2 (proj2 (quiet_has tn Htn))))|]. apply Forall_app. split; [|exact C]. revert Ha. apply Forall_impl. intros x H. exact (proj2 (proj2 (proj2 (quiet_has x H)))). }
  replace (foldM edit_line no_edits (tn :: a ++ concat es)) with (Ok (mkEdits (map (fun t => (edit_name t, field_of t)) ts) k1 None)).
  2:{ symmetry. cbn [foldM]. unfold no_edits. rewrite quiet_line by exact Htn. cbn [bind]. rewrite foldM_app, quiet_lines by exact Ha. cbn [bind]. exact E. }
  cbn [bind read_edits]. unfold edit_line. rewrite (title_hasnt _ "DATA OUTPUT PARTICLE" _ Hcx eq_refl). cbn [bind e_block]. rewrite (title_hasnt _ "DATA SETS RESULT TIME BIN" _ Hcx eq_refl), (title_hasnt _ "DATA SETS REL ERROR TIME BIN" _ Hcx eq_refl).
  cbn [orb bind e_all]. rewrite (title_has _ _ Hcx). reflexivity.
Qed.

(** ** densities and volumes *)
Lemma rv_skip a : forall b, Forall (says_none ["DENSITY"; "VOLUMES"]%string) a -> read_rho_vol false false [] [] (a ++ b) = read_rho_vol false false [] [] b.
Proof.
  induction a as [|l a IH]; intros b H; [reflexivity|]. pose proof (Forall_inv H) as Hl. unfold says_none in Hl. repeat rewrite Forall_cons_iff in Hl. destruct Hl as (H1 & H2 & _).
  cbn [app read_rho_vol orb andb bind fst snd]. rewrite (has_not _ _ H1), (has_not _ _ H2). cbn [orb]. apply IH. exact (Forall_inv_tail H).
Qed.
Lemma rv_rho qss ls : Forall2 Numbers qss ls -> forall rho b, read_rho_vol true false rho [] (ls ++ b) = read_rho_vol true false (rho ++ concat qss) [] b.
Proof.
  induction 1 as [|q l qss ls H _ IH]; intros rho b; [cbn [app concat]; rewrite app_nil_r; reflexivity|]. cbn [app read_rho_vol orb andb]. rewrite (numbers_value q l H), (floats_ok q l H). cbn [andb bind fst snd].
  rewrite ?(numeric_has "VOLUMES"), ?(numeric_has "DENSITY") by (reflexivity || (intros c; apply (numbers_chars q l c H))). cbn [orb]. rewrite IH. cbn [concat]. rewrite app_assoc. reflexivity.
Qed.
Lemma rv_rec e : forall rho b, Forall RecordLine e -> read_rho_vol true false rho [] (e ++ b) = read_rho_vol true false rho [] b.
Proof.
  induction e as [|l e IH]; intros rho b H; [reflexivity|]. pose proof (Forall_inv H) as Hl. cbn [app read_rho_vol orb andb]. rewrite (record_value l Hl). cbn [bind fst snd].
  rewrite ?(numeric_has "VOLUMES"), ?(numeric_has "DENSITY") by (reflexivity || (intros c; apply (record_chars l c Hl))). cbn [orb]. apply IH. exact (Forall_inv_tail H).
Qed.
Lemma rv_vol qss ls : Forall2 Numbers qss ls -> forall rho v b, read_rho_vol false true rho v (ls ++ b) = read_rho_vol false true rho (v ++ concat qss) b.
Proof.
  induction 1 as [|q l qss ls H _ IH]; intros rho v b; [cbn [app concat]; rewrite app_nil_r; reflexivity|]. cbn [app read_rho_vol orb andb]. rewrite (numbers_value q l H), (floats_ok q l H). cbn [andb bind fst snd].
  rewrite ?(numeric_has "VOLUMES"), ?(numeric_has "DENSITY") by (reflexivity || (intros c; apply (numbers_chars q l c H))). cbn [orb]. rewrite IH. cbn [concat]. rewrite app_assoc. reflexivity.
Qed.
(* lines without numbers after the volumes change nothing, whatever they hold *)
Lemma rv_end e : forall d rho v, Forall (fun l => value_line l = false) e -> read_rho_vol d true rho v e = Ok (rho, v).
Proof.
  induction e as [|l e IH]; intros d rho v H; [reflexivity|]. cbn [read_rho_vol]. rewrite (Forall_inv H), Bool.andb_false_r. cbn [bind fst snd]. rewrite Bool.orb_true_l. apply IH. exact (Forall_inv_tail H).
Qed.
Lemma rho_vol_ok cx b d ds e v vs e2 rho vol : Title "CENTROIDS X" cx -> Forall (says_none ["DENSITY"; "VOLUMES"]%string) b -> Title "DENSITY" d -> NumberLines rho ds ->
  Forall RecordLine e -> Title "VOLUMES" v -> NumberLines vol vs -> Forall (fun l => value_line l = false) e2 ->
  read_rho_vol false false [] [] (cx :: b ++ d :: ds ++ e ++ v :: vs ++ e2) = Ok (rho, vol).
Proof.
  intros Hcx Hb Hd (qd & -> & Hds) He Hv (qv & -> & Hvs) He2. change (cx :: b ++ d :: ds ++ e ++ v :: vs ++ e2) with ((cx :: b) ++ d :: ds ++ e ++ v :: vs ++ e2).
  rewrite rv_skip. 2:{ constructor; [|exact Hb]. repeat constructor; intros X; apply has_iff in X; [rewrite (title_hasnt _ "DENSITY" _ Hcx eq_refl) in X|rewrite (title_hasnt _ "VOLUMES" _ Hcx eq_refl) in X]; discriminate X. }
  cbn [read_rho_vol orb andb bind fst snd]. rewrite (title_has _ _ Hd), (title_hasnt _ "VOLUMES" _ Hd eq_refl). cbn [orb]. rewrite (rv_rho _ _ Hds). cbn [app]. rewrite rv_rec by exact He.
  cbn [read_rho_vol orb andb]. replace (value_line v) with false. 2:{ destruct Hv as (r & -> & _). reflexivity. }
  cbn [bind fst snd]. rewrite (title_has _ _ Hv). cbn [orb]. rewrite (rv_vol _ _ Hvs). cbn [app]. apply rv_end. exact He2.
Qed.
