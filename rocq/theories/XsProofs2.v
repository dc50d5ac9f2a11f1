(** Proofs about the look-ups and the loading of libraries. *)
From Coq Require Import Lia ZArith.
From Verif Require Import PyBase PyLemmas PyStr PyText DataModel D1SModel D1SProofs2 MeshSpec OutSpec OutProofs MatProofs LibModel XsModel XsSpec XsProofs.
Open Scope nat_scope.

Lemma key_of z s : length s = 3 -> table_key (z ++ dot :: s) = (z, s).
Proof.
  intros H. unfold table_key, last3. rewrite app_length. cbn [length]. rewrite H. f_equal.
  - replace (length z + 4 - 4) with (length z) by lia. rewrite firstn_app, firstn_all, Nat.sub_diag. cbn [firstn]. apply app_nil_r.
  - replace (length z + 4 - 3) with (length z + 1) by lia. rewrite skipn_app, skipn_all2 by lia. replace (length z + 1 - length z) with 1 by lia. reflexivity.
Qed.
Lemma key_short t : short t -> x_name t = fst (table_key (x_name t)) ++ dot :: snd (table_key (x_name t)) /\ length (snd (table_key (x_name t))) = 3.
Proof. intros (z & s & E & L & _). unfold Table in E. rewrite E, (key_of z s L). auto. Qed.
Lemma eqb_iff a b : str_eqb a b = true <-> a = b.
Proof. split; [apply str_eqb_eq|intros ->; apply str_eqb_refl]. Qed.
Lemma selected_filter {A} (P : A -> Prop) (f : A -> bool) l : (forall x, In x l -> (f x = true <-> P x)) -> Selected P l (filter f l).
Proof.
  induction l as [|x l IH]; intros H; cbn [filter]; [constructor|]. pose proof (H x (or_introl eq_refl)) as Hx. specialize (IH (fun y Hy => H y (or_intror Hy))).
  destruct (f x); [apply SelTake; [apply Hx; reflexivity|exact IH]|apply SelSkip; [intros X; apply Hx in X; discriminate X|exact IH]].
Qed.
Lemma name_parts z z' s s' : length s = 3 -> length s' = 3 -> z ++ dot :: s = z' ++ dot :: s' -> z = z' /\ s = s'.
Proof. intros L L' E. pose proof (key_of z s L) as K. rewrite E, (key_of z' s' L') in K. injection K as -> ->. auto. Qed.
Theorem exact_ok x name : Forall short (f_tables x) -> find_exact x name = true <-> exists t, In t (f_tables x) /\ x_name t = name.
Proof.
  intros H. unfold find_exact, tablenames. rewrite existsb_exists. setoid_rewrite in_map_iff. rewrite Forall_forall in H. split.
  - intros (k & (t & <- & Ht) & E). apply str_eqb_eq in E. exists t. split; [exact Ht|]. rewrite E. apply key_short, H, Ht.
  - intros (t & Ht & <-). exists (table_key (x_name t)). split; [exists t; auto|]. apply eqb_iff. apply key_short, H, Ht.
Qed.
Theorem default_ok x z : Forall short (f_tables x) -> Selected (fun t => exists s, Table z s t /\ length s = 3) (f_tables x) (find_default x z).
Proof.
  intros H. apply selected_filter. rewrite Forall_forall in H. intros t Ht. rewrite eqb_iff. destruct (key_short t (H t Ht)) as [E L]. split.
  - intros ->. exists (snd (table_key (x_name t))). split; [exact E|exact L].
  - intros (s & Ts & Ls). unfold Table in Ts. rewrite Ts, (key_of z s Ls). reflexivity.
Qed.
Theorem fast_ok x z : find_fast x z = map (fun t => snd (table_key (x_name t))) (find_default x z).
Proof.
  unfold find_fast, find_default, tablenames. induction (f_tables x) as [|t l IH]; [reflexivity|]. cbn [map filter]. destruct (str_eqb z (fst (table_key (x_name t)))); cbn [map]; [f_equal|]; exact IH.
Qed.
Lemma memb_in a (l : list str) : memb str_eqb a l = true <-> In a l.
Proof. induction l as [|b l IH]; cbn [memb In]; [split; [discriminate|tauto]|]. rewrite Bool.orb_true_iff, IH, eqb_iff. split; intros [X|X]; auto. Qed.
Lemma available_ok (x : xsdir) z : forall d, dget str_eqb z (fold_left (fun d t => dset str_eqb (fst t) (match dget str_eqb (fst t) d with Some l => l ++ [snd t] | None => [snd t] end) d) x d)
  = match dget str_eqb z d, map snd (filter (fun t => str_eqb z (fst t)) x) with Some l, r => Some (l ++ r) | None, [] => None | None, r => Some r end.
Proof.
  induction x as [|[a b] x IH]; intros d; cbn [fold_left map filter fst snd].
  - destruct (dget str_eqb z d); [rewrite app_nil_r|]; reflexivity.
  - rewrite IH. destruct (str_eqb z a) eqn:E; cbn [map snd].
    + apply str_eqb_eq in E as ->. rewrite (dget_dset_same str_eqb str_eqb_eq). destruct (dget str_eqb a d); [rewrite <- app_assoc|]; reflexivity.
    + rewrite (dget_dset_other str_eqb str_eqb_eq) by (intros ->; rewrite str_eqb_refl in E; discriminate E). reflexivity.
Qed.
Lemma has_table_in (x : xsdir) z s : zaid_has_table x z s = true <-> In (z, s) x.
Proof.
  unfold zaid_has_table, available_libraries. rewrite available_ok. cbn [dget]. 
  assert (F : In s (map snd (filter (fun t => str_eqb z (fst t)) x)) <-> In (z, s) x).
  { rewrite in_map_iff. split; [intros ([a b] & <- & Hi); apply filter_In in Hi as [Hi E]; cbn [fst] in E; apply str_eqb_eq in E as ->; exact Hi|].
    intros Hi. exists (z, s). split; [reflexivity|]. apply filter_In. split; [exact Hi|apply str_eqb_refl]. }
  rewrite <- F. destruct (map snd (filter _ x)) as [|b r]; [split; [discriminate|intros []]|]. apply memb_in.
Qed.
Theorem has_table_ok x z s : Forall short (f_tables x) -> length s = 3 -> has_table x z s = true <-> exists t, In t (f_tables x) /\ Table z s t.
Proof.
  intros H L. unfold has_table. rewrite has_table_in. unfold tablenames. rewrite in_map_iff. rewrite Forall_forall in H. split.
  - intros (t & E & Ht). exists t. split; [exact Ht|]. unfold Table. destruct (key_short t (H t Ht)) as [N _]. rewrite E in N. exact N.
  - intros (t & Ht & E). unfold Table in E. exists t. split; [rewrite E; apply key_of; exact L|exact Ht].
Qed.
Lemma before_dot_app (a b : str) : ~ In dot a -> before_dot (a ++ dot :: b) = a.
Proof. induction a as [|c a IH]; intros H; cbn [app before_dot]; [reflexivity|]. destruct (Ascii.eqb_spec c dot) as [->|]; [exfalso; apply H; left; reflexivity|]. f_equal. apply IH. intros X. apply H. right. exact X. Qed.
Lemma after_dot_app (a b : str) : ~ In dot b -> after_last_dot (a ++ dot :: b) = b.
Proof. intros H. unfold after_last_dot. rewrite rev_app_distr. cbn [rev]. rewrite <- app_assoc. cbn [app]. rewrite before_dot_app by (rewrite <- in_rev; exact H). apply rev_involutive. Qed.
Theorem zaids_ok x s : Forall (fun t => exists z l, Table z l t /\ ~ In dot l) (f_tables x) -> ~ In dot s -> Selected (fun t => exists z, Table z s t) (f_tables x) (find_zaids x s).
Proof.
  intros H Hs. apply selected_filter. rewrite Forall_forall in H. intros t Ht. rewrite eqb_iff. destruct (H t Ht) as (z & l & E & Hl). unfold Table in E. split.
  - intros ->. exists z. unfold Table. rewrite E, after_dot_app by exact Hl. reflexivity.
  - intros (z' & E'). unfold Table in E'. rewrite E', after_dot_app by exact Hs. reflexivity.
Qed.

Lemma ends_iff c s : ends_with c s = true <-> exists a, s = a ++ [c].
Proof.
  unfold ends_with, last_char. split.
  - destruct (rev s) as [|d r] eqn:E; [discriminate|]. intros X. apply Ascii.eqb_eq in X as ->. exists (rev r). rewrite <- (rev_involutive s), E. reflexivity.
  - intros [a ->]. rewrite rev_unit. apply Ascii.eqb_refl.
Qed.
Lemma has_dot z s : existsb (Ascii.eqb dot) (z ++ dot :: s) = true.
Proof. rewrite existsb_app. cbn [existsb]. rewrite Ascii.eqb_refl. cbn [orb]. apply Bool.orb_true_r. Qed.
Lemma digits_no_dot z : all_digits z -> ~ In dot z.
Proof. intros [_ H] X. rewrite Forall_forall in H. specialize (H dot X). discriminate H. Qed.
Lemma zaid_ok t z s : Table z s t -> ~ In dot z -> table_zaid t = z.
Proof. intros E H. unfold table_zaid. unfold Table in E. rewrite E, has_dot, before_dot_app by exact H. reflexivity. Qed.
Theorem metastable_ok t z s : Table z s t -> all_digits z ->
  ((exists a, s = a ++ ["c"%char]) -> metastable t = Ok (Some (if str_eqb z (s2l "95242") then 1 else if str_eqb z (s2l "95642") then 0 else if (600 <? Z.of_N (num_of z) mod 1000) then 1 else 0)%Z))
  /\ (s <> [] -> ~ (exists a, s = a ++ ["c"%char]) -> metastable t = Ok None).
Proof.
  intros E H. pose proof (zaid_ok t z s E (digits_no_dot z H)) as Z. unfold metastable. rewrite Z. unfold Table in E. split.
  - intros [a ->]. replace (ends_with "c" (x_name t)) with true by (symmetry; apply ends_iff; exists (z ++ dot :: a); rewrite E; rewrite <- app_assoc; reflexivity). cbn [negb].
    destruct (str_eqb z (s2l "95242")); [reflexivity|]. destruct (str_eqb z (s2l "95642")); [reflexivity|]. rewrite E, before_dot_app by (apply digits_no_dot; exact H). rewrite (parse_digits z H). reflexivity.
  - intros N C. destruct (ends_with "c" (x_name t)) eqn:X; [|reflexivity]. exfalso. apply ends_iff in X as [a X]. apply C. destruct (@exists_last _ s N) as (s0 & c & ->). exists s0.
    rewrite E in X. change (z ++ dot :: s0 ++ [c]) with (z ++ (dot :: s0) ++ [c]) in X. rewrite app_assoc in X. apply app_inj_tail in X as [_ ->]. reflexivity.
Qed.

(** ** loading *)
Section Load.
  Variable open_ : str -> str -> res xsdir.
  (* the outcome of a row, without the file kept from the row before *)
  Definition fresh_row (code : str) (d : list (str * xsdir)) (r : crow) : res (list (str * xsdir)) :=
    do path <- of_opt KeyError (dget str_eqb code (c_paths r));
    if str_eqb path [] then Ok d
    else do x <- open_ code path; match x with [] => Err IndexError | _ => Ok (if memb str_eqb (c_lib r) (map snd x) then dset str_eqb (c_lib r) x d else d) end.
  Definition good (codes : list str) (s : lstate) : Prop := match snd s with
    | None => fst s = s2l "dummy"
    | Some x => x <> [] /\ forall code, In code codes -> open_ code (fst s) = Ok x end.
  Definition same_kind (codes : list str) : Prop := forall a b p, In a codes -> In b codes -> open_ a p = open_ b p.
  Lemma row_fresh codes code st d r : same_kind codes -> In code codes -> mcnp_type code = true -> good codes st -> (forall p, Path code r p -> p <> s2l "dummy") ->
    match load_row open_ code (st, d) r with Ok (st', d') => good codes st' /\ fresh_row code d r = Ok d' | Err e => fresh_row code d r = Err e end.
  Proof.
    intros HK HC HM G HP. destruct st as [prev cur]. unfold load_row, fresh_row. destruct (dget str_eqb code (c_paths r)) as [path|] eqn:P; cbn [of_opt bind]; [|reflexivity].
    destruct (str_eqb path []); [auto|]. rewrite HM. destruct (str_eqb prev path) eqn:E.
    - apply str_eqb_eq in E as ->. destruct cur as [x|]; unfold good in G; cbn [fst snd] in G.
      + destruct G as [Gn G]. cbn [of_opt bind]. rewrite (G code HC). cbn [bind]. destruct x as [|y x]; [congruence|]. split; [split; [exact Gn|exact G]|reflexivity].
      + exfalso. exact (HP path P G).
    - destruct (open_ code path) as [[|y x]|e] eqn:O; cbn [bind]; try reflexivity. split; [|reflexivity]. split; [discriminate|]. cbn [fst]. intros c Hc. rewrite (HK c code path Hc HC). exact O.
  Qed.
  Lemma rows_fresh codes code rows : same_kind codes -> In code codes -> mcnp_type code = true -> Forall (fun r => forall p, Path code r p -> p <> s2l "dummy") rows -> forall st d, good codes st ->
    match foldM (load_row open_ code) (st, d) rows with Ok (st', d') => good codes st' /\ foldM (fresh_row code) d rows = Ok d' | Err e => foldM (fresh_row code) d rows = Err e end.
  Proof.
    intros HK HC HM H. induction H as [|r rows Hr _ IH]; intros st d G; cbn [foldM]; [auto|]. pose proof (row_fresh codes code st d r HK HC HM G Hr) as R.
    destruct (load_row open_ code (st, d) r) as [[st' d']|e]; [destruct R as [G' ->]; cbn [bind]; apply IH; exact G'|rewrite R; reflexivity].
  Qed.
  Lemma codes_fresh all rows : same_kind all -> Forall (fun r => forall c p, Path c r p -> p <> s2l "dummy") rows -> forall codes st data, incl codes all -> Forall (fun c => mcnp_type c = true) codes -> good all st -> NoDup codes ->
    (forall c, In c codes -> ~ In c (dkeys data)) ->
    match foldM (load_code open_ rows) (st, data) codes with
    | Ok (_, data') => exists ds, mapM (fun c => foldM (fresh_row c) [] rows) codes = Ok ds /\ data' = data ++ combine codes ds
    | Err e => mapM (fun c => foldM (fresh_row c) [] rows) codes = Err e end.
  Proof.
    intros HK HR codes. induction codes as [|c codes IH]; intros st data HI HM G ND HF; cbn [foldM mapM].
    - exists []. split; [reflexivity|symmetry; apply app_nil_r].
    - inversion HM as [|? ? M1 M2]; subst. inversion ND as [|? ? N1 N2]; subst.
      assert (HR' : Forall (fun r => forall p, Path c r p -> p <> s2l "dummy") rows) by (eapply Forall_impl; [|exact HR]; cbn; eauto).
      pose proof (rows_fresh all c rows HK (HI c (or_introl eq_refl)) M1 HR' st [] G) as R. cbn [load_code]. destruct (foldM (load_row open_ c) (st, []) rows) as [[st' d']|e]; cbn [bind].
      + destruct R as [G' ->]. cbn [bind fst snd].
        assert (D : dset str_eqb c d' data = data ++ [(c, d')]) by (apply (dset_new str_eqb); apply (dget_none_iff str_eqb str_eqb_eq); apply HF; left; reflexivity). rewrite D.
        specialize (IH st' (data ++ [(c, d')]) (fun x Hx => HI x (or_intror Hx)) M2 G' N2). 
        assert (HF2 : forall x, In x codes -> ~ In x (dkeys (data ++ [(c, d')]))). { intros x Hx X. unfold dkeys in X. rewrite map_app in X. apply in_app_or in X as [X|[X|[]]]; [exact (HF x (or_intror Hx) X)|cbn [fst] in X; subst; contradiction]. }
        specialize (IH HF2). destruct (foldM (load_code open_ rows) (st', data ++ [(c, d')]) codes) as [[st2 data2]|e].
        * destruct IH as (ds & -> & ->). exists (d' :: ds). split; [reflexivity|]. cbn [combine]. rewrite <- app_assoc. reflexivity.
        * rewrite IH. reflexivity.
      + rewrite R. reflexivity.
  Qed.
  (* what a code has after its rows *)
  Lemma fresh_ok code rows : forall d, NoDup (map c_lib rows) -> (forall l, In l (map c_lib rows) -> ~ In l (dkeys d)) ->
    Forall (fun r => exists p, Path code r p /\ (p = [] \/ exists x, open_ code p = Ok x /\ x <> [])) rows ->
    exists d', foldM (fresh_row code) d rows = Ok d' /\ forall l x, dget str_eqb l d' = Some x <-> dget str_eqb l d = Some x
      \/ exists r p, In r rows /\ c_lib r = l /\ Path code r p /\ p <> [] /\ open_ code p = Ok x /\ has_suffix x l.
  Proof.
    induction rows as [|r rows IH]; intros d ND HF H; cbn [foldM].
    - exists d. split; [reflexivity|]. intros l x. split; [auto|]. intros [X|(r & p & [] & _)]. exact X.
    - inversion H as [|? ? (p & P & O) H']; subst. inversion ND as [|? ? N1 N2]; subst. unfold fresh_row at 1. unfold Path in P. rewrite P. cbn [of_opt bind].
      assert (Fr : ~ In (c_lib r) (dkeys d)) by (apply HF; left; reflexivity).
      assert (Old : forall l x, (exists r' p', In r' rows /\ c_lib r' = l /\ Path code r' p' /\ p' <> [] /\ open_ code p' = Ok x /\ has_suffix x l) -> exists r' p', In r' (r :: rows) /\ c_lib r' = l /\ Path code r' p' /\ p' <> [] /\ open_ code p' = Ok x /\ has_suffix x l)
        by (intros l x (r' & p' & X & Y); exists r', p'; split; [right; exact X|exact Y]).
      destruct (str_eqb p []) eqn:E.
      + apply str_eqb_eq in E as ->. cbn [bind]. destruct (IH d N2 (fun l Hl => HF l (or_intror Hl)) H') as (d' & F & G). exists d'. split; [exact F|]. intros l x. rewrite G. split; [intros [X|X]; auto|].
        intros [X|(r' & p' & [<-|X] & Y)]; [auto| |right; exists r', p'; auto]. destruct Y as (_ & Y & Z & _). unfold Path in Y. rewrite P in Y. injection Y as <-. congruence.
      + assert (Ne : p <> []) by (intros ->; discriminate E). destruct O as [->|(x0 & O & On)]; [congruence|]. rewrite O. cbn [bind]. destruct x0 as [|y0 x0]; [congruence|]. remember (y0 :: x0) as xx. clear Heqxx.
        assert (Mem : memb str_eqb (c_lib r) (map snd xx) = true <-> has_suffix xx (c_lib r)).
        { rewrite memb_in, in_map_iff. unfold has_suffix. split; [intros ([a b] & X & Y); cbn [snd] in X; subst; eauto|intros [a X]; exists (a, c_lib r); auto]. }
        destruct (memb str_eqb (c_lib r) (map snd xx)) eqn:M.
        * assert (HF2 : forall l, In l (map c_lib rows) -> ~ In l (dkeys (dset str_eqb (c_lib r) xx d))).
          { intros l Hl X. apply (dset_keys str_eqb str_eqb_eq) in X as [->|X]; [contradiction|exact (HF l (or_intror Hl) X)]. }
          destruct (IH _ N2 HF2 H') as (d' & F & G). exists d'. split; [exact F|]. intros l x. rewrite G. destruct (str_eqb l (c_lib r)) eqn:L.
          -- apply str_eqb_eq in L as ->. rewrite (dget_dset_same str_eqb str_eqb_eq). rewrite (proj2 (dget_none_iff str_eqb str_eqb_eq _ _) Fr). split.
             ++ intros [X|X]; [injection X as <-; right; exists r, p; repeat split; auto; [left; reflexivity|apply Mem; reflexivity]|right; apply Old; exact X].
             ++ intros [X|(r' & p' & [<-|X] & Y)]; [discriminate X| |right; exists r', p'; auto]. destruct Y as (_ & Y & _ & Z & _). unfold Path in Y. rewrite P in Y. injection Y as <-. left. congruence.
          -- assert (l <> c_lib r) by (intros ->; rewrite str_eqb_refl in L; discriminate L). rewrite (dget_dset_other str_eqb str_eqb_eq) by assumption. split; [intros [X|X]; auto|].
             intros [X|(r' & p' & [<-|X] & Y)]; [auto|destruct Y as (Y & _); congruence|right; exists r', p'; auto].
        * destruct (IH d N2 (fun l Hl => HF l (or_intror Hl)) H') as (d' & F & G). exists d'. split; [exact F|]. intros l x. rewrite G. split; [intros [X|X]; auto|].
          intros [X|(r' & p' & [<-|X] & Y)]; [auto| |right; exists r', p'; auto]. destruct Y as (<- & Y & _ & Z & Su). unfold Path in Y. rewrite P in Y. injection Y as <-. rewrite O in Z. injection Z as <-.
          apply Mem in Su. discriminate Su.
  Qed.
End Load.
