From Coq Require Import Lia ZArith Permutation Sorted.
From Verif Require Import PyBase PyLemmas PyStr PyText PyStrLemmas D1SModel D1SSpec D1SProofs D1SProofs2 LibModel InpGeomSpec MatModel MatProofs MatProofs2 DataModel DataProofs DataProofs2 DataProps TalSumModel TalSumSpec.
Open Scope nat_scope.

Lemma eqb_false (x y : str) : str_eqb x y = false <-> x <> y.
Proof. split; [intros E X; subst; rewrite str_eqb_refl in E; discriminate|apply str_eqb_neq]. Qed.
Lemma remove_none p s : p <> [] -> ~ occurs p s -> remove_go p s 0 = s.
Proof.
  intros Hp. induction s as [|c s IH]; intros H; [reflexivity|]. cbn [remove_go]. destruct (strip_prefix p (c :: s)) as [r|] eqn:E.
  - exfalso. apply H. apply strip_prefix_spec in E. exists [], r. rewrite E. reflexivity.
  - rewrite IH; [reflexivity|]. intros (a & b & X). apply H. exists (c :: a), b. rewrite X. reflexivity.
Qed.
Lemma remove_skip p : forall q s, remove_go p (q ++ s) (length q) = remove_go p s 0.
Proof. induction q as [|c q IH]; intros s; [reflexivity|]. cbn [app length remove_go]. apply IH. Qed.
Lemma remove_head p s : p <> [] -> ~ occurs p s -> remove_all p (p ++ s) = s.
Proof.
  intros Hp H. unfold remove_all. destruct p as [|c p]; [easy|]. cbn [app remove_go]. assert (E : strip_prefix (c :: p) (c :: p ++ s) = Some s) by (apply strip_prefix_spec; reflexivity).
  rewrite E. cbn [length]. rewrite Nat.sub_succ, Nat.sub_0_r, remove_skip. now apply remove_none.
Qed.
Lemma lstrip_suffix s : exists a, s = a ++ lstrip s.
Proof. induction s as [|c s [a IH]]; [exists []; reflexivity|]. cbn [lstrip]. destruct (is_ws c); [exists (c :: a); cbn; now rewrite <- IH|exists []; reflexivity]. Qed.
Lemma strip_part s : exists a b, s = a ++ strip s ++ b.
Proof.
  destruct (lstrip_suffix s) as [a E]. destruct (lstrip_suffix (rev (lstrip s))) as [b F]. exists a, (rev b). unfold strip. rewrite <- rev_app_distr. rewrite <- F, rev_involutive. exact E.
Qed.
Lemma occurs_strip p s : occurs p (strip s) -> occurs p s.
Proof. intros (a & b & E). destruct (strip_part s) as (x & y & F). exists (x ++ a), (b ++ y). rewrite F, E, <- !app_assoc. reflexivity. Qed.
Lemma lower_ne tag : tag <> [] -> map lower tag <> []. Proof. destruct tag; [easy|discriminate]. Qed.
(* the capital F of a tag is nowhere in its small letters *)
Lemma lower_not_F c : lower c <> "F"%char.
Proof. destruct c as [[] [] [] [] [] [] [] []]; vm_compute; discriminate. Qed.
Lemma occurs_cons_app c p : forall q s, ~ In c q -> occurs (c :: p) (q ++ s) -> occurs (c :: p) s.
Proof.
  induction q as [|x q IH]; intros s N O; [exact O|]. apply IH; [intros X; apply N; now right|]. destruct O as ([|y a] & b & E).
  - cbn in E. injection E as -> _. elim N. now left.
  - cbn in E. injection E as _ E. exists a, b. exact E.
Qed.
Lemma strip_idem s : strip (strip s) = strip s.
Proof. destruct (strip_spec s) as (p & q & _ & _ & _ & T). rewrite <- (app_nil_r (strip s)) at 1. apply (strip_tight [] (strip s) []); [constructor|constructor|exact T]. Qed.
Lemma strip_word (w t : str) : no_ws w -> w <> [] -> exists u, strip (w ++ t) = w ++ u /\ strip u = strip t /\ exists b, t = u ++ b.
Proof.
  intros W N. destruct (strip_spec t) as (p & q & Hp & Hq & E & T).
  assert (Wt : tight w). { right. split; [destruct w as [|a m]; [easy|]; exists a, m; split; [reflexivity|]; now apply Forall_inv in W|]. destruct (exists_last N) as (m & b & X). exists b, m. split; [exact X|]. rewrite X in W. apply Forall_app in W as [_ W]. now apply Forall_inv in W. }
  destruct T as [Z|[[a [m [Ea Ha]]] [b [m' [Eb Hb]]]]].
  - exists []. rewrite Z in E. cbn in E. split; [|split; [now rewrite Z|exists t; reflexivity]]. rewrite app_nil_r. rewrite E. rewrite <- app_assoc || idtac. change (w ++ p ++ q) with ([] ++ w ++ (p ++ q)). apply strip_tight; [constructor| |exact Wt]. apply Forall_app; now split.
  - exists (p ++ strip t). assert (Tt : tight (strip t)) by (right; split; [exists a, m|exists b, m']; now split). split; [|split].
    + rewrite E at 1. replace (w ++ p ++ strip t ++ q) with ([] ++ (w ++ p ++ strip t) ++ q) by (cbn; now rewrite <- !app_assoc). apply strip_tight; [constructor|exact Hq|]. right. split.
      * destruct w as [|a' w']; [easy|]. exists a', (w' ++ p ++ strip t). split; [reflexivity|]. now apply Forall_inv in W.
      * exists b, (w ++ p ++ m'). split; [|exact Hb]. rewrite Eb at 1. now rewrite <- !app_assoc.
    + rewrite <- (app_nil_r (strip t)) at 1. apply strip_tight; [exact Hp|constructor|exact Tt].
    + exists q. rewrite <- app_assoc. exact E.
Qed.
Lemma tagged_text tag l t : (exists r, tag = "F"%char :: r) -> no_ws (map lower tag) -> Tagged tag l t -> strip (remove_all (map lower tag) (strip (remove_all tag l))) = strip t.
Proof.
  intros [r Hr] W [[E|E] [N1 N2]]; assert (T : tag <> []) by (rewrite Hr; discriminate); pose proof (lower_ne tag T) as T'.
  - rewrite E, remove_head by assumption. unfold remove_all. rewrite remove_none; [apply strip_idem|exact T'|]. intros X. apply N2. now apply occurs_strip.
  - assert (O : ~ occurs tag l). { rewrite E, Hr. intros X. apply occurs_cons_app in X; [|intros Y; apply in_map_iff in Y as (z & Y & _); now apply lower_not_F in Y]. apply N1. rewrite Hr. exact X. }
    unfold remove_all at 2. rewrite remove_none by assumption. rewrite E.
    destruct (strip_word (map lower tag) t W T') as (u & -> & S2 & b & S3). rewrite remove_head; [exact S2|exact T'|]. intros (x & y & X). apply N2. exists x, (y ++ b). rewrite S3, X, <- !app_assoc. reflexivity.
Qed.
Lemma kcat_low p n : letters (s2l p) -> no_ws (map lower (kcat p n)).
Proof.
  intros L. pose proof (kcat_no_ws p n L) as H. unfold no_ws in *. rewrite Forall_map. eapply Forall_impl; [|exact H]. intros c. destruct c as [[] [] [] [] [] [] [] []]; vm_compute; intros; congruence.
Qed.
Lemma retrieve_ok p d n l more t : letters (s2l p) -> (exists r, s2l p = "F"%char :: r) -> dget str_eqb (kcat p n) d = Some (l :: more) -> Tagged (kcat p n) l t -> retrieve_input d (kcat p n) = Ok (strip t).
Proof.
  intros L [r R] G T. unfold retrieve_input. rewrite G. f_equal. apply tagged_text; [|now apply kcat_low|exact T]. exists (r ++ str_of_Z n). unfold kcat. rewrite R. reflexivity.
Qed.
Lemma split_strip s : split (strip s) = split s.
Proof. destruct (strip_spec s) as (p & q & Hp & Hq & E & T). rewrite E at 2. rewrite split_ws by exact Hp. now rewrite split_trail. Qed.
Lemma np_found l ps : Particles l ps -> search_np l = Some ps.
Proof.
  intros (a & r & -> & N & NE & F & R). induction a as [|c a IH]; cbn [app search_np].
  - rewrite (proj2 (Ascii.eqb_eq _ _) eq_refl). assert (S1 : span_np (ps ++ r) = ps). { clear NE. induction ps as [|x ps IH]; cbn [app span_np]; [destruct r as [|y r]; [reflexivity|]; cbn [span_np]; now rewrite R|]. rewrite (Forall_inv F). f_equal. apply IH. exact (Forall_inv_tail F). }
    rewrite S1. destruct ps; [easy|reflexivity].
  - destruct (Ascii.eqb c ":") eqn:Q; [|apply IH; intros X; apply N; now right]. apply Ascii.eqb_eq in Q. subst c. elim N. now left.
Qed.

Section S.
  Context (repr : str -> str).
  Definition step (n : Z) (tag : string) (P D : str) (M : list str) (i : tinfo) (key : str) : tinfo :=
    if str_eqb key (kcat "FC" n) then mkTI (i_particle i) (Some D) (i_mult i)
    else if str_eqb key (kcat tag n) then mkTI (Some P) (i_desc i) (i_mult i)
    else if str_eqb key (kcat "FM" n) then mkTI (i_particle i) (i_desc i) (Some M) else i.
  Lemma fold_step n tag P D M : kcat tag n <> kcat "FC" n -> kcat tag n <> kcat "FM" n -> forall keys i,
    fold_left (step n tag P D M) keys i =
    mkTI (if existsb (str_eqb (kcat tag n)) keys then Some P else i_particle i)
         (if existsb (str_eqb (kcat "FC" n)) keys then Some D else i_desc i)
         (if existsb (str_eqb (kcat "FM" n)) keys then Some M else i_mult i).
  Proof.
    intros N1 N2. assert (N3 : kcat "FM" n <> kcat "FC" n) by (intros X; apply app_inv_tail in X; discriminate).
    induction keys as [|k keys IH]; intros i; [destruct i; reflexivity|]. cbn [fold_left]. rewrite IH. cbn [existsb]. unfold step.
    destruct (str_eqb k (kcat "FC" n)) eqn:E1; [apply str_eqb_eq in E1; subst k; rewrite str_eqb_refl, !(proj2 (eqb_false _ _)) by congruence; cbn; destruct (existsb _ keys), (existsb _ keys), (existsb _ keys); reflexivity|].
    assert (Q1 : str_eqb (kcat "FC" n) k = false) by (apply eqb_false; apply eqb_false in E1; congruence).
    destruct (str_eqb k (kcat tag n)) eqn:E2; [apply str_eqb_eq in E2; subst k; rewrite str_eqb_refl, !(proj2 (eqb_false _ _)) by congruence; cbn; destruct (existsb _ keys), (existsb _ keys), (existsb _ keys); reflexivity|].
    assert (Q2 : str_eqb (kcat tag n) k = false) by (apply eqb_false; apply eqb_false in E2; congruence).
    destruct (str_eqb k (kcat "FM" n)) eqn:E3; [apply str_eqb_eq in E3; subst k; rewrite str_eqb_refl, Q1, Q2; cbn; destruct (existsb _ keys), (existsb _ keys), (existsb _ keys); reflexivity|].
    assert (Q3 : str_eqb (kcat "FM" n) k = false) by (apply eqb_false; apply eqb_false in E3; congruence).
    rewrite Q1, Q2, Q3. reflexivity.
  Qed.
  Lemma foldM_ok {A B} (f : A -> B -> res A) (g : A -> B -> A) l : (forall a b, In b l -> f a b = Ok (g a b)) -> forall a, foldM f a l = Ok (fold_left g l a).
  Proof. induction l as [|b l IH]; intros H a; [reflexivity|]. cbn [foldM fold_left]. rewrite H by now left. cbn [bind]. apply IH. intros x y I. apply H. now right. Qed.
  Lemma list_text_ok ws : list_text repr ws = repr_list repr ws.
  Proof.
    unfold list_text, repr_list. change ("["%char :: ?x) with (s2l "[" ++ x). f_equal. f_equal. destruct ws as [|w ws]; [reflexivity|]. cbn [map comma_joined].
    revert w. induction ws as [|v ws IH]; intros w; [cbn [map concat commas]; apply app_nil_r|]. cbn [map concat commas]. rewrite <- app_assoc. do 2 f_equal. exact (IH v).
  Qed.
  Definition the_mult (e : entry) : list str :=
    match e_mult e with
    | None => []
    | Some (t, []) => split t
    | Some (t, more) => s2l "N.A." :: (match split t with [] => [] | _ => [repr_list repr (split t)] end) ++ map strip (filter (fun l => negb (c_line l)) more)
    end.
  Lemma found_in d k n : (0 <= n)%Z -> is_tally_card n k = true -> existsb (str_eqb k) (get_tally_cards n (mkD d [])) = match dget str_eqb k d with Some _ => true | None => false end.
  Proof.
    intros P T. destruct (dget str_eqb k d) as [v|] eqn:G.
    - apply existsb_exists. exists k. split; [|apply str_eqb_refl]. apply filter_In. split; [|exact T]. apply (dget_some_in str_eqb str_eqb_eq) in G. change k with (fst (k, v)). now apply in_map.
    - apply Bool.not_true_is_false. intros X. apply existsb_exists in X as (y & I & E). apply str_eqb_eq in E. subst y. apply filter_In in I as [I _]. apply (dget_none_iff str_eqb str_eqb_eq) in G. now apply G.
  Qed.
  Lemma tally_key p n : letters p -> is_tally_card n (s2l "F" ++ p ++ str_of_Z n) = true.
  Proof. intros L. cbn [s2l list_ascii_of_string app is_tally_card]. rewrite span_letters_app; [|exact L|destruct (str_of_Z_first n) as [c [r [-> E]]]; exact E]. cbn [snd]. rewrite str_eqb_refl. reflexivity. Qed.
  Lemma row_ok tag d n e : In tag ["F"; "FMESH"]%string -> Cards tag d n e -> tally_row repr tag d n = Ok (row_of repr n e).
  Proof.
    intros HT (P & (l & more & G & HP) & HD & HM & HU). 
    assert (TW : exists w, s2l tag = s2l "F" ++ w /\ letters w /\ (w = [] \/ w = s2l "MESH" /\ tag = "FMESH"%string)).
    { destruct HT as [<-|[<-|[]]]; [exists []|exists (s2l "MESH")]; (split; [reflexivity|]); (split; [repeat constructor|]); [now left|now right]. }
    destruct TW as (w & TW & LW & WC).
    assert (KT : kcat tag n = s2l "F" ++ w ++ str_of_Z n) by (unfold kcat; rewrite TW; now rewrite <- app_assoc).
    assert (N1 : kcat tag n <> kcat "FC" n) by (intros X; apply app_inv_tail in X; rewrite TW in X; destruct WC as [->|[-> _]]; discriminate).
    assert (N2 : kcat tag n <> kcat "FM" n) by (intros X; apply app_inv_tail in X; rewrite TW in X; destruct WC as [->|[-> _]]; discriminate).
    unfold tally_row.
    rewrite (foldM_ok (add_card repr tag n d) (step n tag (upper (e_ps e)) (match e_desc e with Some t => strip t | None => [] end) (the_mult e))).
    - rewrite fold_step by assumption. cbn [i_particle i_desc i_mult].
      rewrite (found_in d (kcat tag n) n P) by (rewrite KT; now apply tally_key). rewrite G.
      rewrite (found_in d (kcat "FC" n) n P) by (apply (tally_key (s2l "C")); repeat constructor).
      rewrite (found_in d (kcat "FM" n) n P) by (apply (tally_key (s2l "M")); repeat constructor).
      unfold row_of, the_mult.
      assert (ED : (if match dget str_eqb (kcat "FC" n) d with Some _ => true | None => false end then Some (match e_desc e with Some t => strip t | None => [] end) else None) = option_map strip (e_desc e)).
      { destruct (e_desc e) as [t|]; [destruct HD as (l1 & m1 & -> & _)|rewrite HD]; reflexivity. }
      rewrite ED. destruct (e_mult e) as [[t ms]|]; [destruct HM as (l1 & -> & _ & HN)|rewrite HM; reflexivity].
      destruct ms as [|m ms]; [destruct (split t) as [|x xs]; [now elim (HN eq_refl)|]; cbn [hd_error tl]; reflexivity|].
      rewrite list_text_ok. destruct (split t); reflexivity.
    - intros i key I. assert (KI : In key (dkeys d) /\ exists v, letters v /\ key = s2l "F" ++ v ++ str_of_Z n).
      { apply (C51_cards_of_a_tally n (mkD d []) key P) in I. exact I. }
      destruct KI as (KI & v & LV & KE). destruct (HU v LV) as [U1 U2]; [now rewrite <- KE|].
      assert (FV : forall q, letters q -> str_eqb key (s2l "F" ++ q ++ str_of_Z n) = str_eqb v q).
      { intros q LQ. destruct (str_eqb v q) eqn:Q; [apply str_eqb_eq in Q; subst v; rewrite KE; apply str_eqb_refl|]. apply eqb_false. intros X. rewrite KE in X. apply app_inv_head in X. apply app_inv_tail in X. subst q. now rewrite str_eqb_refl in Q. }
      assert (VK : forall r, key = r -> key = r) by auto.
      unfold add_card, step.
      assert (E1 : starts2 "FC" key = str_eqb key (kcat "FC" n)).
      { change (kcat "FC" n) with (s2l "F" ++ s2l "C" ++ str_of_Z n). rewrite (FV (s2l "C")) by repeat constructor. rewrite KE. unfold starts2. destruct v as [|c v].
        - destruct (str_of_Z_first n) as (c & r & -> & E). cbn [s2l list_ascii_of_string app firstn]. apply eqb_false. intros X. injection X as ->. discriminate.
        - cbn [s2l list_ascii_of_string app firstn]. destruct (Ascii.eqb c "C") eqn:Q; [apply Ascii.eqb_eq in Q; subst c; rewrite (U1 v eq_refl); reflexivity|]. apply Ascii.eqb_neq in Q.
          transitivity false; [|symmetry]; apply eqb_false; congruence. }
      rewrite E1. destruct (str_eqb key (kcat "FC" n)) eqn:K1.
      { apply str_eqb_eq in K1. rewrite K1. destruct (e_desc e) as [t|]; [destruct HD as (l1 & m1 & G1 & T1)|exfalso; apply (dget_none_iff str_eqb str_eqb_eq) in HD; apply HD; now rewrite <- K1].
        rewrite (retrieve_ok "FC" d n l1 m1 t); [reflexivity|repeat constructor|now exists (s2l "C")|exact G1|exact T1]. }
      destruct (str_eqb key (kcat tag n)) eqn:K2.
      { apply str_eqb_eq in K2. rewrite K2, G, (np_found l (e_ps e) HP). reflexivity. }
      assert (E3 : starts2 "FM" key = str_eqb key (kcat "FM" n)).
      { change (kcat "FM" n) with (s2l "F" ++ s2l "M" ++ str_of_Z n). rewrite (FV (s2l "M")) by repeat constructor. rewrite KE. unfold starts2. destruct v as [|c v].
        - destruct (str_of_Z_first n) as (c & r & -> & E). cbn [s2l list_ascii_of_string app firstn]. apply eqb_false. intros X. injection X as ->. discriminate.
        - cbn [s2l list_ascii_of_string app firstn]. destruct (Ascii.eqb c "M") eqn:Q; [|apply Ascii.eqb_neq in Q; transitivity false; [|symmetry]; apply eqb_false; congruence].
          apply Ascii.eqb_eq in Q. subst c. destruct (U2 v eq_refl) as [->|[TT ->]]; [reflexivity|]. exfalso. rewrite KT in K2. rewrite (FV w LW) in K2. apply eqb_false in K2. apply K2. destruct WC as [W0|[W0 _]]; [|now rewrite W0]. exfalso. rewrite TT, W0 in TW. discriminate. }
      rewrite E3. destruct (str_eqb key (kcat "FM" n)) eqn:K3; [|reflexivity].
      apply str_eqb_eq in K3. rewrite K3. unfold the_mult. destruct (e_mult e) as [[t ms]|]; [destruct HM as (l1 & G1 & T1 & HN)|exfalso; apply (dget_none_iff str_eqb str_eqb_eq) in HM; apply HM; now rewrite <- K3].
      unfold retrieve_FM. rewrite G1. rewrite (retrieve_ok "FM" d n l1 ms t); [|repeat constructor|now exists (s2l "M")|exact G1|exact T1]. rewrite split_strip. cbn [length tl]. destruct ms as [|m ms]; reflexivity.
  Qed.
  Lemma insert_perm x l : Permutation (insert_row x l) (x :: l).
  Proof. induction l as [|y l IH]; cbn [insert_row]; [apply Permutation_refl|]. destruct (r_tally x <=? r_tally y)%Z; [apply Permutation_refl|]. rewrite IH. apply perm_swap. Qed.
  Lemma sort_perm l : Permutation (sort_rows l) l.
  Proof. induction l as [|x l IH]; [constructor|]. cbn [sort_rows fold_right]. rewrite insert_perm. constructor. exact IH. Qed.
  Definition tle (a b : trow) := (r_tally a <= r_tally b)%Z.
  Lemma insert_sorted x l : StronglySorted tle l -> StronglySorted tle (insert_row x l).
  Proof.
    induction l as [|y l IH]; intros H; cbn [insert_row]; [constructor; constructor|]. inversion H as [|? ? H1 H2]. destruct (Z.leb_spec (r_tally x) (r_tally y)) as [L|L].
    - constructor; [exact H|]. constructor; [exact L|]. eapply Forall_impl; [|exact H2]. unfold tle. intros z Z1. lia.
    - constructor; [now apply IH|]. rewrite insert_perm. constructor; [unfold tle; lia|exact H2].
  Qed.
  Lemma sort_sorted l : StronglySorted tle (sort_rows l).
  Proof. induction l as [|x l IH]; [constructor|]. cbn [sort_rows fold_right]. now apply insert_sorted. Qed.
End S.
