(** Proofs for C111, continued: what is written. *)
From Coq Require Import Lia ZArith QArith Sorted.
From Verif Require Import PyBase PyLemmas PyStr PyStrLemmas PyText D1SProofs2 WWTextProofs LibModel MatModel MatProofs MatProofs2 InpModel InpSpec InpProofs InpProofs2 InpProofs3 InpProofs4 InpProofs5 LookModel LookProofs EliteModel EliteSpec EliteProofs EliteProofs2 EliteProofs3 EliteProofs4 EliteProofs5 EliteProps EliteRunModel EliteRunSpec EliteRunProofs EliteRunProofs2.
Open Scope nat_scope.

Lemma mapM_sector_known {A} (d : list (sector * A)) l xs : map fst d = sector_names -> mapM (lookup d) l = Ok xs -> Forall known l.
Proof. intros K H. apply mapM_Forall2 in H. induction H as [|s x l xs E _ IH]; constructor; [|exact IH]. unfold lookup in E. destruct (dget sector_eqb s d) as [v|] eqn:D; [|discriminate E].
  unfold known. rewrite <- K. clear - D. induction d as [|[s' v'] d IH]; cbn [dget map fst] in *; [discriminate|]. destruct (sector_eqb s s') eqn:E; [left; symmetry; now apply sector_eqb_eq|right; auto]. Qed.
Lemma own_spec t sectors own : own_cells t sectors = Ok own -> Forall known sectors /\ forall z, In z own <-> in_sectors t sectors z.
Proof. unfold own_cells. destruct (mapM (lookup (sectors_cells t)) sectors) as [ls|] eqn:E; cbn [bind]; [|discriminate]. intros H. injection H as <-.
  pose proof (mapM_sector_known _ _ _ (sectors_cells_names t) E) as K. split; [exact K|]. intros z.
  apply mapM_Forall2 in E. unfold in_sectors. clear K. induction E as [|s x l xs L _ IH]; cbn [concat In]; [split; [intros []|intros (s & [] & _)]|]. rewrite in_app_iff, IH.
  assert (X : In z x <-> In (s, z) t).
  { unfold lookup in L. destruct (dget sector_eqb s (sectors_cells t)) as [v|] eqn:D; [|discriminate L]. injection L as ->. unfold sectors_cells in D. revert D. generalize sector_names. induction l0 as [|n ns IHn]; cbn [map dget]; [discriminate|].
    destruct (sector_eqb s n) eqn:EN; [|exact IHn]. intros D. injection D as <-. apply sector_eqb_eq in EN. subst n. rewrite in_map_iff. split.
    - intros ((s1 & z1) & <- & F). apply filter_In in F as [F G]. cbn [fst snd] in *. apply sector_eqb_eq in G. now subst.
    - intros H. exists (s, z). split; [reflexivity|]. apply filter_In. split; [exact H|]. now apply sector_eqb_eq. }
  rewrite X. split.
  - intros [H|(s' & A & B)]; [exists s; auto|exists s'; auto].
  - intros (s' & [->|A] & B); [left; exact B|right; eauto]. Qed.
Lemma own_wanted t sectors own : own_cells t sectors = Ok own -> forall z, In z (own ++ [800; 801]%Z) <-> wanted t sectors z.
Proof. intros H z. destruct (own_spec _ _ _ H) as [_ O]. rewrite in_app_iff, O. unfold wanted. cbn [In]. intuition congruence. Qed.
Lemma level0_spec h a t sectors own l0 : own_cells t sectors = Ok own -> level0_surfaces h a own = Ok l0 -> forall n, In n l0 <-> sector_surface h a t sectors n.
Proof. intros H. destruct (own_spec _ _ _ H) as [_ O]. unfold level0_surfaces. destruct (mapM _ (i_cells a)) as [ls|] eqn:E; cbn [bind]; [|discriminate]. intros Q n. injection Q as <-.
  apply mapM_Forall2 in E. unfold sector_surface. rewrite in_concat. split.
  - intros (x & Hx & Hn). destruct (Forall2_in_r _ _ _ _ E Hx) as [[key l] [I R]]. cbn [snd] in R. destruct (hget h l) as [c|] eqn:G; cbn [bind] in R; [|discriminate R]. apply hget_ok in G.
    destruct (c_values c) as [|[v k] vs] eqn:V; [discriminate R|]. destruct (zmem v own) eqn:Z; [|injection R as <-; destruct Hn]. injection R as <-. apply zmem_in in Z.
    exists key, l, c, v, k. rewrite V. split; [exact I|]. split; [exact G|]. split; [reflexivity|]. split; [now apply O|]. unfold surfs_of in Hn. apply in_map_iff in Hn as [[m q] [<- F]]. apply filter_In in F as [F1 F2]. cbn [fst snd] in *. apply kind_eqb_eq in F2. subst q. rewrite V in F1. exact F1.
  - intros (key & l & c & z & k & I & G & V & S & N). apply In_nth_error in I as [i I]. assert (X : exists x, nth_error ls i = Some x /\ (do c <- hget h l; match c_values c with (v, _) :: _ => Ok (if zmem v own then surfs_of c else []) | [] => Err IndexError end) = Ok x).
    { clear - E I. revert i I. induction E as [|kl x d ls R _ IH]; intros [|i] I; try discriminate; cbn [nth_error] in *; [|now apply IH]. injection I as ->. cbn [snd] in R. eauto. }
    destruct X as (x & X1 & X2). apply hget_ok in G. rewrite G in X2. cbn [bind] in X2. destruct (c_values c) as [|[v k'] vs] eqn:CV; [discriminate V|]. injection V as -> ->. apply O in S. apply zmem_in in S. rewrite S in X2. injection X2 as <-.
    exists (surfs_of c). split; [eapply nth_error_In; exact X1|]. unfold surfs_of. apply in_map_iff. exists (n, Ksur). split; [reflexivity|]. apply filter_In. rewrite CV. auto. Qed.

Lemma reach_comes h a t sectors req : (forall z, In z req <-> wanted t sectors z) -> forall z, reach (needs h (i_cells a) true) req z <-> comes h a t sectors z.
Proof. intros R z. split; induction 1; [apply comes_wanted; now apply R|eapply comes_with; eauto|apply reach_start; now apply R|eapply reach_step; eauto]. Qed.

Lemma sdef_spec sectors dc wd : sdef_values sectors dc = Ok wd -> Forall known sectors /\
  dkeys wd = dkeys dc /\ (forall k, k <> s2l "SI70" -> k <> s2l "SP70" -> dget str_eqb k wd = dget str_eqb k dc) /\
  exists ci cp si spp cs, dget str_eqb (s2l "SI70") dc = Some ci /\ dget str_eqb (s2l "SP70") dc = Some cp /\
    dget str_eqb (s2l "SI70") wd = Some (set_input si ci) /\ dget str_eqb (s2l "SP70") wd = Some (set_input spp cp) /\
    Forall2 plasma_of sectors cs /\
    split si = s2l "SI70" :: s2l "L" :: map str_of_Z cs /\ split spp = s2l "SP70" :: map (fun s => if sector_eqb s s23 then s2l "2" else s2l "1") sectors /\ source_lines sectors = Ok (si, spp).
Proof. unfold sdef_values. destruct (source_lines sectors) as [[si spp]|] eqn:SL; cbn [bind]; [|discriminate].
  destruct (dget str_eqb (s2l "SI70") dc) as [ci|] eqn:D1; cbn [of_opt bind]; [|discriminate]. rewrite (dget_dset_other str_eqb str_eqb_eq) by discriminate.
  destruct (dget str_eqb (s2l "SP70") dc) as [cp|] eqn:D2; cbn [of_opt bind]; [|discriminate]. intros H. injection H as <-.
  assert (K : Forall known sectors). { unfold source_lines in SL. destruct (mapM (lookup plasma_cells) sectors) as [cs|] eqn:M; [|discriminate SL]. exact (mapM_sector_known _ _ _ plasma_names M). }
  split; [exact K|]. split.
  { assert (I1 : In (s2l "SI70") (dkeys dc)) by (apply (dget_some_in str_eqb str_eqb_eq) in D1; apply (in_map fst) in D1; exact D1).
    assert (I2 : In (s2l "SP70") (dkeys dc)) by (apply (dget_some_in str_eqb str_eqb_eq) in D2; apply (in_map fst) in D2; exact D2).
    rewrite !(dset_keys_in str_eqb str_eqb_eq); [reflexivity|exact I1|rewrite (dset_keys_in str_eqb str_eqb_eq); assumption]. }
  split. { intros k N1 N2. rewrite (dget_dset_other str_eqb str_eqb_eq), (dget_dset_other str_eqb str_eqb_eq); [reflexivity| |]; intros X; rewrite X in *; auto. }
  destruct (C44_source sectors [(s2l "SI70", []); (s2l "SP70", [])] K) as (d' & si' & spp' & cs & E & A & B & F & S1 & S2 & _); [left; reflexivity|right; left; reflexivity|].
  unfold set_sdef in E. rewrite SL in E. cbn [bind] in E. cbn in E. injection E as <-. cbn in A, B. injection A as ->. injection B as ->.
  exists ci, cp, si', spp', cs. split; [reflexivity|]. split; [reflexivity|]. split; [rewrite (dget_dset_other str_eqb str_eqb_eq) by discriminate; apply (dget_dset_same str_eqb str_eqb_eq)|].
  split; [apply (dget_dset_same str_eqb str_eqb_eq)|]. auto. Qed.

Lemma stripped_written t sectors req c : (forall z, In z req <-> wanted t sectors z) -> cell_written t sectors c (stripped false req c).
Proof. intros R. unfold stripped, cell_written. destruct (c_values c) as [|[v k] vs]; cbn [head]; split; try reflexivity; try discriminate.
  - intros z k' E W. injection E as <- <-. apply R in W. apply zmem_in in W. now rewrite W.
  - intros N. destruct (zmem v req) eqn:Z; [|reflexivity]. apply zmem_in, R in Z. destruct (N v k eq_refl Z). Qed.
Lemma dset_forall2 {A} (R : A -> str * card -> Prop) (f : A -> str) key c ns (w : list (str * card)) :
  Forall2 (fun n kc => fst kc = f n /\ R n kc) ns w -> (forall n kc, fst kc = f n -> f n <> key -> R n kc -> True) -> In key (map f ns) ->
  Forall2 (fun n kc => fst kc = f n /\ (f n <> key -> R n kc)) ns (dset str_eqb key c w).
Proof. intros F _ I. induction F as [|n [k c0] ns w [AA BB] F IH]; [destruct I|]. cbn [dset fst] in *. subst k. destruct (str_eqb key (f n)) eqn:E.
  - apply str_eqb_eq in E. constructor; [split; [reflexivity|intros N; destruct N; symmetry; exact E]|]. clear - F. induction F as [|? ? ? ? [A1 B1] _ IH]; constructor; auto.
  - constructor; [split; [reflexivity|auto]|]. apply IH. destruct I as [I|I]; [|exact I]. rewrite I, str_eqb_refl in E. discriminate E. Qed.

Section Content.
  Variable sind cosd : Z -> Q.
  Variable cosq : Q -> Q.
  Variable norm : vec3 -> Q.
  Variable void_d : Q.
  Variable view : card -> surf.
  Variable paint : surf -> card -> card.
  Variable trans_of : card -> trans.
  Notation values' := (extract_values sind cosd cosq norm view paint trans_of).

  Lemma content fuel h a t sectors tol w : input_allocated h a -> values' fuel h a t sectors tol = Ok (Some w) ->
    Forall known sectors /\
    (exists ns, StronglySorted Z.lt ns /\ (forall n, In n ns <-> comes h a t sectors n) /\
       Forall2 (fun n kc => fst kc = str_of_Z n /\ (n <> 800 -> n <> 801 -> exists c, cell_of h (i_cells a) n c /\ cell_written t sectors c (snd kc))%Z) ns (w_cells w)) /\
    (exists outer gy outer' gy', cell_of h (i_cells a) 800 outer /\ cell_of h (i_cells a) 801 gy /\ modify_graveyard sectors gy outer = Ok (outer', gy') /\
       dget str_eqb (s2l "800") (w_cells w) = Some outer' /\ dget str_eqb (s2l "801") (w_cells w) = Some gy') /\
    (exists ss a0 a1, StronglySorted Z.lt ss /\ (forall s, In s ss <-> exists n c, comes h a t sectors n /\ cell_of h (i_cells a) n c /\ In (s, Ksur) (c_values c)) /\
       boundaries_angles sectors = Ok [a0; a1] /\
       Forall2 (fun s kc => exists e c v, found (i_surfs a) (str_of_Z s) e /\ nth_error h (snd e) = Some c /\ kc = (fst e, paint v c) /\
         treated sind cosd cosq norm a0 a1 tol (map (fun kc => (fst kc, trans_of (snd kc))) (w_trans w)) (sector_surface h a t sectors (s_num (view c))) (view c) v) ss (w_surfs w)) /\
    (exists zs, StronglySorted Z.lt zs /\ (forall z, In z zs <-> z <> 0%Z /\ exists n c, comes h a t sectors n /\ cell_of h (i_cells a) n c /\ In (z, Kmat) (c_values c)) /\
       Forall2 (fun z m => ml_get (i_mats a) (mat_key z) = Ok m) zs (ml_list (w_mats w))) /\
    w_header w = i_header a /\ by_value h (i_trans a) = Ok (w_trans w) /\
    exists dc, by_value h (i_other a) = Ok dc /\ sdef_values sectors dc = Ok (w_data w).
  Proof. intros AL. unfold extract_values. destruct (own_cells t sectors) as [own|] eqn:OW; cbn [bind]; [|discriminate].
    destruct (level0_surfaces h a own) as [l0|] eqn:L0; cbn [bind]; [|discriminate].
    pose proof (extraction_val fuel h a (own ++ [800; 801]%Z) (alloc_cells _ _ AL)) as X.
    destruct (ext_values fuel h a (own ++ [800; 801]%Z)) as [[[wc [surfs ms]]|]|] eqn:EV; cbn [bind]; try discriminate. destruct X as (h2 & cells & E1 & W1 & F1 & L1 & LS).
    destruct (by_value h surfs) as [sc|] eqn:SC; cbn [bind]; [|discriminate]. destruct (by_value h (i_other a)) as [dc|] eqn:DC; cbn [bind]; [|discriminate].
    destruct (sdef_values sectors dc) as [wd|] eqn:SD; cbn [bind]; [|discriminate]. destruct (boundaries_angles sectors) as [angles|] eqn:BA; cbn [bind]; [|discriminate].
    destruct (by_value h (i_trans a)) as [wt|] eqn:WT; cbn [bind]; [|discriminate].
    match goal with |- context [set_boundaries ?a ?b ?c ?d ?e ?f ?g ?i ?j] => destruct (set_boundaries a b c d e f g i j) as [vs|] eqn:SB end; cbn [bind]; [|discriminate].
    destruct (dget str_eqb (s2l "801") (i_cells a)) as [lg|] eqn:D1; cbn [of_opt bind]; [|discriminate]. destruct (hget h lg) as [gy|] eqn:G1; cbn [bind]; [|discriminate].
    destruct (dget str_eqb (s2l "800") (i_cells a)) as [lo|] eqn:D2; cbn [of_opt bind]; [|discriminate]. destruct (hget h lo) as [outer|] eqn:G2; cbn [bind]; [|discriminate].
    destruct (modify_graveyard sectors gy outer) as [[out' gy']|] eqn:MG; cbn [bind]; [|discriminate]. intros H. injection H as <-. cbn [w_cells w_surfs w_mats w_header w_trans w_data].
    destruct (own_spec _ _ _ OW) as [KN _]. pose proof (own_wanted _ _ _ OW) as OWN. pose proof (reach_comes h a t sectors _ OWN) as RC.
    destruct (extraction_spec _ _ _ _ _ _ _ _ _ _ _ E1) as (ns & ss & zs & P1 & P2 & P3 & P4 & P5 & P6 & P7 & P8 & P9 & _); [reflexivity|exact (alloc_cells _ _ AL)|].
    split; [exact KN|]. split; [|split; [|split; [|split; [|split; [reflexivity|split; [reflexivity|exists dc; auto]]]]]].
    - exists ns. split; [exact P1|]. split; [intros n; rewrite P2; apply RC|].
      assert (B0 : Forall2 (fun n (kc : str * card) => fst kc = str_of_Z n /\ exists c, cell_of h (i_cells a) n c /\ cell_written t sectors c (snd kc)) ns wc).
      { apply val_in in W1. clear - P3 W1 OWN. revert wc W1. induction P3 as [|n e ns cells [A [c [B C]]] _ IH]; intros wc W1; inversion W1 as [|? kc ? wc' [X Y] W1']; subst; constructor; [|apply IH; exact W1'].
        split; [congruence|]. exists c. split; [exact B|]. rewrite C in Y. injection Y as <-. apply stripped_written. exact OWN. }
      assert (I0 : In (s2l "800") (map str_of_Z ns)) by (apply in_map_iff; exists 800%Z; split; [reflexivity|apply P2; apply reach_start; apply in_or_app; right; left; reflexivity]).
      assert (I1 : In (s2l "801") (map str_of_Z ns)) by (apply in_map_iff; exists 801%Z; split; [reflexivity|apply P2; apply reach_start; apply in_or_app; right; right; left; reflexivity]).
      pose proof (dset_forall2 (fun n (kc : str * card) => exists c, cell_of h (i_cells a) n c /\ cell_written t sectors c (snd kc)) str_of_Z (s2l "800") out' ns wc B0 ltac:(auto) I0) as B1.
      pose proof (dset_forall2 _ str_of_Z (s2l "801") gy' ns _ B1 ltac:(auto) I1) as B2. eapply Forall2_impl; [|exact B2]. intros n kc [A B]. split; [exact A|]. intros N0 N1. apply B.
      + intros Q. apply N1. apply str_of_Z_inj. exact Q.
      + intros Q. apply N0. apply str_of_Z_inj. exact Q.
    - exists outer, gy, out', gy'. apply hget_ok in G1. apply hget_ok in G2. split; [exists lo; auto|]. split; [exists lg; auto|]. split; [exact MG|]. split; [|apply (dget_dset_same str_eqb str_eqb_eq)].
      rewrite (dget_dset_other str_eqb str_eqb_eq) by discriminate. apply (dget_dset_same str_eqb str_eqb_eq).
    - destruct sectors as [|s0 sl]; [discriminate MG|]. destruct (C44_cutting_angles s0 sl KN) as (a0 & a1 & BA' & _). rewrite BA in BA'. injection BA' as ->.
      exists ss, a0, a1. split; [exact P4|]. split. { intros s. rewrite P5. split; intros (n & c & A & B); exists n, c; (split; [now apply RC|exact B]). }
      split; [reflexivity|]. apply (C44_each_surface sind cosd cosq norm) in SB. apply val_in in SC.
      assert (G : length sc = length vs). { clear - SB. revert SB. generalize vs. induction sc as [|x sc IH]; intros v SB; inversion SB; subst; cbn [length]; [reflexivity|]. f_equal. eapply IH. eassumption. }
      clear - P6 SC SB L0 OW. revert sc vs SC SB. induction P6 as [|s e ss surfs FD _ IH]; intros sc vs SC SB; inversion SC as [|? kc ? sc' [X Y] SC']; subst.
      + cbn [map painted combine]. constructor.
      + cbn [map snd] in SB. inversion SB as [|? v ? vs' TR SB']; subst. cbn [map fst snd painted combine]. constructor; [|exact (IH _ _ SC' SB')].
        exists e, (snd kc), v. split; [exact FD|]. split; [exact Y|]. split; [rewrite X; reflexivity|].
        destruct TR as [T1 T2]. split; [exact T1|]. intros k b I B U. destruct (T2 k b I B U) as [V1 V2]. split; [intros Q; apply V1; now apply (level0_spec _ _ _ _ _ _ OW L0)|].
        intros Q. apply V2. intros C. apply Q. now apply (level0_spec _ _ _ _ _ _ OW L0) in C.
    - exists zs. split; [exact P7|]. split; [|exact P9]. intros z. rewrite P8. split; intros (N & n & c & A & B); (split; [exact N|]); exists n, c; (split; [now apply RC|exact B]). Qed.
End Content.
