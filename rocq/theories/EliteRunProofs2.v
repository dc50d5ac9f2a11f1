(** Proofs for C111, continued: the call by value, histories. *)
From Coq Require Import Lia ZArith QArith Sorted.
From Verif Require Import PyBase PyLemmas PyStr PyStrLemmas PyText D1SProofs2 WWTextProofs LibModel MatModel MatProofs MatProofs2 InpModel InpSpec InpProofs InpProofs2 InpProofs3 InpProofs4 InpProofs5 LookModel LookProofs EliteModel EliteRunModel EliteRunProofs.
Open Scope nat_scope.

(** *** the source *)
Definition sdef_values (sectors : list sector) (d : list (str * card)) : res (list (str * card)) :=
  do '(si, spp) <- source_lines sectors;
  do c <- of_opt KeyError (dget str_eqb (s2l "SI70") d);
  let d1 := dset str_eqb (s2l "SI70") (set_input si c) d in
  do c2 <- of_opt KeyError (dget str_eqb (s2l "SP70") d1);
  Ok (dset str_eqb (s2l "SP70") (set_input spp c2) d1).
Lemma input_at_val key line h d w : NoDup (locs d) -> (forall l, In l (locs d) -> l < length h) -> by_value h d = Ok w ->
  match dget str_eqb key w with
  | None => set_input_at key line h d = Err KeyError
  | Some c => exists h', set_input_at key line h d = Ok h' /\ by_value h' d = Ok (dset str_eqb key (set_input line c) w) /\ length h' = length h /\ forall l, ~ In l (locs d) -> nth_error h' l = nth_error h l
  end.
Proof. intros ND AL W. rewrite (val_get _ _ _ W). unfold set_input_at. destruct (dget str_eqb key d) as [l|] eqn:D; [|reflexivity]. cbn [of_opt bind].
  assert (I : In l (locs d)) by (apply (dget_some_in str_eqb str_eqb_eq) in D; now apply (in_map snd) in D).
  destruct (hget_some h l (AL l I)) as (c & N & G). rewrite N, G. cbn [bind]. eexists. split; [reflexivity|]. split; [apply val_hset; auto|]. split; [apply hset_length|]. intros x Q. apply hset_other. intros ->. contradiction. Qed.
Lemma sdef_val sectors h d w : NoDup (locs d) -> (forall l, In l (locs d) -> l < length h) -> by_value h d = Ok w ->
  match sdef_values sectors w with
  | Err e => set_sdef_cards sectors h d = Err e
  | Ok w' => exists h', set_sdef_cards sectors h d = Ok h' /\ by_value h' d = Ok w' /\ length h' = length h /\ forall l, ~ In l (locs d) -> nth_error h' l = nth_error h l
  end.
Proof. intros ND AL W. unfold sdef_values, set_sdef_cards. destruct (source_lines sectors) as [[si spp]|]; cbn [bind]; [|reflexivity].
  pose proof (input_at_val (s2l "SI70") si h d w ND AL W) as V1. destruct (dget str_eqb (s2l "SI70") w) as [c|]; cbn [of_opt bind]; [|rewrite V1; reflexivity].
  destruct V1 as (h1 & E1 & W1 & L1 & F1). rewrite E1. cbn [bind].
  assert (AL1 : forall l, In l (locs d) -> l < length h1) by (intros l Q; rewrite L1; auto).
  pose proof (input_at_val (s2l "SP70") spp h1 d _ ND AL1 W1) as V2. set (w1 := dset str_eqb (s2l "SI70") (set_input si c) w) in *.
  destruct (dget str_eqb (s2l "SP70") w1) as [c2|]; cbn [of_opt bind]; [|exact V2].
  destruct V2 as (h2 & E2 & W2 & L2 & F2). exists h2. split; [exact E2|]. split; [exact W2|]. split; [congruence|]. intros l Q. rewrite F2, F1; auto. Qed.

(** *** writing the surfaces back *)
Lemma hset_all_ok (ks : list str) : forall ls cs h, length ks = length ls -> length cs = length ls -> NoDup ls -> (forall l, In l ls -> l < length h) ->
  by_value (hset_all h ls cs) (combine ks ls) = Ok (combine ks cs) /\ length (hset_all h ls cs) = length h /\ forall l, ~ In l ls -> nth_error (hset_all h ls cs) l = nth_error h l.
Proof. induction ks as [|k ks IH]; intros [|l ls] [|c cs] h E1 E2 ND AL; cbn [length] in *; try discriminate; [repeat split|].
  injection E1 as E1. injection E2 as E2. inversion ND as [|? ? NI ND']; subst. cbn [hset_all combine]. assert (LT : l < length h) by (apply AL; left; reflexivity).
  destruct (IH ls cs (hset h l c) E1 E2 ND') as (A & B & C); [intros x Q; rewrite hset_length; apply AL; now right|]. rewrite hset_length in B. split; [|split; [exact B|]].
  - unfold by_value in *. cbn [mapM fst snd]. unfold hget at 1. rewrite C by exact NI. rewrite hset_same by exact LT. cbn [of_opt bind]. rewrite A. reflexivity.
  - intros x Q. rewrite C by (intros U; apply Q; now right). apply hset_other. intros ->. apply Q. now left. Qed.
Lemma combine_fst_snd (d : cdict) : combine (map fst d) (map snd d) = d.
Proof. induction d as [|[k l] d IH]; [reflexivity|]. cbn [map fst snd combine]. now rewrite IH. Qed.

  Lemma level0_frame h h' a own : (forall l, In l (locs (i_cells a)) -> l < length h) -> frame h h' -> level0_surfaces h' a own = level0_surfaces h a own.
  Proof. intros AL F. unfold level0_surfaces. erewrite mapM_ext; [reflexivity|]. intros [k l] Q. cbn [snd]. rewrite (frame_get h h'); auto. apply AL. now apply (in_map snd) in Q. Qed.
  Lemma alloc_cells h a : input_allocated h a -> forall l, In l (locs (i_cells a)) -> l < length h.
  Proof. intros A l Q. apply A. unfold input_locs. apply in_or_app. tauto. Qed.
  Lemma alloc_surfs h a : input_allocated h a -> forall l, In l (locs (i_surfs a)) -> l < length h.
  Proof. intros A l Q. apply A. unfold input_locs. rewrite !in_app_iff. tauto. Qed.
  Lemma alloc_other h a : input_allocated h a -> forall l, In l (locs (i_other a)) -> l < length h.
  Proof. intros A l Q. apply A. unfold input_locs. rewrite !in_app_iff. tauto. Qed.
  Lemma alloc_trans h a : input_allocated h a -> forall l, In l (locs (i_trans a)) -> l < length h.
  Proof. intros A l Q. apply A. unfold input_locs. rewrite !in_app_iff. tauto. Qed.
  Lemma alloc_get h a k l : input_allocated h a -> dget str_eqb k (i_cells a) = Some l -> l < length h.
  Proof. intros A D. apply (alloc_cells h a A). apply (dget_some_in str_eqb str_eqb_eq) in D. now apply (in_map snd) in D. Qed.


Section Values.
  Variable sind cosd : Z -> Q.
  Variable cosq : Q -> Q.
  Variable norm : vec3 -> Q.
  Variable void_d : Q.
  Variable view : card -> surf.
  Variable paint : surf -> card -> card.
  Variable trans_of : card -> trans.
  Notation extract' := (extract sind cosd cosq norm view paint trans_of).
  Notation bound_values angles tol l0 trs sc := (set_boundaries sind cosd cosq norm angles tol l0 trs (map view (map snd sc))).
  Definition painted (vs : list surf) (cs : list card) : list card := map (fun vc => paint (fst vc) (snd vc)) (combine vs cs).

  Lemma set_boundaries_length angles tol l0 trs ss ss' : set_boundaries sind cosd cosq norm angles tol l0 trs ss = Ok ss' -> length ss' = length ss.
  Proof. unfold set_boundaries. generalize (enumerate 0 (boundary_angles angles)). intros bs. revert ss. induction bs as [|b bs IH]; intros ss H; cbn [foldM] in H; [injection H as <-; reflexivity|].
    destruct (mapM (visit sind cosd cosq norm tol l0 trs b) ss) as [s1|] eqn:E; cbn [bind] in H; [|discriminate]. rewrite (IH _ H). apply mapM_Forall2 in E. clear - E. induction E; cbn [length]; congruence. Qed.

  Lemma trans_val h ts wt : by_value h ts = Ok wt -> mapM (fun kl : str * loc => do c <- hget h (snd kl); Ok (fst kl, trans_of c)) ts = Ok (map (fun kc => (fst kc, trans_of (snd kc))) wt).
  Proof. unfold by_value. revert wt. induction ts as [|[k l] ts IH]; intros wt H; cbn [mapM fst snd] in *; [injection H as <-; reflexivity|].
    destruct (hget h l) as [c|]; cbn [bind] in *; [|discriminate]. destruct (mapM _ ts) as [w'|]; cbn [bind] in H; [|discriminate]. injection H as <-. rewrite (IH _ eq_refl). reflexivity. Qed.

  Lemma boundaries_val angles tol l0 h ss ts sc wt : NoDup (locs ss) -> (forall l, In l (locs ss) -> l < length h) -> by_value h ss = Ok sc -> by_value h ts = Ok wt ->
    match bound_values angles tol l0 (map (fun kc => (fst kc, trans_of (snd kc))) wt) sc with
    | Err e => set_boundaries_cards sind cosd cosq norm view paint trans_of angles tol l0 h ss ts = Err e
    | Ok vs => exists h', set_boundaries_cards sind cosd cosq norm view paint trans_of angles tol l0 h ss ts = Ok h' /\
        by_value h' ss = Ok (combine (map fst sc) (painted vs (map snd sc))) /\ length h' = length h /\ forall l, ~ In l (locs ss) -> nth_error h' l = nth_error h l
    end.
  Proof. intros ND AL W T. unfold set_boundaries_cards. rewrite (val_hgets _ _ _ W), (trans_val _ _ _ T). cbn [bind].
    match goal with |- context [set_boundaries ?a ?b ?c ?d ?e ?f ?g ?i ?j] => destruct (set_boundaries a b c d e f g i j) as [vs|] eqn:E end; cbn [bind]; [|reflexivity].
    eexists. split; [reflexivity|]. apply set_boundaries_length in E. rewrite !map_length in E. pose proof (val_in _ _ _ W) as F.
    assert (K : map fst sc = map fst ss) by (clear - F; induction F as [|x y l l' [A _] _ IH]; cbn [map]; congruence).
    assert (LN : length sc = length ss) by (clear - F; induction F; cbn [length]; congruence).
    destruct (hset_all_ok (map fst sc) (map snd ss) (painted vs (map snd sc)) h) as (A & B & C).
    - now rewrite !map_length.
    - unfold painted. rewrite map_length, combine_length, !map_length. lia.
    - exact ND.
    - exact AL.
    - rewrite K in A at 1. rewrite combine_fst_snd in A. auto. Qed.

  (** the call by value *)
  Definition extract_values (fuel : nat) (h : heap) (a : input) (t : rows) (sectors : list sector) (tol : Q) : res (option written) :=
    do own <- own_cells t sectors;
    do l0 <- level0_surfaces h a own;
    do o <- ext_values fuel h a (own ++ [800; 801]%Z);
    match o with
    | None => Ok None
    | Some (wc, (surfs, ms)) =>
        do sc <- by_value h surfs;
        do dc <- by_value h (i_other a);
        do wd <- sdef_values sectors dc;
        do angles <- boundaries_angles sectors;
        do wt <- by_value h (i_trans a);
        do vs <- bound_values angles tol l0 (map (fun kc => (fst kc, trans_of (snd kc))) wt) sc;
        do lg <- of_opt KeyError (dget str_eqb (s2l "801") (i_cells a)); do gy <- hget h lg;
        do lo <- of_opt KeyError (dget str_eqb (s2l "800") (i_cells a)); do outer <- hget h lo;
        do '(outer', gy') <- modify_graveyard sectors gy outer;
        Ok (Some (mkW (dset str_eqb (s2l "801") gy' (dset str_eqb (s2l "800") outer' wc)) (combine (map fst sc) (painted vs (map snd sc))) ms (i_header a) wt wd))
    end.

  Lemma values_frame fuel h h' a t sectors tol : input_allocated h a -> frame h h' -> extract_values fuel h' a t sectors tol = extract_values fuel h a t sectors tol.
  Proof. intros AL F. unfold extract_values. destruct (own_cells t sectors) as [own|]; cbn [bind]; [|reflexivity].
    rewrite (level0_frame h h' a own (alloc_cells _ _ AL) F), (ext_frame fuel h h' a _ (alloc_cells _ _ AL) F). destruct (level0_surfaces h a own) as [l0|]; cbn [bind]; [|reflexivity].
    pose proof (extraction_val fuel h a (own ++ [800; 801]%Z) (alloc_cells _ _ AL)) as X.
    destruct (ext_values fuel h a (own ++ [800; 801]%Z)) as [[[wc [surfs ms]]|]|]; cbn [bind]; try reflexivity. destruct X as (_ & _ & _ & _ & _ & _ & LS).
    rewrite (val_frame h h' surfs F) by (intros l Q; apply (alloc_surfs _ _ AL), LS, Q). rewrite (val_frame h h' (i_other a) F (alloc_other _ _ AL)), (val_frame h h' (i_trans a) F (alloc_trans _ _ AL)).
    destruct (by_value h surfs); cbn [bind]; [|reflexivity]. destruct (by_value h (i_other a)); cbn [bind]; [|reflexivity]. destruct (sdef_values _ _); cbn [bind]; [|reflexivity].
    destruct (boundaries_angles sectors); cbn [bind]; [|reflexivity]. destruct (by_value h (i_trans a)); cbn [bind]; [|reflexivity].
    match goal with |- context [set_boundaries ?a ?b ?c ?d ?e ?f ?g ?i ?j] => destruct (set_boundaries a b c d e f g i j) as [vs|] end; cbn [bind]; [|reflexivity].
    destruct (dget str_eqb (s2l "801") (i_cells a)) as [lg|] eqn:D1; cbn [of_opt bind]; [|reflexivity]. rewrite (frame_get h h' lg F) by exact (alloc_get _ _ _ _ AL D1). destruct (hget h lg); cbn [bind]; [|reflexivity].
    destruct (dget str_eqb (s2l "800") (i_cells a)) as [lo|] eqn:D2; cbn [of_opt bind]; [|reflexivity]. rewrite (frame_get h h' lo F) by exact (alloc_get _ _ _ _ AL D2). reflexivity. Qed.

  Lemma extract_val fuel h a t sectors tol : input_allocated h a ->
    match extract_values fuel h a t sectors tol with
    | Err e => extract' fuel h a t sectors tol = Err e
    | Ok None => extract' fuel h a t sectors tol = Ok None
    | Ok (Some w) => exists h', extract' fuel h a t sectors tol = Ok (Some (h', w)) /\ frame h h'
    end.
  Proof. intros AL. unfold extract_values, extract. destruct (own_cells t sectors) as [own|]; cbn [bind]; [|reflexivity].
    destruct (level0_surfaces h a own) as [l0|]; cbn [bind]; [|reflexivity].
    pose proof (extraction_val fuel h a (own ++ [800; 801]%Z) (alloc_cells _ _ AL)) as X.
    destruct (ext_values fuel h a (own ++ [800; 801]%Z)) as [[[wc [surfs ms]]|]|]; cbn [bind]; [|rewrite X; reflexivity|rewrite X; reflexivity].
    destruct X as (h1 & cells & E1 & W1 & F1 & L1 & LS). rewrite E1. cbn [bind].
    assert (AS : forall l, In l (locs surfs) -> l < length h) by (intros l Q; apply (alloc_surfs _ _ AL), LS, Q).
    assert (AS1 : forall l, In l (locs surfs) -> l < length h1) by (intros l Q; destruct F1; specialize (AS l Q); lia).
    destruct (copy_val h1 surfs AS1) as (h2 & msurfs & sc & E2 & V2 & W2 & F2 & _ & N2 & L2). rewrite E2. cbn [bind].
    rewrite (val_frame h h1 surfs F1 AS) in V2. rewrite V2. cbn [bind].
    assert (F02 : frame h h2) by (eapply frame_trans; eauto).
    assert (AO2 : forall l, In l (locs (i_other a)) -> l < length h2) by (intros l Q; destruct F02; pose proof (alloc_other _ _ AL l Q); lia).
    destruct (copy_val h2 (i_other a) AO2) as (h3 & mdata & dc & E3 & V3 & W3 & F3 & _ & N3 & L3). rewrite E3. cbn [bind].
    rewrite (val_frame h h2 _ F02 (alloc_other _ _ AL)) in V3. rewrite V3. cbn [bind].
    pose proof (sdef_val sectors h3 mdata dc N3 ltac:(intros l Q; apply L3 in Q; lia) W3) as V4. destruct (sdef_values sectors dc) as [wd|e]; cbn [bind]; [|rewrite V4; reflexivity].
    destruct V4 as (h4 & E4 & W4 & LL4 & F4). rewrite E4. cbn [bind]. destruct (boundaries_angles sectors) as [angles|]; cbn [bind]; [|reflexivity].
    assert (G34 : forall l, l < length h2 -> nth_error h4 l = nth_error h2 l) by (intros l Q; rewrite F4 by (intros U; apply L3 in U; lia); apply F3; exact Q).
    assert (F24 : frame h2 h4) by (split; [destruct F3; lia|exact G34]).
    assert (F04 : frame h h4) by (eapply frame_trans; eauto).
    destruct (val_ok h (i_trans a) (alloc_trans _ _ AL)) as (wt & WT & _). rewrite WT. cbn [bind].
    assert (WT4 : by_value h4 (i_trans a) = Ok wt) by (rewrite (val_frame h h4 _ F04 (alloc_trans _ _ AL)); exact WT).
    assert (LM : forall l, In l (locs msurfs) -> l < length h2) by (intros l Q; apply L2 in Q; lia).
    assert (W24 : by_value h4 msurfs = Ok sc) by (rewrite (val_frame h2 h4 msurfs F24 LM); exact W2).
    pose proof (boundaries_val angles tol l0 h4 msurfs (i_trans a) sc wt N2 ltac:(intros l Q; apply L2 in Q; destruct F24; lia) W24 WT4) as V5.
    match type of V5 with context [set_boundaries ?a ?b ?c ?d ?e ?f ?g ?i ?j] => destruct (set_boundaries a b c d e f g i j) as [vs|] end; cbn [bind]; [|rewrite V5; reflexivity].
    destruct V5 as (h5 & E5 & W5 & LL5 & F5). rewrite E5. cbn [bind].
    assert (F05 : frame h h5).
    { split; [destruct F04; lia|]. intros l Q. rewrite F5 by (intros U; apply L2 in U; destruct F1; lia). now apply F04. }
    destruct (dget str_eqb (s2l "801") (i_cells a)) as [lg|] eqn:D1; cbn [of_opt bind]; [|reflexivity]. rewrite (frame_get h h5 lg F05) by exact (alloc_get _ _ _ _ AL D1). destruct (hget h lg) as [gy|]; cbn [bind]; [|reflexivity].
    destruct (dget str_eqb (s2l "800") (i_cells a)) as [lo|] eqn:D2; cbn [of_opt bind]; [|reflexivity]. rewrite (frame_get h h5 lo F05) by exact (alloc_get _ _ _ _ AL D2). destruct (hget h lo) as [outer|]; cbn [bind]; [|reflexivity].
    destruct (modify_graveyard sectors gy outer) as [[out' gy']|]; cbn [bind]; [|reflexivity].
    set (h6 := h5 ++ [out'; gy']). assert (F56 : frame h5 h6) by apply frame_app.
    assert (L15 : length h1 <= length h5) by (destruct F2, F24; lia).
    assert (WC : by_value h5 cells = Ok wc).
    { rewrite <- W1. unfold by_value. apply mapM_ext. intros [k l] Q. cbn [snd fst]. apply (in_map snd) in Q. apply L1 in Q as Q'. cbn [snd] in *.
      assert (Y : hget h5 l = hget h1 l). { unfold hget. rewrite F5 by (intros U; apply L2 in U; lia). rewrite G34 by (destruct F2; lia). rewrite (proj2 F2) by lia. reflexivity. } now rewrite Y. }
    assert (WC6 : by_value h6 cells = Ok wc) by (rewrite (val_frame h5 h6 cells F56); [exact WC|intros l Q; apply L1 in Q; lia]).
    assert (O6 : nth_error h6 (length h5) = Some out') by (unfold h6; rewrite nth_error_app2 by lia; rewrite Nat.sub_diag; reflexivity).
    assert (Y6 : nth_error h6 (S (length h5)) = Some gy') by (unfold h6; rewrite nth_error_app2 by lia; replace (S (length h5) - length h5) with 1 by lia; reflexivity).
    rewrite (val_dset h6 _ _ _ _ _ (val_dset h6 _ _ (s2l "800") _ _ WC6 O6) Y6). cbn [bind].
    rewrite (val_frame h5 h6 msurfs F56) by (intros l Q; apply L2 in Q; destruct F24; lia). rewrite W5. cbn [bind].
    assert (F06 : frame h h6) by (eapply frame_trans; eauto). rewrite (val_frame h h6 _ F06 (alloc_trans _ _ AL)), WT. cbn [bind].
    assert (WD : by_value h5 mdata = Ok wd).
    { rewrite <- W4. unfold by_value. apply mapM_ext. intros [k l] Q. cbn [snd fst]. apply (in_map snd) in Q. apply L3 in Q. cbn [snd] in *.
      assert (Y : hget h5 l = hget h4 l). { unfold hget. rewrite F5 by (intros U; apply L2 in U; lia). reflexivity. } now rewrite Y. }
    rewrite (val_frame h5 h6 mdata F56) by (intros l Q; apply L3 in Q; lia). rewrite WD. cbn [bind]. exists h6. split; [reflexivity|exact F06]. Qed.

  (** *** histories *)
  Lemma level0_cells_frame h h' a : (forall l, In l (locs (i_cells a)) -> l < length h) -> frame h h' -> level0_cells void_d h' a = level0_cells void_d h a.
  Proof. intros AL F. unfold level0_cells, get_cells_summary. rewrite (mapM_ext (cell_row void_d h') (cell_row void_d h)); [reflexivity|]. intros [k l] Q. unfold cell_row. cbn [snd fst]. rewrite (frame_get h h'); auto. apply AL. now apply (in_map snd) in Q. Qed.
  Lemma initialize_frame h h' a x b : input_allocated h a -> frame h h' -> initialize void_d h' a x b = initialize void_d h a x b.
  Proof. intros AL F. unfold initialize. rewrite (level0_cells_frame h h' a (alloc_cells _ _ AL) F). reflexivity. Qed.

  Notation run' := (run sind cosd cosq norm void_d view paint trans_of).
  Notation extract_sector' := (extract_sector sind cosd cosq norm void_d view paint trans_of).
  (** what a call writes, given the table kept *)
  Definition outcome (h : heap) (a : input) (o : option rows) (c : call) : res (option written) :=
    do t <- (match o with Some t => Ok t | None => initialize void_d h a (c_excel c) (c_check c) end); extract_values (c_fuel c) h a t (c_sectors c) (c_tol c).
  Definition kept (h : heap) (a : input) (o : option rows) (c : call) : option rows :=
    match o with Some t => Some t | None => match initialize void_d h a (c_excel c) (c_check c) with Ok t => Some t | Err _ => None end end.
  Lemma one_call h a st c : input_allocated h a -> frame h (e_heap st) ->
    let (st', r) := extract_sector' a st c in frame h (e_heap st') /\ r = outcome h a (e_table st) c /\ e_table st' = kept h a (e_table st) c.
  Proof. intros AL F. assert (AL' : input_allocated (e_heap st) a) by (intros l Q; destruct F; specialize (AL l Q); lia). unfold extract_sector, outcome, kept.
    rewrite (initialize_frame h (e_heap st) a _ _ AL F).
    destruct (match e_table st with Some t => Ok t | None => initialize void_d h a (c_excel c) (c_check c) end) as [t|e] eqn:I; cbn [bind].
    - assert (K : match e_table st with Some t0 => Some t0 | None => match initialize void_d h a (c_excel c) (c_check c) with Ok t0 => Some t0 | Err _ => None end end = Some t) by (destruct (e_table st); [congruence|rewrite I; reflexivity]).
      pose proof (extract_val (c_fuel c) (e_heap st) a t (c_sectors c) (c_tol c) AL') as V. rewrite (values_frame _ h (e_heap st)) in V by assumption.
      destruct (extract_values (c_fuel c) h a t (c_sectors c) (c_tol c)) as [[w|]|e]; [destruct V as (h' & -> & FH)|rewrite V|rewrite V]; cbn [e_heap e_table]; (split; [|split; [reflexivity|symmetry; exact K]]); auto. eapply frame_trans; eauto.
    - split; [exact F|]. split; [reflexivity|]. destruct (e_table st); [discriminate|]. rewrite I. reflexivity. Qed.
  Lemma run_calls h a cs : input_allocated h a -> forall st, frame h (e_heap st) ->
    frame h (e_heap (run' a st cs)) /\ e_table (run' a st cs) = fold_left (kept h a) cs (e_table st).
  Proof. intros AL. induction cs as [|c cs IH]; intros st F; [split; [exact F|reflexivity]|]. unfold run in *. cbn [fold_left].
    pose proof (one_call h a st c AL F) as O. destruct (extract_sector' a st c) as [st' r]. cbn [fst]. destruct O as (F' & _ & T). destruct (IH st' F') as (A & B). split; [exact A|]. rewrite B, T. reflexivity. Qed.
End Values.
