From Coq Require Import Lia ZArith QArith.
From Verif Require Import PyBase PyLemmas MatProofs2 PyStr PyStrLemmas PyText LibModel MatModel InpModel InpSpec InpExamples D1SProofs2 MatProofs InpProofs InpProofs2 InpProofs6 LookModel LifeSpec LifeProofs LifeExt.
Open Scope nat_scope.
Lemma step_good h a h' a' : good h a -> step h a h' a' -> good h' a'.
Proof. intros G ST. destruct ST as [o h' a' R ZC ZS|b h' a' M GB DL DN|c|key l c n z h' cs S NI A NM P -> Z0|new dens old us h' R|f h' R|fuel req ku fl h' b X PS|fuel req o ku fl h' b X PS ZC ZS|fuel req ku fl h' b X PS].
  - eapply renumber_good; [exact G|exact R| |]; intros m HM; apply moves_none.
    + eapply good_number; [exact (proj1 G)|exact HM]. + exact (ZC m HM).
    + eapply good_number; [exact (proj1 (proj2 G))|exact HM]. + exact (ZS m HM).
  - now apply (merge_good h a b h' a').
  - now apply new_good.
  - eapply add_cell_good; eassumption.
  - eapply replace_good; eassumption.
  - eapply scale_good; eassumption.
  - exact (proj1 (extract_good _ _ _ _ _ _ _ _ G PS X)).
  - exact (extract_renumber_good _ _ _ _ _ _ _ _ _ G PS ZC ZS X).
  - exact (proj2 (extract_good _ _ _ _ _ _ _ _ G PS X)). Qed.
Lemma history_good h a h' a' : history h a h' a' -> good h a -> good h' a'.
Proof. induction 1 as [|h a h1 a1 h2 a2 _ IH ST]; intros G; [exact G|]. eapply step_good; [exact (IH G)|exact ST]. Qed.

Lemma number_leads h a h' a' key l : history h a h' a' -> good h a -> In (key, l) (i_cells a') ->
  dget str_eqb key (i_cells a') = Some l /\
  exists c n, nth_error h' l = Some c /\ key = str_of_Z n /\ c_name c = Some n /\ card_key c = Ok key /\ exists vs, c_values c = (n, Kcel) :: vs.
Proof. intros H G Q. pose proof (history_good _ _ _ _ H G) as [[K [GC _]] _]. split; [now apply (in_dget str_eqb str_eqb_eq)|].
  destruct (GC _ _ Q) as [c [n [pre [A [[<-|[]] [P [N [_ E]]]]]]]]. exists c, n. split; [exact A|]. split; [exact E|]. split; [exact N|]. split; [|exact (proj1 P)].
  rewrite (key_prints _ _ _ _ P), E. reflexivity. Qed.
Lemma merge_runs h a b : good h a -> good h b ->
  disjoint_keys (i_cells a) (i_cells b) -> disjoint_keys (i_surfs a) (i_surfs b) -> disjoint_keys (i_trans a) (i_trans b) ->
  exists a', merge h a b = ((h, a'), None) /\ i_cells a' = i_cells a ++ i_cells b /\ i_surfs a' = i_surfs a ++ i_surfs b.
Proof. intros GA [CB [SB [OB [TB _]]]] D1 D2 D3. eexists. rewrite merge_disjoint; try assumption; [repeat split; reflexivity| | |exact (proj1 CB)|exact (proj1 SB)].
  - apply (good_settled [[]] Kcel); [exact CB|intros p [<-|[]]; left; reflexivity].
  - apply (good_settled surf_marks Ksur); [exact SB|auto]. Qed.

(** *** examples *)
Ltac prints := refine (conj _ (conj _ (conj _ _))); [eexists; reflexivity|exists 1; eexists; eexists; split; reflexivity|eexists; vm_compute; reflexivity|repeat constructor].
Lemma block_single marks k h key l c n pre : nth_error h l = Some c -> In pre marks -> prints_number pre k n c -> c_name c = Some n -> n <> 0%Z -> key = pre ++ str_of_Z n -> good_block marks k h [(key, l)].
Proof. intros A B P N Z E. split; [repeat constructor; cbn; tauto|]. split.
  - intros k0 l0 [Q|[]]. injection Q as <- <-. exists c, n, pre. tauto.
  - intros k1 l1 k2 l2 c1 c2 [Q1|[]] [Q2|[]]. injection Q1 as _ <-. injection Q2 as _ <-. reflexivity. Qed.
Lemma block_nil marks k h : good_block marks k h [].
Proof. split; [constructor|]. split; [intros ? ? []|intros ? ? ? ? ? ? []]. Qed.
Lemma good_cons marks k h key l c n pre d : good_block marks k h d -> nth_error h l = Some c -> In pre marks -> prints_number pre k n c -> c_name c = Some n -> n <> 0%Z -> key = pre ++ str_of_Z n ->
  ~ In key (dkeys d) -> (forall key' l' c', In (key', l') d -> nth_error h l' = Some c' -> c_name c' <> Some n) -> good_block marks k h ((key, l) :: d).
Proof. intros GD A B P N Z E NI ND. change ((key, l) :: d) with ([(key, l)] ++ d). apply good_app; [eapply block_single; eassumption|exact GD| |].
  - intros x [<-|[]]. exact NI.
  - intros m [k1 [l1 [c1 [[Q1|[]] [A1 N1]]]]] [k2 [l2 [c2 [Q2 [A2 N2]]]]]. injection Q1 as <- <-. rewrite A in A1. injection A1 as <-. apply (ND _ _ _ Q2 A2). congruence. Qed.
Ltac others := let key' := fresh in let l' := fresh in let c' := fresh in let Q := fresh in let A := fresh in intros key' l' c' Q A; cbn [In] in Q;
  repeat (destruct Q as [Q|Q]; [injection Q as <- <-; vm_compute in A; injection A as <-; discriminate|]); destruct Q.
Ltac notin := vm_compute; let H := fresh in intros H; repeat (destruct H as [H|H]; [discriminate|]); exact H.
Lemma x_good : good x_heap x_inp.
Proof. split; [|split; [|split; [|split; [|split]]]].
  - apply (good_cons _ _ _ _ _ x_c1 1%Z []); [|reflexivity|left; reflexivity|prints|reflexivity|discriminate|reflexivity|notin|others].
    apply (good_cons _ _ _ _ _ x_c2 2%Z []); [|reflexivity|left; reflexivity|prints|reflexivity|discriminate|reflexivity|notin|others].
    apply (good_cons _ _ _ _ _ x_c3 3%Z []); [|reflexivity|left; reflexivity|prints|reflexivity|discriminate|reflexivity|notin|others].
    apply (good_cons _ _ _ _ _ x_c4 4%Z []); [|reflexivity|left; reflexivity|prints|reflexivity|discriminate|reflexivity|notin|others].
    apply block_nil.
  - apply (good_cons _ _ _ _ _ x_s10 10%Z []); [|reflexivity|left; reflexivity|prints|reflexivity|discriminate|reflexivity|notin|others].
    apply (good_cons _ _ _ _ _ x_s11 11%Z (s2l "*")); [|reflexivity|right; left; reflexivity|prints|reflexivity|discriminate|reflexivity|notin|others].
    apply (good_cons _ _ _ _ _ x_s12 12%Z []); [|reflexivity|left; reflexivity|prints|reflexivity|discriminate|reflexivity|notin|others].
    apply block_nil.
  - repeat constructor; cbn; tauto. - constructor.
  - repeat constructor; cbn; intuition congruence.
  - intros l H. cbn in H. cbn. intuition lia. Qed.
Definition v_heap : heap := [x_s11; surfcard 11 "@ so 2"].
Definition v_inp1 : input := mkInp [] [(s2l "*11", 0)] (ml_new mt_name []) [] [] [] [] [].
Definition v_inp2 : input := mkInp [] [(s2l "11", 1)] (ml_new mt_name []) [] [] [] [] [].
Lemma v_good1 : good v_heap v_inp1.
Proof. split; [apply block_nil|split; [|split; [|split; [|split]]]].
  - apply (block_single _ _ _ _ _ x_s11 11%Z (s2l "*")); [reflexivity|right; left; reflexivity|prints|reflexivity|discriminate|reflexivity].
  - constructor. - constructor. - repeat constructor; cbn; intuition congruence. - intros l H. cbn in H. cbn. intuition lia. Qed.
Lemma v_good2 : good v_heap v_inp2.
Proof. split; [apply block_nil|split; [|split; [|split; [|split]]]].
  - apply (block_single _ _ _ _ _ (surfcard 11 "@ so 2") 11%Z []); [reflexivity|left; reflexivity|prints|reflexivity|discriminate|reflexivity].
  - constructor. - constructor. - repeat constructor; cbn; intuition congruence. - intros l H. cbn in H. cbn. intuition lia. Qed.
Lemma x_not_zero d h dd : (0 < d)%Z -> (forall key l c, In (key, l) dd -> nth_error h l = Some c -> exists n, c_name c = Some n /\ (0 < n)%Z) -> forall n, has_number h dd n -> ~ moves_to_zero (Some d) n.
Proof. intros D P n [key [l [c [Q [A N]]]]] [e [E Z]]. injection E as <-. destruct (P _ _ _ Q A) as [m [M L]]. rewrite N in M. injection M as <-. lia. Qed.
Ltac positive := let key' := fresh in let l' := fresh in let c' := fresh in let Q := fresh in let A := fresh in intros key' l' c' Q A; cbn [In] in Q;
  repeat (destruct Q as [Q|Q]; [injection Q as <- <-; vm_compute in A; injection A as <-; eexists; split; [reflexivity|reflexivity]|]); destruct Q.
Definition new_cell := cellcard 9 [(0, Kmat); (110, Ksur)]%Z "@ @ @".
Lemma life_witness : exists h' a', history x_heap x_inp h' a' /\ good x_heap x_inp /\ map fst (i_cells a') = [s2l "101"; s2l "102"; s2l "103"; s2l "104"; s2l "7"] /\ map fst (i_surfs a') = [s2l "110"; s2l "*111"; s2l "112"].
Proof. destruct (renumber (renum_all 100) true x_heap x_inp) as [[h1 a1]|e] eqn:R1; [|vm_compute in R1; discriminate R1].
  assert (L1 : length h1 = 8) by (vm_compute in R1; injection R1 as <- <-; reflexivity).
  assert (N1 : ~ In 8 (input_locs a1)). { vm_compute in R1. injection R1 as <- <-. vm_compute. intros H. repeat (destruct H as [H|H]; [discriminate|]). exact H. }
  destruct (setitem Kcel (h1 ++ [new_cell]) (i_cells a1) (str_of_Z 7) 8) as [[h2 cs]|e] eqn:R2.
  2:{ vm_compute in R1. injection R1 as <- <-. vm_compute in R2. discriminate R2. }
  destruct (replace_material 5 (s2l "-7.8") 0 None h2 (mkInp cs (i_surfs a1) (i_mats a1) (i_trans a1) (i_other a1) (i_tallies a1) (i_fmesh a1) (i_header a1))) as [h3|e] eqn:R3.
  2:{ vm_compute in R1. injection R1 as <- <-. vm_compute in R2. injection R2 as <- <-. vm_compute in R3. discriminate R3. }
  eexists. eexists. split.
  - eapply h_more; [eapply h_more; [eapply h_more; [eapply h_more; [apply h_none|]|]|]|].
    + apply (s_renumber _ _ _ _ _ R1); apply (x_not_zero 100); try reflexivity; positive.
    + apply (s_new_card _ _ new_cell).
    + refine (s_add_cell _ _ (str_of_Z 7) 8 new_cell 9%Z 7%Z _ _ R2 N1 _ _ _ _ _); [rewrite nth_error_app2 by lia; rewrite L1; reflexivity|reflexivity|prints|reflexivity|discriminate].
    + apply (s_replace_material _ _ _ _ _ _ _ R3).
  - split; [exact x_good|]. cbn [i_cells i_surfs]. vm_compute in R1. injection R1 as <- <-. vm_compute in R2. injection R2 as <- <-. split; reflexivity. Qed.
Lemma run_witness : exists h' a', renumber_run [renum_all 100; mkOff (Some 5%Z) None None None] x_heap x_inp = Ok (h', a') /\ good x_heap x_inp /\
  (forall l c v, In l (locs (i_cells x_inp) ++ locs (i_surfs x_inp)) -> nth_error x_heap l = Some c -> In v (c_values c) -> never_zero [renum_all 100; mkOff (Some 5%Z) None None None] v) /\
  map fst (i_cells a') = [s2l "106"; s2l "107"; s2l "108"; s2l "109"].
Proof. destruct (renumber_run [renum_all 100; mkOff (Some 5%Z) None None None] x_heap x_inp) as [[h' a']|e] eqn:R; [|vm_compute in R; discriminate R].
  exists h', a'. split; [reflexivity|]. split; [exact x_good|]. split; [|vm_compute in R; injection R as <- <-; reflexivity].
  assert (P : forall v, (0 <= fst v)%Z -> never_zero [renum_all 100; mkOff (Some 5%Z) None None None] v).
  { intros [n k] L. cbn [fst] in L. destruct (Z.eq_dec n 0) as [->|N]; [left; reflexivity|]. right. cbn [fst snd]. intros p q E.
    assert (T : (0 <= total k p)%Z).
    { destruct p as [|a [|b [|x p]]]; cbn [app] in E; [unfold total; cbn; lia| | |discriminate E].
      - injection E as <- _. destruct k; cbn; lia. - injection E as <- <- _. destruct k; cbn; lia. }
    lia. }
  intros l c v Q A Hv. apply P. cbn in Q. repeat (destruct Q as [<-|Q]; [vm_compute in A; injection A as <-; cbn in Hv; repeat (destruct Hv as [<-|Hv]; [cbn; lia|]); destruct Hv|]). destruct Q. Qed.
Lemma extract_witness : exists h' b, extract_cells 5 x_heap x_inp [2%Z; 3%Z] (Some (renum_all 100, true)) false true = Ok (Some (h', b)) /\ good x_heap x_inp /\ print_stripped x_heap x_inp [2%Z; 3%Z] /\
  (forall n, has_number x_heap (i_cells x_inp) n -> ~ moves_to_zero (o_cel (renum_all 100)) n) /\ (forall n, has_number x_heap (i_surfs x_inp) n -> ~ moves_to_zero (o_sur (renum_all 100)) n) /\
  map fst (i_cells b) = [s2l "101"; s2l "102"; s2l "103"] /\ map fst (i_surfs b) = [s2l "110"; s2l "*111"] /\ good h' b.
Proof. destruct (extract_cells 5 x_heap x_inp [2%Z; 3%Z] (Some (renum_all 100, true)) false true) as [o|e] eqn:R; [|vm_compute in R; discriminate R].
  destruct o as [[h' b]|]; [|vm_compute in R; discriminate R]. exists h', b. split; [reflexivity|]. split; [exact x_good|].
  assert (PS : print_stripped x_heap x_inp [2%Z; 3%Z]).
  { intros n c [<-|[<-|[]]] [l [A B]]; vm_compute in A; injection A as <-; vm_compute in B; injection B as <-; eexists; vm_compute; reflexivity. }
  assert (ZC : forall n, has_number x_heap (i_cells x_inp) n -> ~ moves_to_zero (o_cel (renum_all 100)) n) by (apply (x_not_zero 100); [reflexivity|positive]).
  assert (ZS : forall n, has_number x_heap (i_surfs x_inp) n -> ~ moves_to_zero (o_sur (renum_all 100)) n) by (apply (x_not_zero 100); [reflexivity|positive]).
  split; [exact PS|]. split; [exact ZC|]. split; [exact ZS|].
  pose proof (extract_renumber_good _ _ _ _ _ _ _ _ _ x_good (fun _ => PS) ZC ZS R) as G. split; [vm_compute in R; injection R as <- <-; reflexivity|]. split; [vm_compute in R; injection R as <- <-; reflexivity|exact G]. Qed.
