(** C33: the regions of edited cells.  C34: materials of cells. *)
From Coq Require Import Lia ZArith QArith.
From Verif Require Import PyBase PyLemmas PyStr PyStrLemmas PyText D1SProofs2 LibModel MatModel MatProofs InpModel InpSpec InpGeomSpec InpUnionModel InpExamples InpProofs InpProofs2 InpProofs3 InpProofs6 InpGeomProofs InpGeomProofs2 InpGeomProofs3 InpMatProofs.
Open Scope nat_scope.

(** ** C33 *)
(** the text of a cell has at most one reading *)
Theorem C33_region_is_unique : forall ls g1 g2, region_of ls g1 -> region_of ls g2 -> g1 = g2.
Proof. intros ls g1 g2. apply union_unique. Qed.
Print Assumptions C33_region_is_unique.
(** add_surface: a point is in the new cell iff it is in the old one and (intersect) or or (union) on
    the side of the surface given by the sign; number, material, density and keywords stay *)
Theorem C33_add_surface : forall c n m geo key ls g s num mo, ordinary c n m geo key -> card_text c = Ok ls -> region_of ls g ->
  exists c' ls' g', add_surface s num mo c = Ok c' /\ card_text c' = Ok ls' /\ region_of ls' g' /\
    (forall side cell, inside side cell g' =
       let sense := if (s <? 0)%Z then negb (side (str_of_Z (Z.abs s))) else side (str_of_Z (Z.abs s)) in
       match mo with Intersect => inside side cell g && sense | Union => inside side cell g || sense end) /\
    (exists gw kw added, words ls = hd_text n m (c_hidden c) ++ gw ++ kw /\
       words ls' = hd_text (match num with Some z => z | None => n end) m (c_hidden c) ++ (s2l "(" :: gw ++ s2l ")" :: added) ++ kw) /\
    c_name c' = match num with Some z => Some z | None => c_name c end.
Proof. intros c n m geo key ls g s num mo O T R. destruct (abs_digits s) as [D ND]. set (id := str_of_Z (Z.abs s)) in *.
  set (pre := mode_symbol mo ++ (if (0 <=? s)%Z then [] else s2l "-")).
  assert (PW : Forall (fun c => is_ws c = false) pre /\ Forall (fun c => Ascii.eqb c tilde = false) pre /\ has_letter pre = false) by (unfold pre; destruct mo, (0 <=? s)%Z; repeat split; repeat constructor).
  destruct PW as [P1 [P2 P3]].
  assert (A1 : has_alpha (text pre ++ [Hole (length id)]) = false) by (unfold pre; destruct mo, (0 <=? s)%Z; reflexivity).
  assert (A2 : no_tilde (text pre ++ [Hole (length id)])). { unfold no_tilde. intros Q. apply in_app_or in Q as [Q|[Q|[]]]; [|discriminate]. unfold text in Q. apply in_map_iff in Q as [x [E Q]]. injection E as ->. rewrite Forall_forall in P2. specialize (P2 _ Q). discriminate P2. }
  assert (A3 : holes (text pre ++ [Hole (length id)]) = 1) by (unfold pre; destruct mo, (0 <=? s)%Z; reflexivity).
  destruct (edit_one c n m geo key (text pre ++ [Hole (length id)]) (Z.abs s) Ksur num ls O T (text_word pre _ (or_intror I) P1) A1 A2 A3) as [rows [gw [kw [ls' [t [AS [T' [F [E1 [E2 [E3 E4]]]]]]]]]]].
  assert (AD : text pre ++ Hole (length id) :: text (s2l " ") = (text pre ++ [Hole (length id)]) ++ text (s2l " ")) by (now rewrite <- app_assoc).
  rewrite fill_text in F by exact P2. injection F as <-. fold id in E2, E4. rewrite ljust_exact in E2, E4.
  assert (SP : split (pre ++ id) = [pre ++ id]) by (apply split_one; [destruct pre; [exact ND|discriminate]|apply Forall_app; split; [exact P1|now apply digits_ws]]).
  rewrite SP in E2, E4. unfold add_surface. fold id. fold pre. rewrite AD, AS. cbn [bind].
  assert (TK : tokens [pre ++ id] = match mo with Union => [TColon] | Intersect => [] end ++ [TNum (s <? 0)%Z id]).
  { unfold tokens. cbn [map concat]. rewrite app_nil_r. unfold pre. destruct (Z.leb_spec 0 s) as [H|H].
    - replace (s <? 0)%Z with false by (symmetry; apply Z.ltb_ge; lia). destruct mo; cbn [mode_symbol app].
      + change ((s2l ":" ++ []) ++ id) with (":"%char :: id). rewrite lex_sym by reflexivity. now rewrite lex_id.
      + now rewrite lex_id.
    - replace (s <? 0)%Z with true by (symmetry; apply Z.ltb_lt; lia). destruct mo; cbn [mode_symbol app].
      + change ((s2l ":" ++ s2l "-") ++ id) with (":"%char :: "-"%char :: id). rewrite lex_sym by reflexivity. now rewrite lex_minus.
      + change (s2l "-" ++ id) with ("-"%char :: id). now rewrite lex_minus. }
  eexists. exists ls'. exists (match mo with Union => GOr g (GSurf (s <? 0)%Z id) | Intersect => GAnd g (GSurf (s <? 0)%Z id) end).
  split; [reflexivity|]. split; [exact T'|]. split; [|split; [|split; [exists gw, kw, [pre ++ id]; split; [exact E1|exact E2]|destruct num; reflexivity]]].
  - unfold region_of in *. rewrite E4, tokens_wrapped, TK. rewrite E3 in R. destruct mo; cbn [app].
    + apply wrapped_or; [exact R|]. apply i_one, f_surf.
    + apply wrapped_and; [exact R|]. apply f_surf.
  - intros side cell. destruct mo; cbn [inside]; destruct (s <? 0)%Z; reflexivity. Qed.
Print Assumptions C33_add_surface.
(** hash_cell: a point is in the new cell iff it is in the old one and not in the given cell *)
Theorem C33_hash_cell : forall c n m geo key ls g id num, ordinary c n m geo key -> card_text c = Ok ls -> region_of ls g -> (0 <= id)%Z ->
  exists c' ls' g', hash_cell id num c = Ok c' /\ card_text c' = Ok ls' /\ region_of ls' g' /\
    (forall side cell, inside side cell g' = inside side cell g && negb (cell (str_of_Z id))) /\
    (exists gw kw added, words ls = hd_text n m (c_hidden c) ++ gw ++ kw /\
       words ls' = hd_text (match num with Some z => z | None => n end) m (c_hidden c) ++ (s2l "(" :: gw ++ s2l ")" :: added) ++ kw) /\
    In id (get_refcells c').
Proof. intros c n m geo key ls g id num O T R P. destruct (abs_digits id) as [D ND]. rewrite Z.abs_eq in D, ND by exact P. set (w := length (str_of_Z id) - 1).
  destruct (edit_one c n m geo key (text (s2l "#") ++ [Hole w]) id Kcel num ls O T) as [rows [gw [kw [ls' [t [AS [T' [F [E1 [E2 [E3 E4]]]]]]]]]]]; try reflexivity.
  - apply text_word; [right; exact I|repeat constructor].
  - intros [Q|[Q|[]]]; discriminate.
  - rewrite fill_text in F by repeat constructor. injection F as <-. rewrite ljust_less in E2, E4 by (unfold w; lia).
    assert (SP : split (s2l "#" ++ str_of_Z id) = [s2l "#" ++ str_of_Z id]) by (apply split_one; [discriminate|apply Forall_app; split; [repeat constructor|now apply digits_ws]]). change (s2l "#" ++ str_of_Z id) with ("#"%char :: str_of_Z id) in SP. rewrite SP in E2, E4. change ("#"%char :: str_of_Z id) with (s2l "#" ++ str_of_Z id) in E2, E4.
    unfold hash_cell. fold w. change (text (s2l "#") ++ Hole w :: text (s2l " ")) with ((text (s2l "#") ++ [Hole w]) ++ text (s2l " ")). rewrite AS. cbn [bind].
    assert (TK : tokens [s2l "#" ++ str_of_Z id] = [THash; TNum false (str_of_Z id)]). { unfold tokens. cbn [map concat]. rewrite app_nil_r. change (s2l "#" ++ str_of_Z id) with ("#"%char :: str_of_Z id). rewrite lex_sym by reflexivity. now rewrite lex_id. }
    eexists. exists ls', (GAnd g (GNot (GCell (str_of_Z id)))). split; [reflexivity|]. split; [exact T'|]. split; [|split; [reflexivity|split; [eexists; eexists; eexists; split; [exact E1|exact E2]|]]].
    + unfold region_of in *. rewrite E4, tokens_wrapped, TK. rewrite E3 in R. apply wrapped_and; [exact R|]. apply f_cell.
    + destruct O as [_ _ _ [gs [ks [EV [LG [NG [FG FK]]]]]] _]. destruct (renumbered_eq num (mkCard (c_name c) (c_values c) rows (c_hidden c)) n m gs ks rows (c_hidden c) (c_name c)) as [nm' [-> _]]; [now rewrite EV|].
      cbn [c_values with_values]. rewrite insert_after_geometry by assumption. unfold get_refcells. cbn [c_values tl]. change id with (fst (id, Kcel)). apply in_map. apply filter_In. split; [|reflexivity]. right. apply in_or_app. right. left. reflexivity. Qed.
Print Assumptions C33_hash_cell.
(** cells_union: the cell made from the first cell and the geometries of the others is their union *)
Theorem C33_cells_union : forall num c geoms c' n m geo key ls g gs, union_loop num c geoms c' ->
  ordinary c n m geo key -> card_text c = Ok ls -> region_of ls g ->
  Forall2 (fun geom g2 => has_letter geom = false /\ ~ In tilde geom /\ is_union (tokens (split geom)) g2) geoms gs ->
  exists ls' g', card_text c' = Ok ls' /\ region_of ls' g' /\
    forall side cell, inside side cell g' = existsb (inside side cell) (g :: gs).
Proof. intros num c geoms c' n m geo key ls g gs L O T R F. destruct (union_loop_region num geoms c c' n m geo key ls g gs L O T R F) as [ls' [T' R']]. exists ls', (fold_left GOr gs g). split; [exact T'|]. split; [exact R'|].
  intros side cell. clear. revert g. induction gs as [|g2 gs IH]; intros g; [cbn; now rewrite orb_false_r|]. cbn [fold_left]. rewrite IH. cbn [existsb inside]. now rewrite orb_assoc. Qed.
Print Assumptions C33_cells_union.
(** one round of it, with no assumption on the second parsing *)
Theorem C33_union_of_two : forall num geom c n m geo key ls g g2, ordinary c n m geo key -> card_text c = Ok ls -> region_of ls g ->
  has_letter geom = false -> ~ In tilde geom -> is_union (tokens (split geom)) g2 ->
  exists c1 ls1, union_step num geom c = Ok c1 /\ card_text c1 = Ok ls1 /\ c_name c1 = Some num /\
    exists g', region_of ls1 g' /\ forall side cell, inside side cell g' = inside side cell g || inside side cell g2.
Proof. intros num geom c n m geo key ls g g2 O T R A B C. destruct (union_step_region num geom c n m geo key ls g g2 O T R A B C) as [c1 [ls1 [gw [aw [kw [S [T1 [R1 [N _]]]]]]]]]. exists c1, ls1. split; [exact S|]. split; [exact T1|]. split; [exact N|]. exists (GOr g g2). split; [exact R1|reflexivity]. Qed.
Print Assumptions C33_union_of_two.
(** the dictionary afterwards: the listed cells are gone, the union is there, the others stay; a cell
    listed twice or unknown raises KeyError *)
Theorem C33_union_replaces_the_cells : forall h d nums num l h' d', NoDup (dkeys d) -> union_dict h d nums num l = Ok (h', d') ->
  dget str_eqb (str_of_Z num) d' = Some l /\ NoDup nums /\ (forall key, In key nums -> In key (dkeys d)) /\
  forall key, key <> str_of_Z num -> dget str_eqb key d' = (if memb str_eqb key nums then None else dget str_eqb key d).
Proof. intros h d nums num l h' d' ND H. unfold union_dict in H. destruct (foldM (fun d key => dpop key d) d nums) as [d1|] eqn:F; cbn [bind] in H; [|discriminate]. apply setitem_ok in H as [_ ->].
  assert (G : NoDup nums /\ (forall key, In key nums -> In key (dkeys d)) /\ NoDup (dkeys d1) /\ forall key, dget str_eqb key d1 = (if memb str_eqb key nums then None else dget str_eqb key d)).
  { revert d ND F. induction nums as [|k nums IH]; intros d ND F; cbn [foldM] in F.
    - injection F as <-. split; [constructor|]. split; [intros ? []|]. split; [exact ND|]. reflexivity.
    - pose proof (dpop_spec k d) as P. destruct (dpop k d) as [d2|]; cbn [bind] in F; [|discriminate]. destruct P as [a [l0 [b [-> [-> NA]]]]].
      unfold dkeys in *. rewrite map_app in ND. cbn [map fst] in ND. pose proof (NoDup_remove_1 _ _ _ ND) as ND2. pose proof (NoDup_remove_2 _ _ _ ND) as NI.
      destruct (IH (a ++ b)) as [I1 [I2 [I3 I4]]]; [rewrite map_app; exact ND2|exact F|].
      assert (KN : ~ In k nums). { intros Q. apply I2 in Q. rewrite map_app in Q. contradiction. }
      split; [now constructor|]. split; [intros key [<-|Q]; [rewrite map_app; apply in_or_app; right; left; reflexivity|]; apply I2 in Q; rewrite map_app in *; cbn [map fst]; apply in_app_or in Q as [Q|Q]; apply in_or_app; [left; exact Q|right; right; exact Q]|].
      split; [exact I3|]. intros key. rewrite I4. cbn [memb]. rewrite !dget_app. cbn [dget]. destruct (str_eqb key k) eqn:E.
      + apply str_eqb_eq in E. subst key. cbn [orb]. assert (X : memb str_eqb k nums = false). { destruct (memb str_eqb k nums) eqn:M; [|reflexivity]. apply memb_str in M. contradiction. } rewrite X.
        rewrite <- dget_app. apply (dget_none_iff str_eqb str_eqb_eq). unfold dkeys. rewrite map_app. exact NI.
      + cbn [orb]. reflexivity. }
  destruct G as [G1 [G2 [G3 G4]]]. split; [apply (dget_dset_same str_eqb str_eqb_eq)|]. split; [exact G1|]. split; [exact G2|].
  intros key N. rewrite (dget_dset_other str_eqb str_eqb_eq) by congruence. apply G4. Qed.
Print Assumptions C33_union_replaces_the_cells.
(** not ordinary: the geometry glued to the material.  The parentheses close on nothing *)
Theorem C33_glued_geometry_refuted : card_text g_glued = Ok [s2l "1 0(1:-2):3"] /\
  exists c', add_surface 5 None Intersect g_glued = Ok c' /\ card_text c' = Ok [s2l "1 0(1:-2):3 ( ) 5 "].
Proof. split; [vm_compute; reflexivity|]. eexists. split; vm_compute; reflexivity. Qed.
Print Assumptions C33_glued_geometry_refuted.
Example C33_witness : ordinary g_c1 1 2 [tmpl "-@"; tmpl ":@"; tmpl "-@"] [tmpl "imp:n=1"; tmpl "u=@"] /\
  card_text g_c1 = Ok [s2l "1 2 -7.8 -10 :11"; s2l "     -12 imp:n=1 u=5"] /\
  region_of [s2l "1 2 -7.8 -10 :11"; s2l "     -12 imp:n=1 u=5"] (GOr (GSurf true (s2l "10")) (GAnd (GSurf false (s2l "11")) (GSurf true (s2l "12")))) /\
  (exists c', add_surface (-20) (Some 9%Z) Intersect g_c1 = Ok c' /\ card_text c' = Ok [s2l "9 2 -7.8 ( -10 :11"; s2l "     -12 ) -20  imp:n=1 u=5"]).
Proof. split; [|split; [vm_compute; reflexivity|split; [|eexists; split; vm_compute; reflexivity]]].
  - constructor.
    + exists 1, 1. do 3 eexists. split; [reflexivity|]. split; [vm_compute; reflexivity|]. vm_compute. reflexivity.
    + repeat constructor; intros Q; cbn in Q; intuition discriminate.
    + left. reflexivity.
    + exists [(10, Ksur); (11, Ksur); (12, Ksur)]%Z, [(5, Ku)]%Z. split; [reflexivity|]. split; [reflexivity|]. split; [discriminate|]. split; [repeat constructor|]. constructor; [|constructor]. intros [Q|Q]; discriminate.
    + intros _. exists (s2l "-7.8"), []. split; [reflexivity|]. split; [discriminate|]. repeat constructor.
  - unfold region_of. change (tokens _) with ([TNum true (s2l "10")] ++ TColon :: ([TNum false (s2l "11")] ++ [TNum true (s2l "12")])).
    apply u_or; [apply u_one, i_one, f_surf|]. apply i_and; [apply i_one, f_surf|apply f_surf]. Qed.
Example C33_witness_union : exists c1, union_step 9 (s2l "-13
 14") g_c1 = Ok c1 /\ card_text c1 = Ok [s2l "9 2 -7.8 ( -10 :11"; s2l "     -12 )  : (-13  14) imp:n=1 u=5"] /\
  is_union (tokens (split (s2l "-13
 14"))) (GAnd (GSurf true (s2l "13")) (GSurf false (s2l "14"))).
Proof. eexists. split; [vm_compute; reflexivity|]. split; [vm_compute; reflexivity|]. change (tokens _) with ([TNum true (s2l "13")] ++ [TNum false (s2l "14")]). apply u_one, i_and; [apply i_one, f_surf|apply f_surf]. Qed.

(** ** C34 *)
(** exactly the cells with the old material (and, if given, in one of the universes) are changed *)
Theorem C34_exactly_the_selected_cells : forall new dens old us h a h', replace_material new dens old us h a = Ok h' -> NoDup (locs (i_cells a)) ->
  (0 <= new)%Z /\ length h' = length h /\ (forall l, ~ In l (locs (i_cells a)) -> nth_error h' l = nth_error h l) /\
  forall l, In l (locs (i_cells a)) -> exists c, nth_error h l = Some c /\
    ((get_m c = Some old /\ (forall us', us = Some us' -> exists u, get_u c = Some u /\ In u us') ->
        exists c', nth_error h' l = Some c' /\ replace_cell_material new dens c = Ok c') /\
     (~ (get_m c = Some old /\ (forall us', us = Some us' -> exists u, get_u c = Some u /\ In u us')) -> nth_error h' l = Some c)).
Proof. intros new dens old us h a h' H ND. unfold replace_material in H. destruct (Z.ltb_spec new 0); [discriminate|]. destruct (replace_all new dens old us (i_cells a) h h' H ND) as [L [FO FI]].
  split; [lia|]. split; [exact L|]. split; [exact FO|]. intros l Il. destruct (FI l Il) as [c [Hc [S1 S2]]]. exists c. split; [exact Hc|].
  assert (S : selected old us c = true <-> (get_m c = Some old /\ (forall us', us = Some us' -> exists u, get_u c = Some u /\ In u us'))).
  { unfold selected, optz_eqb, in_universe. rewrite andb_true_iff. split.
    - intros [A B]. destruct (get_m c) as [m|]; [|discriminate]. apply Z.eqb_eq in A. subst m. split; [reflexivity|]. intros us' ->. destruct (get_u c) as [u|]; [|discriminate]. exists u. split; [reflexivity|]. apply InpProofs3.zmem_in. exact B.
    - intros [A B]. rewrite A. split; [apply Z.eqb_refl|]. destruct us as [us'|]; [|reflexivity]. destruct (B us' eq_refl) as [u [-> I]]. now apply InpProofs3.zmem_in. }
  split; intros Q; [apply S1, S, Q|]. apply S2. destruct (selected old us c); [|reflexivity]. elim Q. now apply S. Qed.
Print Assumptions C34_exactly_the_selected_cells.
(** what a change does to the text of a cell: the material number and the density are replaced (no
    density for material 0), every other word stays *)
Theorem C34_text_of_a_changed_cell : forall c n m ls new dens, headed c n m -> card_text c = Ok ls ->
  exists rest, words ls = str_of_Z n :: str_of_Z m :: (if (m =? 0)%Z then [] else match c_hidden c with d :: _ => split d | [] => [] end) ++ rest /\
  forall c', replace_cell_material new dens c = Ok c' ->
    (exists ls', card_text c' = Ok ls' /\ words ls' = str_of_Z n :: str_of_Z new :: (if (new =? 0)%Z then [] else split dens) ++ rest) /\
    get_m c' = Some new /\ c_name c' = c_name c /\ headed c' n new.
Proof. exact replace_ok. Qed.
Print Assumptions C34_text_of_a_changed_cell.
(** a cell with a material accepts everything; a void cell needs a positive material and a density
    whose integer part is not 0 *)
Theorem C34_when_a_change_is_accepted : forall c n m new dens, headed c n m ->
  ((exists c', replace_cell_material new dens c = Ok c') <->
   (m <> 0%Z \/ (0 < new)%Z /\ exists q, parse_float dens = Ok q /\ qtrunc q <> 0%Z)).
Proof. exact replace_succeeds. Qed.
Print Assumptions C34_when_a_change_is_accepted.
(** so a void cell refuses a non-zero density below 1 *)
Theorem C34_small_density_refused_refuted : exists c n dens q, headed c n 0 /\ parse_float dens = Ok q /\ ~ (q == 0)%Q /\ replace_cell_material 5 dens c = Err ValueError.
Proof. exists g_void, 3%Z, (s2l "0.98"). eexists. split; [|split; [vm_compute; reflexivity|split; [vm_compute; discriminate|vm_compute; reflexivity]]].
  exists 1, 1. do 4 eexists. split; [reflexivity|]. split; [vm_compute; reflexivity|]. split; [reflexivity|]. intros Q; now elim Q. Qed.
Print Assumptions C34_small_density_refused_refuted.
(** and replacing void by void raises, although the method only means to warn *)
Theorem C34_void_by_void_refuted : forall c n dens, headed c n 0 -> forall c', replace_cell_material 0 dens c <> Ok c'.
Proof. intros c n dens H c' E. assert (X : exists c', replace_cell_material 0 dens c = Ok c') by eauto. apply (replace_succeeds c n 0%Z 0%Z dens H) in X as [X|[X _]]; [now elim X|lia]. Qed.
Print Assumptions C34_void_by_void_refuted.
(** get_cells_by_matID *)
Theorem C34_cells_by_material : forall h a m ks, cells_by_mat h a m = Ok ks ->
  forall key, In key ks <-> exists l c, In (key, l) (i_cells a) /\ nth_error h l = Some c /\ get_m c = Some m.
Proof. intros h a m ks H key. unfold cells_by_mat in H. match type of H with bind ?X _ = _ => destruct X as [ll|] eqn:M end; cbn [bind] in H; [|discriminate]. injection H as <-. revert ll M. induction (i_cells a) as [|[k l] d IH]; intros ll M; cbn [mapM] in M.
  - injection M as <-. split; [intros []|intros [? [? [[] _]]]].
  - cbn [snd fst] in M. destruct (hget h l) as [c|] eqn:G; cbn [bind] in M; [|discriminate]. apply hget_ok in G. match type of M with bind ?X _ = _ => destruct X as [ys|] eqn:YS end; cbn [bind] in M; [|discriminate]. injection M as <-. cbn [concat]. rewrite in_app_iff, (IH ys eq_refl). split.
    + intros [I|[l1 [c1 [I R]]]]; [|exists l1, c1; split; [right; exact I|exact R]]. destruct (get_m c) as [z|] eqn:GM; cbn [optz_eqb] in I; [|destruct I]. destruct (Z.eqb_spec z m) as [->|]; [|destruct I]. destruct I as [<-|[]]. exists l, c. split; [left; reflexivity|]. auto.
    + intros [l1 [c1 [[I|I] [R1 R2]]]]; [left|right; exists l1, c1; auto]. injection I as <- <-. rewrite G in R1. injection R1 as <-. rewrite R2. cbn [optz_eqb]. rewrite Z.eqb_refl. left. reflexivity. Qed.
Print Assumptions C34_cells_by_material.
Example C34_witness : exists h', replace_material 7 (s2l "-1.5") 2 (Some [5%Z]) g_heap g_inp = Ok h' /\ headed g_c1 1 2 /\
  (exists c, nth_error h' 0 = Some c /\ card_text c = Ok [s2l "1 7 -1.5 -10 :11"; s2l "     -12 imp:n=1 u=5"]) /\ nth_error h' 1 = Some g_void.
Proof. eexists. split; [vm_compute; reflexivity|]. split; [|split; [eexists; split; vm_compute; reflexivity|vm_compute; reflexivity]].
  exists 1, 1. do 4 eexists. split; [reflexivity|]. split; [vm_compute; reflexivity|]. split; [reflexivity|]. intros _. discriminate. Qed.
