(** Theorems about densities (C99), the tables of the cells (C100) and the look-ups (C101). *)
From Coq Require Import Lia ZArith QArith Qabs Permutation Sorted.
From Verif Require Import PyBase PyLemmas PyStr PyStrLemmas PySci PySciLemmas PyText D1SProofs2 LibModel MatModel MatSpec MatProofs MatProofs2 MatProofs4 InpModel InpSpec InpProofs InpProofs4 LookModel LookSpec LookProofs.
Open Scope nat_scope.

(** ** C99 *)
(** every density that is a number is scaled: no other card and nothing else of a card changes *)
Theorem C99_scaled : forall f h cells, NoDup (locs cells) ->
  (forall l, In l (locs cells) -> exists c, nth_error h l = Some c /\ (get_m c = Some 0%Z \/ exists q, written_density c q)) ->
  exists h', scale_densities f h cells = Ok h' /\ length h' = length h /\
    (forall l, ~ In l (locs cells) -> nth_error h' l = nth_error h l) /\
    (forall l c, In l (locs cells) -> nth_error h l = Some c -> exists c', nth_error h' l = Some c' /\
       (get_m c = Some 0%Z -> c' = c) /\
       (get_m c <> Some 0%Z -> same_but_density c c' /\ exists q v, written_density c q /\ written_density c' v /\
          (Qabs (v - q * f) * 200000 <= Qabs (q * f))%Q /\ (0 < q * f -> 0 < v)%Q /\ (q * f < 0 -> v < 0)%Q)).
Proof.
  intros f h cells ND H. destruct (scale_total f cells h H ND) as [h' E]. exists h'. split; [exact E|]. destruct (scale_run f cells h h' E ND) as (L & O & I). split; [exact L|]. split; [exact O|].
  intros l c Hl G. destruct (I l Hl) as (c0 & c' & G0 & SC & G1). rewrite G in G0. injection G0 as <-. exists c'. split; [exact G1|]. unfold scale_cell in SC. split.
  - intros M. rewrite (proj2 (optz_eqb_iff _ _) M) in SC. congruence.
  - intros M. destruct (optz_eqb (get_m c) 0) eqn:Z0; [apply optz_eqb_iff in Z0; easy|]. unfold get_d, set_d in SC. destruct (c_hidden c) as [|d hs] eqn:HI; [discriminate|]. destruct (parse_float d) as [q|] eqn:PF; cbn [bind] in SC; [|discriminate]. injection SC as <-.
    split; [unfold same_but_density; rewrite HI; cbn; tauto|]. exists q, (roundn Two 5 (q * f)). split; [exists d, hs; now split|]. split; [eexists _, hs; split; [reflexivity|]; apply parse_fmt_sci; now left|].
    split; [exact (roundn_acc Two 5 (q * f))|]. exact (roundn_sign Two 5 (q * f)).
Qed.
Print Assumptions C99_scaled.
(** and the text of a scaled card is the old text with the density in the place of the old one *)
Theorem C99_text : forall f c c' ls, scale_cell f c = Ok c' -> get_m c <> Some 0%Z -> card_text c = Ok ls ->
  (has_place c = true -> exists pre post a b d d' q v, ls = pre ++ (a ++ d ++ b) :: post /\ card_text c' = Ok (pre ++ (a ++ d' ++ b) :: post) /\
     no_ws d' /\ d' <> [] /\ parse_float d = Ok q /\ parse_float d' = Ok v /\ (Qabs (v - q * f) * 200000 <= Qabs (q * f))%Q) /\
  (has_place c = false -> card_text c' = Ok ls).
Proof.
  intros f c c' ls SC M T. unfold scale_cell in SC. destruct (optz_eqb (get_m c) 0) eqn:Z0; [apply optz_eqb_iff in Z0; easy|]. unfold get_d, set_d in SC. destruct (c_hidden c) as [|d hs] eqn:HI; [discriminate|]. destruct (parse_float d) as [q|] eqn:PF; cbn [bind] in SC; [|discriminate]. injection SC as <-.
  unfold card_text in *. cbn [c_input c_values c_hidden]. rewrite HI in T. destruct (fill_lines_density _ _ d (fmt_sci Two "e" 5 (q * f)) hs ls T) as [[P (pre & post & a & b & E1 & E2)]|[P E2]]; unfold has_place; (split; [|]); intros X; try (change (existsb has_mark (c_input c)) with (existsb (fun t => has_mark t) (c_input c)) in X; congruence).
  - exists pre, post, a, b, d, (fmt_sci Two "e" 5 (q * f)), q, (roundn Two 5 (q * f)). split; [exact E1|]. split; [exact E2|]. destruct (fmt_sci_no_ws Two "e" 5 (q * f) eq_refl) as [W N]. split; [exact W|]. split; [exact N|]. split; [exact PF|]. split; [apply parse_fmt_sci; now left|]. exact (roundn_acc Two 5 (q * f)).
Qed.
Print Assumptions C99_text.
(** a factor 0 leaves cells with a material and the density 0 *)
Theorem C99_zero_factor_refuted : forall f c q, (f == 0)%Q -> get_m c <> Some 0%Z -> written_density c q -> exists c' v, scale_cell f c = Ok c' /\ get_m c' = get_m c /\ written_density c' v /\ (v == 0)%Q.
Proof.
  intros f c q F M (d & hs & HI & PF). unfold scale_cell. destruct (optz_eqb (get_m c) 0) eqn:Z0; [apply optz_eqb_iff in Z0; easy|]. unfold get_d, set_d. rewrite HI, PF. cbn [bind]. eexists _, (roundn Two 5 (q * f)). split; [reflexivity|]. split; [reflexivity|]. split; [eexists _, hs; split; [reflexivity|]; apply parse_fmt_sci; now left|]. apply roundn_zero. rewrite F. apply Qmult_0_r.
Qed.
Print Assumptions C99_zero_factor_refuted.

(** ** C100 *)
Theorem C100_densities_range : forall convert h cells t, get_densities_range convert h cells = Ok t ->
  StronglySorted Z.lt (map fst t) /\
  (forall m, In m (map fst t) <-> exists q, has_density convert h cells m q) /\
  (forall m lo hi, In (m, (lo, hi)) t -> has_density convert h cells m lo /\ has_density convert h cells m hi /\ forall q, has_density convert h cells m q -> (lo <= q <= hi)%Q).
Proof.
  intros convert h cells t H. unfold get_densities_range in H. destruct (mapM _ cells) as [l|] eqn:M; cbn [bind] in H; [|discriminate]. injection H as <-. pose proof (collected convert h cells l M) as C.
  set (fd := concat (map (fun o => match o with Some p => [p] | None => [] end) l)) in *. destruct (range_rows fd (sort_set (map fst fd))) as [R1 R2]; [intros m X; exact (proj1 (sort_set_in _ _) X)|].
  split; [rewrite R1; apply sort_set_sorted|]. split.
  - intros m. rewrite R1, sort_set_in, in_map_iff. split; [intros ([a q] & E & I); cbn in E; subst a; exists q; now apply C|intros [q Q]; exists (m, q); split; [reflexivity|now apply C]].
  - intros m lo hi I. destruct (R2 m lo hi I) as (A & B & D). split; [now apply C|]. split; [now apply C|]. intros q Q. apply D. now apply C.
Qed.
Print Assumptions C100_densities_range.
(** it is refused only for a cell without a material number or readable density, or when the conversion is *)
Theorem C100_range_exists : forall convert h cells,
  (forall l, In l (locs cells) -> exists c m, nth_error h l = Some c /\ get_m c = Some m /\ (m <> 0%Z -> exists q, written_density c q /\ ((q < 0)%Q \/ exists g, convert m q = Ok g))) ->
  exists t, get_densities_range convert h cells = Ok t.
Proof.
  intros convert h cells H. unfold get_densities_range. enough (G : exists l, mapM (fun kl : str * loc => do c <- hget h (snd kl); cell_density convert c) cells = Ok l) by (destruct G as [l ->]; eexists; reflexivity).
  induction cells as [|[k l] cells IH]; [exists []; reflexivity|]. cbn [mapM snd]. destruct (H l (or_introl eq_refl)) as (c & m & G & GM & D). unfold hget at 1. rewrite G. cbn [of_opt bind].
  assert (X : exists o, cell_density convert c = Ok o).
  { unfold cell_density. rewrite GM. destruct (Z.eqb_spec m 0) as [E|E]; [now exists None|]. destruct (D E) as (q & (d & hs & HI & PF) & Q). unfold get_d. rewrite HI, PF. cbn [bind]. destruct (Qle_bool 0 q) eqn:QL; cbn [negb]; [|eexists; reflexivity].
    destruct Q as [Q|[g ->]]; [|eexists; reflexivity]. apply Qle_bool_iff in QL. elim (Qlt_not_le _ _ Q QL). }
  destruct X as [o ->]. cbn [bind]. destruct IH as [r ->]; [intros x X; apply H; now right|]. eexists. reflexivity.
Qed.
Print Assumptions C100_range_exists.
(** one row per cell, in the order of the cell numbers, with the cell's own material, density, universe and filler *)
Theorem C100_cells_summary : forall void_d h cells rows, get_cells_summary void_d h cells = Ok rows ->
  StronglySorted (fun a b => (cr_cell a <= cr_cell b)%Z) rows /\ exists rows0, Permutation rows rows0 /\
    Forall2 (fun kl r => exists c, nth_error h (snd kl) = Some c /\ parse_int (fst kl) = Ok (cr_cell r) /\ cr_mat r = get_m c /\ cr_u r = get_u c /\ cr_fill r = get_f c /\
      (get_m c = Some 0%Z -> cr_dens r = void_d) /\ (get_m c <> Some 0%Z -> written_density c (cr_dens r))) cells rows0.
Proof.
  intros void_d h cells rows H. unfold get_cells_summary in H. destruct (mapM (cell_row void_d h) cells) as [l|] eqn:M; [|discriminate].
  assert (E : rows = fold_right insert_cr [] l) by (destruct l; [discriminate|congruence]). subst rows. split; [apply sort_cr_sorted|]. exists l. split; [apply sort_cr_perm|]. apply mapM_Forall2 in M.
  eapply Forall2_impl; [|exact M]. intros [k a] r X. unfold cell_row in X. cbn [fst snd] in *. unfold hget in X. destruct (nth_error h a) as [c|]; cbn [of_opt bind] in X; [|discriminate]. destruct (parse_int k) as [n|]; cbn [bind] in X; [|discriminate].
  exists c. split; [reflexivity|]. destruct (optz_eqb (get_m c) 0) eqn:Z0; cbn [bind] in X.
  - injection X as <-. cbn. apply optz_eqb_iff in Z0. repeat split. intros N. easy.
  - unfold get_d in X. destruct (c_hidden c) as [|d hs] eqn:HI; [discriminate|]. destruct (parse_float d) as [q|] eqn:PF; cbn [bind] in X; [|discriminate]. injection X as <-. cbn. repeat split; [intros Y; rewrite Y in Z0; discriminate|]. intros _. exists d, hs. now split.
Qed.
Print Assumptions C100_cells_summary.
Theorem C100_no_cells : forall void_d h, get_cells_summary void_d h [] = Err KeyError.
Proof. reflexivity. Qed.
Print Assumptions C100_no_cells.

(** ** C101 *)
(** cells and surfaces: exactly the cards asked for, in the order of the request *)
Theorem C101_cells_and_surfaces : forall a h ids keys, 
  (Forall2 (key_of (i_cells a)) (map str_of_Z ids) keys -> exists sel, get_cells_by_id ids false h a = Ok (h, sel) /\ firsts keys (dkeys sel) /\ forall k l, dget str_eqb k sel = Some l -> dget str_eqb k (i_cells a) = Some l) /\
  (Forall2 (key_of (i_surfs a)) (map str_of_Z ids) keys -> exists sel, get_surfs_by_id ids a = Ok sel /\ firsts keys (dkeys sel) /\ forall k l, dget str_eqb k sel = Some l -> dget str_eqb k (i_surfs a) = Some l).
Proof.
  intros a h ids keys. split; intros F; destruct (lookup_ok _ _ _ F) as (sel & E & K & G); exists sel; (split; [|split; [exact K|exact G]]).
  - unfold get_cells_by_id. rewrite E. reflexivity.
  - exact E.
Qed.
Print Assumptions C101_cells_and_surfaces.
(** one missing card refuses the request *)
Theorem C101_missing : forall a h ids n, In n ids ->
  (~ In (str_of_Z n) (dkeys (i_cells a)) -> ~ In (star (str_of_Z n)) (dkeys (i_cells a)) -> forall cp, get_cells_by_id ids cp h a = Err KeyError) /\
  (~ In (str_of_Z n) (dkeys (i_surfs a)) -> ~ In (star (str_of_Z n)) (dkeys (i_surfs a)) -> get_surfs_by_id ids a = Err KeyError).
Proof.
  intros a h ids n I. split; intros N1 N2; [intros cp; unfold get_cells_by_id|unfold get_surfs_by_id]; rewrite lookup_err; [reflexivity| |reflexivity|]; exists (str_of_Z n); (split; [now apply in_map|now split]).
Qed.
Print Assumptions C101_missing.
(** copies are new cards, one by one equal to the cards found *)
Theorem C101_copies : forall a h ids sel, get_cells_by_id ids false h a = Ok (h, sel) -> (forall l, In l (locs sel) -> l < length h) ->
  exists h' sel', get_cells_by_id ids true h a = Ok (h', sel') /\ same_cards h h' sel sel' /\ (exists new, h' = h ++ new) /\ (forall l, In l (locs sel') -> length h <= l) /\ NoDup (locs sel').
Proof.
  intros a h ids sel H AL. unfold get_cells_by_id in *. destruct (get_cards_by_id (map str_of_Z ids) (i_cells a)) as [s|]; cbn [bind] in *; [|discriminate]. injection H as ->. destruct (copy_total h sel AL) as (h' & d' & E). exists h', d'. split; [exact E|].
  destruct (copy_same _ _ _ _ E AL) as (A & B & C & D). split; [exact A|]. split; [exact B|]. split; [intros l L; now apply C|exact D].
Qed.
Print Assumptions C101_copies.
(** data cards: all from the other data, or else all from the transformations *)
Theorem C101_data_cards : forall a ids keys, 
  (Forall2 (key_of (i_other a)) ids keys -> exists sel, get_data_cards ids a = Ok sel /\ firsts keys (dkeys sel) /\ forall k l, dget str_eqb k sel = Some l -> dget str_eqb k (i_other a) = Some l) /\
  ((exists id, In id ids /\ ~ In id (dkeys (i_other a)) /\ ~ In (star id) (dkeys (i_other a))) ->
     (Forall2 (key_of (i_trans a)) ids keys -> exists sel, get_data_cards ids a = Ok sel /\ firsts keys (dkeys sel) /\ forall k l, dget str_eqb k sel = Some l -> dget str_eqb k (i_trans a) = Some l) /\
     ((exists id, In id ids /\ ~ In id (dkeys (i_trans a)) /\ ~ In (star id) (dkeys (i_trans a))) -> get_data_cards ids a = Err KeyError)).
Proof.
  intros a ids keys. unfold get_data_cards. split.
  - intros F. destruct (lookup_ok _ _ _ F) as (sel & E & K & G). rewrite E. exists sel. auto.
  - intros M. rewrite (lookup_err _ _ M). split.
    + intros F. destruct (lookup_ok _ _ _ F) as (sel & E & K & G). rewrite E. exists sel. auto.
    + intros M'. now rewrite (lookup_err _ _ M').
Qed.
Print Assumptions C101_data_cards.
(** materials: the list of the materials called so, whatever the case of the letters *)
Theorem C101_materials : forall a l ids, i_mats a = ml_new mt_name l ->
  (forall ms, Forall2 (fun id m => last_named mt_name id l m) ids ms -> get_materials_subset ids a = Ok (ml_new mt_name ms)) /\
  (forall id, In id ids -> ~ In (upper id) (names mt_name l) -> get_materials_subset ids a = Err KeyError) /\
  (forall id m, last_named mt_name id l m -> get_material id a = Ok m).
Proof.
  intros a l ids E. assert (U : forall s, upper (upper s) = upper s) by (intros s; unfold upper; rewrite map_map; apply map_ext; intros c; destruct c as [[] [] [] [] [] [] [] []]; reflexivity).
  assert (G : forall id m, last_named mt_name id l m -> ml_get (i_mats a) (upper id) = Ok m). { intros id m H. rewrite E. apply (get_ok mt_name _ _ _ (new_synced mt_name l)). unfold last_named in *. cbn [ml_list ml_new]. rewrite U. exact H. }
  unfold get_materials_subset. split; [|split].
  - intros ms F. replace (mapM (fun id => ml_get (i_mats a) (upper id)) ids) with (Ok ms : res (list material)); [reflexivity|]. symmetry. induction F as [|id m ids ms H F IH]; [reflexivity|]. cbn [mapM]. rewrite (G id m H). cbn [bind]. rewrite IH. reflexivity.
  - intros id I N. replace (mapM (fun id => ml_get (i_mats a) (upper id)) ids) with (Err KeyError : res (list material)); [reflexivity|]. symmetry. induction ids as [|x ids IH]; [destruct I|]. cbn [mapM]. destruct I as [->|I].
    + rewrite E. rewrite (proj2 (get_err mt_name _ (upper id) (new_synced mt_name l))); [reflexivity|]. cbn [ml_list ml_new]. now rewrite U.
    + destruct (ml_get (i_mats a) (upper x)) as [m|e] eqn:Q; cbn [bind]; [now rewrite IH|]. unfold ml_get in Q. destruct (dget _ _ _); cbn in Q; congruence.
  - exact G.
Qed.
Print Assumptions C101_materials.
(** a surface with the mark + (white boundary) is not found by its number *)
Theorem C101_white_boundary_refuted : forall a n l, i_surfs a = [("+"%char :: str_of_Z n, l)] -> get_surfs_by_id [n] a = Err KeyError.
Proof.
  intros a n l E. unfold get_surfs_by_id. apply lookup_err. exists (str_of_Z n). split; [now left|]. rewrite E. cbn. split; intros [X|[]]; [|discriminate].
  apply (f_equal (@length ascii)) in X. cbn [length] in X. lia.
Qed.
Print Assumptions C101_white_boundary_refuted.

Definition ln (s : string) : tline := map (fun c => if Ascii.eqb c "@" then Hole 0 else Ch c) (s2l s).
Definition ca : card := mkCard (Some 1%Z) [(1%Z, Kcel); (2%Z, Kmat); ((-3)%Z, Ksur)] [ln "@ @ ~ @"] [s2l "-7.93"].
Definition cb : card := mkCard (Some 2%Z) [(2%Z, Kcel); (0%Z, Kmat); (3%Z, Ksur)] [ln "@ @ @"] [].
Definition cc : card := mkCard (Some 3%Z) [(3%Z, Kcel); (2%Z, Kmat); (4%Z, Ksur); (5%Z, Kfill)] [ln "@ @ ~ @ fill=@"] [s2l "0.08"].
Definition exh : heap := [ca; cb; cc].
Definition exd : cdict := [(s2l "3", 2); (s2l "1", 0); (s2l "2", 1)].
Definition exa : input := mkInp exd [(s2l "*3", 7); (s2l "4", 8)] (ml_new mt_name []) [(s2l "TR1", 9)] [(s2l "SDEF", 6)] [] [] [].
Example C99_case : NoDup (locs exd) /\ (forall l, In l (locs exd) -> exists c, nth_error exh l = Some c /\ (get_m c = Some 0%Z \/ exists q, written_density c q)) /\
  (exists h', scale_densities (3 # 2) exh exd = Ok h' /\ map card_text h' = [Ok [s2l "1 2 -1.18950e+01 -3"]; Ok [s2l "2 0 3"]; Ok [s2l "3 2 1.20000e-01 4 fill=5"]]).
Proof.
  split; [repeat constructor; cbn; intuition discriminate|]. split; [|eexists; split; vm_compute; reflexivity].
  intros l H. cbn in H. assert (X : nth_error exh 0 = Some ca /\ nth_error exh 1 = Some cb /\ nth_error exh 2 = Some cc) by (repeat split). destruct X as (X0 & X1 & X2).
  destruct H as [<-|[<-|[<-|[]]]]; [exists cc|exists ca|exists cb]; (split; [assumption|]); [right; eexists _, _, _; split; reflexivity|right; eexists _, _, _; split; reflexivity|now left].
Qed.
Example C100_case : get_densities_range (fun _ d => Ok (d * 100)%Q) exh exd = Ok [(2%Z, (793 # 100, 800 # 100)%Q)] /\ exists rows, get_cells_summary 0 exh exd = Ok rows /\ map cr_cell rows = [1; 2; 3]%Z /\ map cr_fill rows = [None; None; Some 5%Z].
Proof. split; [vm_compute; reflexivity|]. eexists. split; [reflexivity|]. split; reflexivity. Qed.
Example C101_case : get_cells_by_id [2; 1; 2]%Z false exh exa = Ok (exh, [(s2l "2", 1); (s2l "1", 0)]) /\ Forall2 (key_of (i_surfs exa)) (map str_of_Z [4; 3]%Z) [s2l "4"; s2l "*3"] /\
  get_surfs_by_id [4; 3]%Z exa = Ok [(s2l "4", 8); (s2l "*3", 7)] /\ get_data_cards [s2l "TR1"] exa = Ok [(s2l "TR1", 9)] /\ get_data_cards [s2l "SDEF"; s2l "TR1"] exa = Err KeyError.
Proof.
  split; [reflexivity|]. split; [|repeat split]. constructor; [split; [right; now left|now left]|]. constructor; [split; [now left|right; split; [reflexivity|cbn; intuition discriminate]]|constructor].
Qed.
