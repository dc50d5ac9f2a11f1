(** C103-C105: the tables and the in-line information of materials, and materials from lists of zaids. *)
From Coq Require Import Lia Lqa Sorted.
From Verif Require Import PyBase PyLemmas PyStr PyStrLemmas PyText D1SModel D1SProofs2 LibModel LibSpec LibProofs LibProofs2 LibProofs3 IsoData LibProps MatModel MatSpec MatProofs MatProofs2 MatProofs3 MatProofs4 MatProps MatInfoModel MatInfoSpec MatInfoProofs MatInfoProofs2 MatInfoProofs3 MatInfoProofs4 MatInfoProofs5 MatInfoProofs6 MatInfoProofs7 MatInfoProofs8.
Open Scope nat_scope.

(** ** C103 get_info *)
(** the element table: rows ordered by submaterial and symbol, one for each symbol present in each submaterial, with the sum
    of the fractions of its zaids, and that sum relative to the submaterial and to the material *)
Theorem C103_element_table : forall E zaids m rows el, wf_table (l_iso (m_lib E)) -> wf_material m -> Forall consistent (mt_subs m) -> mat_info E zaids m = Ok (rows, el) ->
  StronglySorted row_lt el /\
  (forall k e, (exists r, In r el /\ e_sub r = k /\ e_elem r = e) <-> exists s z, nth_sub m k s /\ In z (s_zaids s) /\ symbol_of E z e) /\
  (forall r, In r el -> exists s, nth_sub m (e_sub r) s /\
    (forall p, picks p (fun y => symbol_of E y (e_elem r)) (s_zaids s) -> (e_frac r == total (filter p (s_zaids s)))%Q) /\
    ratio (e_subfrac r) (e_frac r) (total (s_zaids s)) /\ ratio (e_matfrac r) (e_frac r) (tot_fraction m)).
Proof. exact info_elem. Qed.
Print Assumptions C103_element_table.
(** the parts of a submaterial, and those of the material, add up to one *)
Theorem C103_parts_add_up_to_one : forall E zaids m rows el, wf_table (l_iso (m_lib E)) -> wf_material m -> Forall consistent (mt_subs m) -> mat_info E zaids m = Ok (rows, el) ->
  (forall k s, nth_sub m k s -> ~ (total (s_zaids s) == 0)%Q -> (osum (map e_subfrac (filter (fun r => Nat.eqb (e_sub r) k) el)) == 1)%Q) /\
  (~ (tot_fraction m == 0)%Q -> (osum (map e_matfrac el) == 1)%Q).
Proof. exact info_sums. Qed.
Print Assumptions C103_parts_add_up_to_one.
(** the element table does not depend on the level asked for the other one *)
Theorem C103_same_element_table_at_both_levels : forall E m,
  ((exists x, mat_info E true m = Ok x) <-> (exists y, mat_info E false m = Ok y)) /\
  (wf_table (l_iso (m_lib E)) -> wf_material m -> Forall consistent (mt_subs m) -> forall r1 el1 r2 el2, mat_info E true m = Ok (r1, el1) -> mat_info E false m = Ok (r2, el2) ->
   Forall2 (fun a b => e_sub a = e_sub b /\ e_elem a = e_elem b /\ (e_frac a == e_frac b)%Q /\
    (match e_subfrac a, e_subfrac b with Some x, Some y => (x == y)%Q | None, None => True | _, _ => False end) /\
    (match e_matfrac a, e_matfrac b with Some x, Some y => (x == y)%Q | None, None => True | _, _ => False end)) el1 el2).
Proof. intros E m. split; [split; intros [x H]; exact (info_both E _ _ m x H)|]. intros W WM C r1 el1 r2 el2. exact (info_levels E m r1 el1 r2 el2 W WM C). Qed.
Print Assumptions C103_same_element_table_at_both_levels.
(** the complete table, zaid level: submaterial by submaterial, the nuclides as the card shows them, with their atom and
    mass fractions *)
Theorem C103_zaid_rows : forall E m rows el, wf_table (l_iso (m_lib E)) -> wf_material m -> Forall consistent (mt_subs m) -> has_masses E m -> mat_info E true m = Ok (rows, el) ->
  exists blocks, rows = concat blocks /\ length blocks = length (mt_subs m) /\ forall k s, nth_sub m k s -> exists bl, nth_error blocks (k - 1) = Some bl /\
    Forall2 (fun z r => row_for E m k (s_zaids s) (fun y => nuclide y = nuclide z) r /\ symbol_of E z (c_elem r) /\ exists l, c_iso r = Some l /\ label_of E z l) (shown s) bl.
Proof. exact info_zaid_rows. Qed.
Print Assumptions C103_zaid_rows.
(** element level: one row for each element in order of appearance *)
Theorem C103_element_rows : forall E m rows el, wf_table (l_iso (m_lib E)) -> wf_material m -> Forall consistent (mt_subs m) -> has_masses E m -> mat_info E false m = Ok (rows, el) ->
  exists blocks, rows = concat blocks /\ length blocks = length (mt_subs m) /\ forall k s, nth_sub m k s -> exists bl, nth_error blocks (k - 1) = Some bl /\
    Forall2 (fun e r => row_for E m k (s_zaids s) (fun y => z_elem y = e) r /\ c_iso r = None /\ forall z, In z (s_zaids s) -> z_elem z = e -> symbol_of E z (c_elem r)) (firsts (map z_elem (s_zaids s))) bl.
Proof. exact info_elem_rows. Qed.
Print Assumptions C103_element_rows.
(** a list of materials: their tables one after the other; no material, or a material without submaterials, is an error *)
Theorem C103_lists : forall E zaids l,
  (forall ts, Forall2 (fun m t => mat_info E zaids m = Ok t) l ts -> l <> [] ->
    list_info E zaids l = Ok (concat (map (fun mt => map (fun r => (mt_name (fst mt), r)) (fst (snd mt))) (combine l ts)),
                              concat (map (fun mt => map (fun r => (mt_name (fst mt), r)) (snd (snd mt))) (combine l ts)))) /\
  list_info E zaids [] = Err ValueError /\ (forall n, mat_info E zaids (mkmat n []) = Err ValueError).
Proof. intros E zaids l. split; [|split; [reflexivity|intros n; destruct zaids; reflexivity]]. intros ts F Ne. unfold list_info.
  assert (M : mapM (fun m => do t <- mat_info E zaids m; Ok (map (fun r => (mt_name m, r)) (fst t), map (fun r => (mt_name m, r)) (snd t))) l =
    Ok (map (fun mt => (map (fun r => (mt_name (fst mt), r)) (fst (snd mt)), map (fun r => (mt_name (fst mt), r)) (snd (snd mt)))) (combine l ts))).
  { clear Ne. induction F as [|m t l ts H F IH]; [reflexivity|]. cbn [mapM combine map fst snd]. rewrite H. cbn [bind]. rewrite IH. reflexivity. }
  rewrite M. cbn [bind]. destruct F as [|m t l ts H F]; [congruence|]. cbn [combine map]. rewrite !map_map. reflexivity. Qed.
Print Assumptions C103_lists.
Definition water_steel : material := mkmat (s2l "m1") [mk_submat [zd 2 "1" "001" "31c"; zd 1 "8" "016" "31c"]; mk_submat [zd 1 "26" "056" "31c"; zd (1#2) "26" "054" "31c"; zd (1#2) "1" "001" "31c"]].
Definition ws_m : Prop := wf_table (l_iso (m_lib denv)) /\ wf_material water_steel /\ Forall consistent (mt_subs water_steel) /\ has_masses denv water_steel /\ atom_material water_steel.
Example C103_witness : ws_m /\ exists rows el, mat_info denv false water_steel = Ok (rows, el) /\ map (fun r => (e_sub r, e_elem r)) el = [(1, s2l "H"); (1, s2l "O"); (2, s2l "Fe"); (2, s2l "H")] /\ length rows = 4.
Proof. split; [split; [exact C21_rows_are_well_formed|]|].
  - split; [|split; [repeat constructor|split; [|split; [|vm_compute; reflexivity]]]].
    + assert (D : forall (s : str), forallb (fun c => negb (Ascii.eqb c dot)) s = true -> ~ In dot s) by (intros s H Q; rewrite forallb_forall in H; specialize (H _ Q); discriminate).
      repeat (constructor; [split; [reflexivity|split; [apply D; reflexivity|split; apply D; reflexivity]]|]). constructor.
    + intros z Hz. cbn in Hz. repeat (destruct Hz as [<-|Hz]; [eexists; split; [vm_compute; reflexivity|vm_compute; reflexivity]|]). destruct Hz.
    + intros z Hz. cbn in Hz. repeat (destruct Hz as [<-|Hz]; [vm_compute; discriminate|]). destruct Hz.
  - eexists. eexists. split; [vm_compute; reflexivity|]. split; vm_compute; reflexivity. Qed.

(** ** C104 the in-line information *)
(** every zaid written by the card gets its formula, its percentage in its element, and the mass fraction of its element in
    its submaterial; the percentages of an element add up to 100 *)
Theorem C104_in_line_information : forall E m t, wf_table (l_iso (m_lib E)) -> wf_material m -> has_masses E m -> atom_material m \/ mass_material m -> update_info E m = Ok t ->
  Forall2 (fun s b => map (map fst) b = collapse (s_zaids s) /\ forall z i, In (z, i) (concat b) -> inl_for E m (s_zaids s) z i) (mt_subs m) t /\
  forall b g, In b t -> In g b -> (qsum (map (fun zi => in_ab (snd zi)) g) == 100)%Q.
Proof. intros E m t W WM HM A U. split; [now apply update_info_ok|exact (update_sums E m t W WM HM A U)]. Qed.
Print Assumptions C104_in_line_information.
(** it is computed whenever the zaids are known, no submaterial is empty and no element has fractions adding up to zero *)
Theorem C104_when_it_exists : forall E m, wf_table (l_iso (m_lib E)) -> wf_material m -> has_masses E m -> atom_material m \/ mass_material m ->
  (forall s, In s (mt_subs m) -> s_zaids s <> []) -> (forall z, In z (all_zaids m) -> known E z) ->
  (forall s z p, In s (mt_subs m) -> In z (s_zaids s) -> picks p (fun y => z_elem y = z_elem z) (s_zaids s) -> ~ (total (filter p (s_zaids s)) == 0)%Q) ->
  exists t, update_info E m = Ok t.
Proof. exact update_total. Qed.
Print Assumptions C104_when_it_exists.
(** otherwise translate raises, after having translated the material: an element with fraction zero ... *)
Theorem C104_zero_element_refuted : exists E nl m m', translate_mat E nl m = (m', None) /\ m' <> m /\ translate_full E nl m = (m', Err ZeroDivisionError).
Proof. exists denv, (ToLib (s2l "31c")), (mkmat (s2l "m1") [mk_submat [zd 1 "1" "001" "21c"; zd 0 "3" "006" "21c"]]). eexists. split; [vm_compute; reflexivity|]. split; [|vm_compute; reflexivity].
  intros Q. apply (f_equal (fun m => map z_lib (all_zaids m))) in Q. vm_compute in Q. discriminate. Qed.
Print Assumptions C104_zero_element_refuted.
(** ... or a submaterial none of whose zaids could be translated *)
Theorem C104_lost_submaterial_refuted : exists E nl m m', translate_mat E nl m = (m', None) /\ translate_full E nl m = (m', Err KeyError) /\ exists s, In s (mt_subs m') /\ s_zaids s = [].
Proof. exists denv, (ToLib (s2l "31c")), (mkmat (s2l "m1") [mk_submat [zd 1 "1" "001" "21c"]; mk_submat [zd 1 "8" "016" "21c"]]). eexists. split; [vm_compute; reflexivity|]. split; [vm_compute; reflexivity|]. eexists. split; [right; left; reflexivity|reflexivity]. Qed.
Print Assumptions C104_lost_submaterial_refuted.
Example C104_witness : ws_m /\ (forall s, In s (mt_subs water_steel) -> s_zaids s <> []) /\ (forall z, In z (all_zaids water_steel) -> known denv z) /\
  exists t, update_info denv water_steel = Ok t /\ map (fun b => map (map (fun zi => in_name (snd zi))) b) t = [[[s2l "H-1"]; [s2l "O-16"]]; [[s2l "Fe-56"; s2l "Fe-54"]; [s2l "H-1"]]].
Proof. split; [exact (proj1 C103_witness)|]. split; [|split].
  - intros s Hs. cbn in Hs. repeat (destruct Hs as [<-|Hs]; [discriminate|]). destruct Hs.
  - intros z Hz. cbn in Hz. assert (K : forall z, match fullname denv z with Ok _ => true | Err _ => false end = true -> known denv z).
    { clear. intros z H. destruct (fullname denv z) as [f|] eqn:F; [|discriminate]. destruct (fullname_ok denv z f C21_rows_are_well_formed F) as [S [_ [a [P _]]]]. eexists. exists (symb denv z), a. split; [exact S|]. split; [exact P|reflexivity]. }
    repeat (destruct Hz as [<-|Hz]; [apply K; vm_compute; reflexivity|]). destruct Hz.
  - eexists. split; vm_compute; reflexivity. Qed.

(** ** C105 from_zaids *)
Theorem C105_every_entry_is_translated : forall E zs zl lib name id h m i, wf_table (l_iso (m_lib E)) -> Forall2 (entry E) zs zl -> from_zaids E zs lib name id = Ok (h, m, i) ->
  h = s2l "C " ++ name /\ mt_name m = s2l "M" ++ str_of_Z id /\
  exists s blocks, mt_subs m = [s] /\ Forall2 (translated E (ToLib lib)) zl blocks /\ s_zaids s = concat blocks /\ s_zaids s <> [] /\ consistent s /\ update_info E m = Ok i.
Proof. intros E zs zl lib name id h m i W F H. destruct (entries_ok E zs zl W F) as [M Wz]. unfold from_zaids in H. rewrite M in H. cbn [bind] in H.
  destruct (translate_sub E (ToLib lib) (mk_submat zl)) as [s|] eqn:T; [|discriminate]. cbn [bind] in H. destruct (translate_sub_ok E (ToLib lib) (mk_submat zl) s I Wz T) as [blocks [B1 [B2 C]]].
  destruct (update_info E (mk_material (s2l "M" ++ str_of_Z id) [s])) as [i'|] eqn:U; [|discriminate]. cbn [bind] in H.
  assert (Hh : h = s2l "C " ++ name /\ m = mk_material (s2l "M" ++ str_of_Z id) [s] /\ i = i') by (split; [exact (f_equal (fun r => match r with Ok (x, _, _) => x | Err _ => h end) (eq_sym H))|split; [exact (f_equal (fun r => match r with Ok (_, x, _) => x | Err _ => m end) (eq_sym H))|exact (f_equal (fun r => match r with Ok (_, _, x) => x | Err _ => i end) (eq_sym H))]]).
  clear H. destruct Hh as [-> [-> ->]]. split; [reflexivity|]. split; [reflexivity|]. exists s, blocks.
  assert (Ne : s_zaids s <> []). { intros Q. unfold mk_material in U. rewrite Q in U. rewrite no_subs_info in U. discriminate. }
  split; [unfold mk_material; cbn [mt_subs]; destruct (s_zaids s); [congruence|reflexivity]|]. split; [exact B1|]. split; [exact B2|]. split; [exact Ne|]. split; [exact C|exact U]. Qed.
Print Assumptions C105_every_entry_is_translated.
(** nothing translatable: ValueError; an unknown symbol: KeyError *)
Theorem C105_nothing_left : forall E zs zl lib name id, wf_table (l_iso (m_lib E)) -> Forall2 (entry E) zs zl ->
  (forall s, translate_sub E (ToLib lib) (mk_submat zl) = Ok s -> s_zaids s = []) -> (exists s, translate_sub E (ToLib lib) (mk_submat zl) = Ok s) ->
  from_zaids E zs lib name id = Err ValueError.
Proof. intros E zs zl lib name id W F H [s T]. destruct (entries_ok E zs zl W F) as [M Wz]. unfold from_zaids. rewrite M. cbn [bind]. rewrite T. cbn [bind]. unfold mk_material. rewrite (H s T), no_subs_info. reflexivity. Qed.
Print Assumptions C105_nothing_left.
Theorem C105_unknown_symbol : forall E zs zl e rest f more lib name id, wf_table (l_iso (m_lib E)) -> Forall2 (entry E) zs zl -> word e -> (forall c r, rest = c :: r -> is_letter c = false) ->
  (forall r, In r (l_iso (m_lib E)) -> r_E r <> e) -> from_zaids E (zs ++ (e ++ rest, f) :: more) lib name id = Err KeyError.
Proof. intros E zs zl e rest f more lib name id W F [We Le] Hr No. destruct (entries_ok E zs zl W F) as [M _]. unfold from_zaids.
  assert (FL : first_letters (e ++ rest) = Some e).
  { destruct e as [|c e]; [congruence|]. inversion Le; subst. cbn [app first_letters]. rewrite H1. cbn [span_letters]. rewrite H1. assert (S : span_letters (e ++ rest) = (e, rest)); [|rewrite S; reflexivity].
    clear -H2 Hr. induction H2 as [|x l Hx Hl IH]; [|cbn [app span_letters]; rewrite Hx, IH; reflexivity]. cbn [app]. destruct rest as [|c r]; [reflexivity|]. cbn [span_letters]. rewrite (Hr c r eq_refl). reflexivity. }
  assert (En : entry_zaid E (e ++ rest, f) = Err KeyError).
  { unfold entry_zaid, get_zaidnum. cbn [fst snd]. rewrite FL. cbn [of_opt bind]. destruct (row_by_E (l_iso (m_lib E)) e) as [r|] eqn:R; [|reflexivity]. exfalso. unfold row_by_E in R. apply find_some in R. destruct R as [R1 R2]. apply str_eqb_eq in R2. exact (No r R1 R2). }
  assert (MM : mapM (entry_zaid E) (zs ++ (e ++ rest, f) :: more) = Err KeyError).
  { clear -M En. revert zl M. induction zs as [|x zs IH]; intros zl M; cbn [app mapM] in *; [rewrite En; reflexivity|]. destruct (entry_zaid E x) as [z|]; [|discriminate]. cbn [bind] in *. destruct (mapM (entry_zaid E) zs) as [l|]; [|discriminate]. rewrite (IH l eq_refl). reflexivity. }
  rewrite MM. reflexivity. Qed.
Print Assumptions C105_unknown_symbol.
Example C105_witness : Forall2 (entry denv) [(formula (s2l "H") 1, (-1#10)%Q); (s2l "26056", (-9#10)%Q)] [mkzaid (-1#10) (s2l "1") (s2l "001") None; mkzaid (-9#10) (s2l "26") (s2l "056") None] /\
  exists h m i, from_zaids denv [(formula (s2l "H") 1, (-1#10)%Q); (s2l "26056", (-9#10)%Q)] (s2l "31c") (s2l "steel") 7 = Ok (h, m, i) /\ h = s2l "C steel" /\ map z_name (all_zaids m) = [s2l "1001.31c"; s2l "26056.81c"].
Proof. split.
  - constructor; [|constructor; [|constructor]].
    + apply (E_formula denv (s2l "H") 1%N 1%N); try reflexivity.
      * split; [eexists; split; [vm_compute; left; reflexivity|split; reflexivity]|]. assert (B : forallb (fun r => Bool.eqb (N.eqb (r_Z r) 1) (str_eqb (r_E r) (s2l "H"))) (l_iso (m_lib denv)) = true) by (vm_compute; reflexivity).
        intros r Hr. rewrite forallb_forall in B. specialize (B r Hr). apply eqb_prop in B. rewrite <- N.eqb_eq, <- str_eqb_eq, B. reflexivity.
      * exists 0%N, 0%N, 1%N. split; [reflexivity|]. repeat split; reflexivity.
    + apply E_number; [repeat constructor|vm_compute; lia|reflexivity|reflexivity|reflexivity|reflexivity].
  - eexists. eexists. eexists. split; [vm_compute; reflexivity|]. split; vm_compute; reflexivity. Qed.
