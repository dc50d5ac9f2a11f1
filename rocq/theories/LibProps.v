(** C19-C21, C47: nuclear data libraries, zaid names and the shipped isotope table. *)
From Coq Require Import Lqa.
From Verif Require Import PyBase PyLemmas PyStr PyStrLemmas PyText D1SProofs2 LibModel LibSpec LibProofs LibProofs2 LibProofs3 IsoData.
Open Scope nat_scope.

(** The hypotheses on a library manager: library suffixes are the keys of a dictionary, and the
    isotope table is well formed.  The shipped table is (C21 below). *)
Definition good (m : libman) : Prop := NoDup (map fst (l_data m)) /\ wf_table (l_iso m).

(** ** C19 convertZaid *)
(** a nuclide present in the requested library is translated to itself, fraction 1 *)
Theorem C19_available_zaid_is_kept : forall m zaid lib, good m -> carries m lib zaid ->
  convertZaid m zaid lib = Ok [(zaid, (Some lib, 1%Q, 1%Q))].
Proof. intros m zaid lib [D _]. now apply conv_one. Qed.
Print Assumptions C19_available_zaid_is_kept.

(** Every successful translation is one of five: the zaid itself in the library, its natural
    element in the library, the zaid in the default library, the zaid with no library because
    another library for the same particle has it, or - for a natural element the library lacks -
    exactly its isotopes of the table, each with its tabulated abundance and mass. *)
Theorem C19_every_answer_is_documented : forall m zaid lib tr, good m -> convertZaid m zaid lib = Ok tr ->
  (carries m lib zaid /\ tr = [(zaid, (Some lib, 1%Q, 1%Q))]) \/
  (exists el, ~ natural zaid /\ (exists d, zaid = el ++ d /\ length d <= 3 /\ (3 <= length zaid -> length d = 3)) /\
     ~ carries m lib zaid /\ carries m lib (el ++ s2l "000") /\ tr = [(el ++ s2l "000", (Some lib, 1%Q, 1%Q))]) \/
  (~ natural zaid /\ ~ carries m lib zaid /\ carries m (l_default m) zaid /\ tr = [(zaid, (Some (l_default m), 1%Q, 1%Q))]) \/
  (~ natural zaid /\ ~ carries m lib zaid /\ ~ carries m (l_default m) zaid /\
     (exists l, same_particle l lib /\ carries m l zaid) /\ tr = [(zaid, (None, 1%Q, 1%Q))]) \/
  (natural zaid /\ ~ carries m lib zaid /\ exists z,
     parse_int (but3 zaid) = Ok z /\
     map (fun e => (fst e, snd (fst (snd e)), snd (snd e))) tr =
       map (fun r => (r_idx r, r_abund r, r_mass r)) (filter (fun r => Z.eqb (Z.of_N (r_Z r)) z) (l_iso m)) /\
     Forall (fun e => exists l, fst (fst (snd e)) = Some l /\ carries m l (fst e) /\
                        (l = lib \/ (l = l_default m /\ ~ carries m lib (fst e)))) tr).
Proof. intros m zaid lib tr [D [WF N]] H. apply conv_ok in H; [|exact D|exact N]. destruct H.
  - left. auto.
  - right. left. exists (but3 zaid). split; [assumption|]. split; [|auto]. exists (last3 zaid). split; [symmetry; apply but3_last3|].
    unfold last3. rewrite skipn_length. split; lia.
  - right. right. left. auto.
  - right. right. right. left. split; [assumption|]. split; [assumption|]. split; [assumption|]. split; [exists l; auto|reflexivity].
  - right. right. right. right. split; [assumption|]. split; [assumption|]. exists z. auto. Qed.
Print Assumptions C19_every_answer_is_documented.

(** The amount: all translations add up to 1, except natural expansions, which add up to the
    sum of the element's tabulated abundances. *)
Theorem C19_amount_is_conserved : forall m zaid lib tr, good m -> convertZaid m zaid lib = Ok tr ->
  (amount tr == 1)%Q \/
  (natural zaid /\ ~ carries m lib zaid /\ forall z, parse_int (but3 zaid) = Ok (Z.of_N z) ->
     amount tr = qsum (map r_abund (filter (fun r => N.eqb (r_Z r) z) (l_iso m)))).
Proof. intros m zaid lib tr [D [WF N]] H. apply conv_ok in H; [|exact D|exact N]. destruct H; try (left; reflexivity).
  right. split; [assumption|]. split; [assumption|]. intros z0 Hz. rewrite H1 in Hz. injection Hz as ->. rewrite (amount_map _ _ H2).
  rewrite (elem_rows_eq m zaid z0 H1). reflexivity. Qed.
Print Assumptions C19_amount_is_conserved.

(** no translation changes the element *)
Theorem C19_element_is_kept : forall m zaid lib tr z, good m -> convertZaid m zaid lib = Ok tr ->
  parse_int (but3 zaid) = Ok z -> forall k v, In (k, v) tr -> parse_int (but3 k) = Ok z.
Proof. intros m zaid lib tr z [D W]. now apply conv_element. Qed.
Print Assumptions C19_element_is_kept.

(** every library written next to a zaid really has that zaid *)
Theorem C19_assigned_library_has_the_zaid : forall m zaid lib tr, good m -> convertZaid m zaid lib = Ok tr ->
  forall k l a w, In (k, (Some l, a, w)) tr -> carries m l k.
Proof. intros m zaid lib tr [D [WF N]] H k l a w Hin. apply conv_ok in H; [|exact D|exact N]. destruct H.
  - destruct Hin as [Q|[]]. inversion Q; subst; assumption.
  - destruct Hin as [Q|[]]. assert (but3 zaid ++ s2l "000" = k) by (apply (f_equal fst) in Q; exact Q). inversion Q; subst; assumption.
  - destruct Hin as [Q|[]]. inversion Q; subst; assumption.
  - destruct Hin as [Q|[]]. inversion Q.
  - rewrite Forall_forall in H3. destruct (H3 _ Hin) as [l' [E [C _]]]. cbn [fst snd] in E, C. injection E as <-. exact C. Qed.
Print Assumptions C19_assigned_library_has_the_zaid.

(** Errors: an unknown library, a malformed natural zaid, an isotope of the expansion that
    neither library has, a nuclide that no library for that particle has - or a default library
    that is not loaded. *)
Theorem C19_errors_are_justified : forall m zaid lib e, good m -> convertZaid m zaid lib = Err e ->
  (e = ValueError /\ ~ loaded m lib) \/
  (e = ValueError /\ natural zaid /\ (forall z, parse_int (but3 zaid) <> Ok z)) \/
  (e = KeyError /\ ~ loaded m (l_default m) /\ ~ carries m lib zaid) \/
  (e = ValueError /\ natural zaid /\ ~ carries m lib zaid /\ exists z r, parse_int (but3 zaid) = Ok z /\ In r (l_iso m) /\ Z.of_N (r_Z r) = z /\
       ~ carries m lib (r_idx r) /\ ~ carries m (l_default m) (r_idx r)) \/
  (e = ValueError /\ ~ natural zaid /\ (forall l, same_particle l lib -> ~ carries m l zaid)).
Proof. intros m zaid lib e [D [_ N]]. now apply conv_err. Qed.
Print Assumptions C19_errors_are_justified.

(** The nuclide is never silently dropped, except in one case ... *)
Theorem C19_nothing_vanishes : forall m zaid lib tr, good m -> convertZaid m zaid lib = Ok tr ->
  (exists r z, In r (l_iso m) /\ parse_int (but3 zaid) = Ok z /\ Z.of_N (r_Z r) = z) -> tr <> [].
Proof. intros m zaid lib tr [D [WF N]] H [r [z [Hr [Hz Er]]]]. apply conv_ok in H; [|exact D|exact N]. destruct H; try discriminate.
  intros ->. rewrite H1 in Hz. injection Hz as ->. cbn [map] in H2. symmetry in H2. apply map_eq_nil in H2.
  assert (Q : In r (filter (fun r => Z.eqb (Z.of_N (r_Z r)) z) (l_iso m))) by (apply filter_In; split; [exact Hr|now apply Z.eqb_eq]). rewrite H2 in Q. destruct Q. Qed.
Print Assumptions C19_nothing_vanishes.
(** ... a natural element with no isotope in the table and not in the library is translated to
    nothing at all, without an error.  With the shipped table that happens for Z = 113. *)
Theorem C19_nothing_vanishes_refuted : forall m zaid lib z, good m -> loaded m lib -> natural zaid -> ~ carries m lib zaid ->
  parse_int (but3 zaid) = Ok z -> (forall r, In r (l_iso m) -> Z.of_N (r_Z r) <> z) -> convertZaid m zaid lib = Ok [].
Proof. intros m zaid lib z [D [WF N]] [x Hx] Hn Hc Hz Hr. unfold convertZaid. pose proof (conv_loaded m lib x D Hx) as E. rewrite E.
  rewrite (proj2 (natural_iff zaid) Hn). destruct (zaid_has_table x zaid lib) eqn:Ex; [exfalso; apply Hc; now apply (carries_x m lib x)|].
  rewrite Hz. cbn [bind]. assert (filter (fun r => Z.eqb (Z.of_N (r_Z r)) z) (l_iso m) = []) as ->; [|reflexivity].
  destruct (filter _ (l_iso m)) as [|r l] eqn:F; [reflexivity|]. assert (Q : In r (filter (fun r => Z.eqb (Z.of_N (r_Z r)) z) (l_iso m))) by (rewrite F; left; reflexivity).
  apply filter_In in Q. destruct Q as [Q1 Q2]. apply Z.eqb_eq in Q2. now apply Hr in Q1. Qed.
Print Assumptions C19_nothing_vanishes_refuted.
(** The documentation promises ValueError when there is no translation; a default library that
    is not loaded ("81c" unless stated otherwise) gives KeyError, even if another library has
    the nuclide. *)
Theorem C19_default_library_not_loaded_refuted : forall m zaid lib, good m -> loaded m lib -> ~ natural zaid ->
  ~ carries m lib zaid -> ~ carries m lib (but3 zaid ++ s2l "000") -> ~ loaded m (l_default m) ->
  convertZaid m zaid lib = Err KeyError.
Proof. intros m zaid lib [D _] [x Hx] Hn Hc Hcn Hl. unfold convertZaid. pose proof (conv_loaded m lib x D Hx) as E. rewrite E.
  destruct (str_eqb (last3 zaid) zeros3) eqn:En; [exfalso; apply Hn; now apply natural_iff|].
  destruct (memb str_eqb lib (check4zaid m zaid)) eqn:Em; [exfalso; apply Hc; apply check4zaid_iff; now apply memb_str|].
  change zeros3 with (s2l "000"). destruct (zaid_has_table x (but3 zaid ++ s2l "000") lib) eqn:Ex; [exfalso; apply Hcn; now apply (carries_x m lib x)|].
  rewrite (default_has_unloaded m zaid D Hl). reflexivity. Qed.
Print Assumptions C19_default_library_not_loaded_refuted.

(** the zaids listed for a library are exactly its entries, each once *)
Theorem C19_library_listing_is_exact : forall m lib x, good m -> In (lib, x) (l_data m) ->
  NoDup (get_libzaids m lib) /\ (forall z, In z (get_libzaids m lib) <-> In (z, lib) x).
Proof. intros m lib x [D _]. now apply get_libzaids_spec. Qed.
Print Assumptions C19_library_listing_is_exact.
Theorem C19_availability_is_exact : forall m zaid lib, In lib (check4zaid m zaid) <-> carries m lib zaid.
Proof. exact check4zaid_iff. Qed.
Print Assumptions C19_availability_is_exact.
Theorem C19_availability_in_all_codes : forall codes lib, is_lib_available codes lib = true <-> (forall m, In m codes -> loaded m lib).
Proof. intros codes lib. unfold is_lib_available. rewrite forallb_forall. split; intros H m Hm; specialize (H m Hm).
  - apply memb_str in H. unfold libraries, dkeys in H. apply in_map_iff in H. destruct H as [[l x] [E Hx]]. simpl in E. subst. now exists x.
  - apply memb_str. unfold libraries, dkeys. destruct H as [x Hx]. apply in_map_iff. exists (lib, x). auto. Qed.
Print Assumptions C19_availability_in_all_codes.

(** ** C20 names and numbers *)
Theorem C20_name_then_number : forall t z e a s, wf_table t -> symbol t z e -> zaid_text z a s ->
  exists name, get_zaidname t s = Ok (name, formula e a) /\ get_zaidnum t (formula e a) = Ok s.
Proof. intros t z e a s [WF _] S T. destruct (get_zaidname_ok t z e a s (symbol_W1 _ _ _ S) T) as [nm H]. exists nm. split; [exact H|].
  pose proof T as T'. apply zaid_text_fmt in T. destruct T as [Ha ->]. apply get_zaidnum_formula; [now apply symbol_W2| |exact Ha]. destruct S as [[r [Hr [_ <-]]] _]. now apply WF. Qed.
Print Assumptions C20_name_then_number.
Theorem C20_number_then_name : forall t z e a, wf_table t -> symbol t z e -> (a < 1000)%N ->
  exists s name, get_zaidnum t (formula e a) = Ok s /\ zaid_text z a s /\ get_zaidname t s = Ok (name, formula e a).
Proof. intros t z e a [WF _] S Ha. assert (T : zaid_text z a (str_of_N z ++ fmt03 a)) by (apply zaid_text_fmt; auto).
  destruct (get_zaidname_ok t z e a _ (symbol_W1 _ _ _ S) T) as [nm H]. exists (str_of_N z ++ fmt03 a), nm. split; [|auto].
  apply get_zaidnum_formula; [now apply symbol_W2| |exact Ha]. destruct S as [[r [Hr [_ <-]]] _]. now apply WF. Qed.
Print Assumptions C20_number_then_name.
(** the two readers of formulas agree on "EA" *)
Theorem C20_formula_readers_agree : forall t z e a, wf_table t -> symbol t z e -> (a < 1000)%N ->
  exists s, zaid_text z a s /\ get_formulazaid t (e ++ str_of_N a) = Ok s /\ get_zaidnum t (e ++ str_of_N a) = Ok s.
Proof. intros t z e a [WF _] S Ha. exists (str_of_N z ++ fmt03 a). split; [apply zaid_text_fmt; auto|].
  apply get_formulazaid_eq; [now apply symbol_W2| |exact Ha]. destruct S as [[r [Hr [_ <-]]] _]. now apply WF. Qed.
Print Assumptions C20_formula_readers_agree.
(** With the shipped table the round trip holds for every element but nobelium ... *)
Theorem C20_shipped_name_then_number : forall r a s, In r shipped -> r_Z r <> 102%N -> zaid_text (r_Z r) a s ->
  exists name f, get_zaidname shipped s = Ok (name, f) /\ get_zaidnum shipped f = Ok s.
Proof. intros r a s Hr Hz T.
  assert (B : forallb (fun r => N.eqb (r_Z r) 102 || (wordb (r_E r) && match row_by_Z shipped (Z.of_N (r_Z r)), row_by_E shipped (r_E r) with Some q, Some q' => str_eqb (r_E q) (r_E r) && N.eqb (r_Z q') (r_Z r) | _, _ => false end)) shipped = true) by (vm_compute; reflexivity).
  rewrite forallb_forall in B. apply B in Hr. apply orb_true_iff in Hr. destruct Hr as [Hr|Hr]; [apply N.eqb_eq in Hr; contradiction|].
  apply andb_true_iff in Hr. destruct Hr as [Hw Hr]. destruct (row_by_Z shipped (Z.of_N (r_Z r))) as [q|] eqn:E1; [|discriminate]. destruct (row_by_E shipped (r_E r)) as [q'|] eqn:E2; [|discriminate].
  apply andb_true_iff in Hr. destruct Hr as [Ha Hb]. apply str_eqb_eq in Ha. apply N.eqb_eq in Hb. apply wordb_ok in Hw.
  destruct (get_zaidname_ok shipped (r_Z r) (r_E r) a s) as [nm H]; [exists q; auto|exact T|]. exists nm, (formula (r_E r) a). split; [exact H|].
  apply zaid_text_fmt in T. destruct T as [Hl ->]. apply get_zaidnum_formula; auto. exists q'. auto. Qed.
Print Assumptions C20_shipped_name_then_number.
(** ... whose row (Z = 102) carries the symbol of niobium, Nb: zaid 102259 becomes 41259. *)
Theorem C20_nobelium_becomes_niobium_refuted : forall a s, zaid_text 102 a s ->
  exists s', get_zaidname shipped s = Ok (s2l "Nobelium", formula (s2l "Nb") a) /\ get_zaidnum shipped (formula (s2l "Nb") a) = Ok s' /\ zaid_text 41 a s'.
Proof. intros a s T. pose proof T as T0. apply zaid_text_fmt in T0. destruct T0 as [Ha E]. exists (str_of_N 41 ++ fmt03 a). split; [|split].
  - subst s. unfold get_zaidname. rewrite before_dot_no by (apply digits_no_dot, Forall_app; split; [apply str_of_N_digits|apply fmt03_digits]).
    destruct (but3_app (str_of_N 102) (fmt03 a) (fmt03_len a Ha)) as [-> ->]. rewrite parse_int_N. cbn [bind].
    assert (R : exists r, row_by_Z shipped (Z.of_N 102) = Some r /\ r_name r = s2l "Nobelium" /\ r_E r = s2l "Nb") by (eexists; split; [vm_compute; reflexivity|split; vm_compute; reflexivity]).
    destruct R as [r [-> [Hn He]]]. cbn [of_opt bind]. rewrite parse_int_fmt03. cbn [bind]. rewrite Hn, He. unfold formula. destruct (N.eqb_spec a 0) as [->|H0]; [reflexivity|].
    assert ((0 <? Z.of_N a)%Z = true) as -> by (apply Z.ltb_lt; lia). destruct a; [contradiction|reflexivity].
  - apply get_zaidnum_formula; [|apply wordb_ok; reflexivity|exact Ha]. eexists; split; [vm_compute; reflexivity|vm_compute; reflexivity].
  - apply zaid_text_fmt. auto. Qed.
Print Assumptions C20_nobelium_becomes_niobium_refuted.

(** ** C47 masses and activation reactions *)
Theorem C47_mass_of_a_tabulated_isotope : forall t r e i, wf_table t -> In r t -> e ++ i = r_idx r -> get_zaid_mass t e i = Ok (r_mass r).
Proof. intros t r e i [_ N] H. now apply get_zaid_mass_tab. Qed.
Print Assumptions C47_mass_of_a_tabulated_isotope.
(** any other zaid of a tabulated element (the natural one, but also an isotope that is not in
    the table) gets the abundance-weighted mass of the element; an unknown element KeyError *)
Theorem C47_mass_of_any_other_zaid : forall t z i, (forall r, In r t -> r_idx r <> str_of_N z ++ i) ->
  get_zaid_mass t (str_of_N z) i = if existsb (fun r => N.eqb (r_Z r) z) t
     then Ok (qsum (map (fun r => (r_mass r * r_abund r)%Q) (filter (fun r => N.eqb (r_Z r) z) t))) else Err KeyError.
Proof. exact get_zaid_mass_nat. Qed.
Print Assumptions C47_mass_of_any_other_zaid.
(** One (MT, daughter number) per row of the parent, in the order of the sheet; metastable
    daughters have 900 appended. *)
Theorem C47_reactions_of_a_parent : forall t sheets lib df z e a s anss, wf_table t -> symbol t z e -> zaid_text z a s -> (0 < a)%N ->
  dget str_eqb lib sheets = Some df ->
  Forall2 (fun r ans => fst ans = str_of_Z (a_mt r) /\
      exists z e a (mt : bool) s, symbol t z e /\ a_daughter r = formula_m e a mt /\ zaid_text z a s /\
        snd ans = s ++ (if mt then s2l "900" else []))
    (filter (fun r => str_eqb (a_parent r) (e ++ str_of_N a)) df) anss ->
  get_reactions t sheets lib s = Ok anss.
Proof. exact get_reactions_ok. Qed.
Print Assumptions C47_reactions_of_a_parent.
Theorem C47_unknown_library_has_no_reactions : forall t sheets lib parent, ~ In lib (map fst sheets) -> get_reactions t sheets lib parent = Ok [].
Proof. intros t sheets lib parent H. unfold get_reactions. rewrite (proj2 (dget_none_iff str_eqb str_eqb_eq lib sheets)); [reflexivity|exact H]. Qed.
Print Assumptions C47_unknown_library_has_no_reactions.
(** A daughter whose element is not in the table ends the list silently: the reactions of the
    rows after it are lost. *)
Theorem C47_unknown_daughter_truncates_refuted : exists sheets r1 r2 r3,
  sheets = [(s2l "98c", [r1; r2; r3])] /\ a_parent r1 = s2l "Fe56" /\ a_parent r3 = s2l "Fe56" /\
  daughter_num shipped (a_daughter r3) = Ok (s2l "25056") /\
  get_reactions shipped sheets (s2l "98c") (s2l "26056") = Ok [(s2l "16", s2l "26055")].
Proof. exists [(s2l "98c", [mkreac (s2l "Fe56") 16 (s2l "Fe55"); mkreac (s2l "Fe56") 102 (s2l "Xx57"); mkreac (s2l "Fe56") 103 (s2l "Mn56")])].
  do 3 eexists. split; [reflexivity|]. repeat split; vm_compute; reflexivity. Qed.
Print Assumptions C47_unknown_daughter_truncates_refuted.

(** ** C21 the shipped table *)
Theorem C21_rows_are_well_formed : wf_table shipped.
Proof. apply wf_tableb_ok. vm_compute. reflexivity. Qed.
Print Assumptions C21_rows_are_well_formed.
Theorem C21_abundances_are_fractions : forall r, In r shipped -> (0 < r_abund r <= 1 /\ 0 < r_mass r)%Q.
Proof. assert (B : forallb (fun r => negb (Qle_bool (r_abund r) 0) && Qle_bool (r_abund r) 1 && negb (Qle_bool (r_mass r) 0)) shipped = true) by (vm_compute; reflexivity).
  intros r Hr. rewrite forallb_forall in B. apply B in Hr. rewrite !andb_true_iff, !negb_true_iff in Hr. destruct Hr as [[H1 H2] H3].
  apply Qle_bool_iff in H2. repeat split; [|exact H2|]; apply Qnot_le_lt; rewrite <- Qle_bool_iff; congruence. Qed.
Print Assumptions C21_abundances_are_fractions.
(** abundances of an element add up to 1 within 0.00015 (argon is that far off) *)
Theorem C21_abundances_add_up : forall r, In r shipped ->
  let s := qsum (map r_abund (filter (fun q => N.eqb (r_Z q) (r_Z r)) shipped)) in (1 - (15#100000) <= s <= 1 + (1#100000))%Q.
Proof. assert (B : forallb (fun r => let s := qsum (map r_abund (filter (fun q => N.eqb (r_Z q) (r_Z r)) shipped)) in Qle_bool (1 - (15#100000)) s && Qle_bool s (1 + (1#100000))) shipped = true) by (vm_compute; reflexivity).
  intros r Hr. rewrite forallb_forall in B. apply B in Hr. cbv zeta in Hr. rewrite andb_true_iff, !Qle_bool_iff in Hr. exact Hr. Qed.
Print Assumptions C21_abundances_add_up.
Theorem C21_all_but_argon_within_1e4 : forall r, In r shipped -> r_Z r <> 18%N ->
  let s := qsum (map r_abund (filter (fun q => N.eqb (r_Z q) (r_Z r)) shipped)) in (1 - (1#10000) <= s <= 1 + (1#10000))%Q.
Proof. assert (B : forallb (fun r => N.eqb (r_Z r) 18 || let s := qsum (map r_abund (filter (fun q => N.eqb (r_Z q) (r_Z r)) shipped)) in Qle_bool (1 - (1#10000)) s && Qle_bool s (1 + (1#10000))) shipped = true) by (vm_compute; reflexivity).
  intros r Hr NA. rewrite forallb_forall in B. apply B in Hr. cbv zeta in Hr. rewrite orb_true_iff, andb_true_iff, !Qle_bool_iff, N.eqb_eq in Hr. destruct Hr as [Hr|Hr]; [contradiction|exact Hr]. Qed.
Print Assumptions C21_all_but_argon_within_1e4.
Theorem C21_argon_is_off_by_more_than_1e4_refuted : exists r, In r shipped /\ r_E r = s2l "Ar" /\
  (qsum (map r_abund (filter (fun q => N.eqb (r_Z q) (r_Z r)) shipped)) < 1 - (1#10000))%Q.
Proof. destruct (find (fun r => str_eqb (r_E r) (s2l "Ar")) shipped) as [r|] eqn:F; [|vm_compute in F; discriminate].
  exists r. split; [apply find_some in F; tauto|]. vm_compute in F. injection F as <-. split; [reflexivity|]. vm_compute. reflexivity. Qed.
Print Assumptions C21_argon_is_off_by_more_than_1e4_refuted.
(** element number and symbol determine each other for every element but Z = 41 and 102 *)
Theorem C21_symbols_are_unique : forall r, In r shipped -> r_Z r <> 41%N -> r_Z r <> 102%N -> symbol shipped (r_Z r) (r_E r).
Proof. assert (B : forallb (fun r => N.eqb (r_Z r) 41 || N.eqb (r_Z r) 102 || symbolb shipped (r_Z r) (r_E r)) shipped = true) by (vm_compute; reflexivity).
  intros r Hr H1 H2. rewrite forallb_forall in B. apply B in Hr. rewrite !orb_true_iff, !N.eqb_eq in Hr. destruct Hr as [[Hr|Hr]|Hr]; try contradiction. now apply symbolb_ok. Qed.
Print Assumptions C21_symbols_are_unique.
(** so an expansion with the shipped table conserves the amount within 0.00015 *)
Theorem C19_shipped_amount_within_tolerance : forall data dflt zaid lib tr z, good (mklib data dflt shipped) ->
  convertZaid (mklib data dflt shipped) zaid lib = Ok tr -> tr <> [] -> parse_int (but3 zaid) = Ok (Z.of_N z) -> (1 - (15#100000) <= amount tr <= 1 + (1#100000))%Q.
Proof. intros data dflt zaid lib tr z G H Hne Hz. destruct (C19_amount_is_conserved _ _ _ _ G H) as [E|[Hn [Hc E]]].
  - rewrite E. split; [lra|lra].
  - specialize (E z Hz). cbn [l_iso] in E. rewrite E.
    destruct (filter (fun r => N.eqb (r_Z r) z) shipped) as [|r l] eqn:F.
    + exfalso. apply Hne. destruct (C19_every_answer_is_documented _ _ _ _ G H) as [[_ ->]|[[el [_ [_ [_ [_ ->]]]]]|[[_ [_ [_ ->]]]|[[_ [_ [_ [_ ->]]]]|[_ [_ [z' [Hz' [Hm _]]]]]]]]]; try (unfold amount in E; cbn in E; discriminate).
      rewrite Hz in Hz'. injection Hz' as <-. rewrite (elem_rows_eq (mklib data dflt shipped) zaid z Hz) in Hm. cbn [l_iso] in Hm. rewrite F in Hm. cbn [map] in Hm. now apply map_eq_nil in Hm.
    + assert (Hr : In r (filter (fun r => N.eqb (r_Z r) z) shipped)) by (rewrite F; left; reflexivity). apply filter_In in Hr. destruct Hr as [Hr1 Hr2]. apply N.eqb_eq in Hr2.
      rewrite <- F. rewrite <- Hr2. exact (C21_abundances_add_up r Hr1). Qed.
Print Assumptions C19_shipped_amount_within_tolerance.

(** Concrete library manager: 31c has hydrogen isotopes and natural carbon, 81c has lithium. *)
Definition demo : libman := mklib
  [(s2l "31c", [(s2l "1001", s2l "31c"); (s2l "1002", s2l "31c"); (s2l "6000", s2l "31c"); (s2l "3006", s2l "31c")]);
   (s2l "81c", [(s2l "3007", s2l "81c"); (s2l "26056", s2l "81c")]);
   (s2l "21c", [(s2l "95242", s2l "21c")])] (s2l "81c") shipped.
Example C19_witness : good demo /\
  convertZaid demo (s2l "1001") (s2l "31c") = Ok [(s2l "1001", (Some (s2l "31c"), 1, 1))]%Q /\
  convertZaid demo (s2l "6012") (s2l "31c") = Ok [(s2l "6000", (Some (s2l "31c"), 1, 1))]%Q /\
  convertZaid demo (s2l "26056") (s2l "31c") = Ok [(s2l "26056", (Some (s2l "81c"), 1, 1))]%Q /\
  convertZaid demo (s2l "95242") (s2l "31c") = Ok [(s2l "95242", (None, 1, 1))]%Q /\
  (exists a b ma mb, convertZaid demo (s2l "3000") (s2l "31c") = Ok [(s2l "3006", (Some (s2l "31c"), a, ma)); (s2l "3007", (Some (s2l "81c"), b, mb))]) /\
  convertZaid demo (s2l "8016") (s2l "31c") = Err ValueError /\ convertZaid demo (s2l "8000") (s2l "31c") = Err ValueError /\
  convertZaid demo (s2l "113000") (s2l "31c") = Ok [].
Proof. split.
  - split; [|exact C21_rows_are_well_formed]. apply nodupb_ok. vm_compute. reflexivity.
  - repeat split; try (vm_compute; reflexivity). do 4 eexists. vm_compute. reflexivity. Qed.
Example C20_witness : symbol shipped 26 (s2l "Fe") /\ zaid_text 26 56 (s2l "26056") /\
  get_zaidname shipped (s2l "26056.31c") = Ok (s2l "iron", s2l "Fe-56") /\ get_zaidnum shipped (s2l "Fe-56") = Ok (s2l "26056") /\
  get_zaidnum shipped (s2l "H") = Ok (s2l "1000") /\ get_formulazaid shipped (s2l "U235") = Ok (s2l "92235").
Proof. split; [apply symbolb_ok; vm_compute; reflexivity|]. split; [exists 0%N, 5%N, 6%N; vm_compute; repeat split|]. vm_compute. repeat split. Qed.
Example C47_witness : get_zaid_mass shipped (s2l "1") (s2l "001") = Ok (1007825032 # 1000000000)%Q /\
  get_reactions shipped [(s2l "98c", [mkreac (s2l "Ag107") 102 (s2l "Ag108m"); mkreac (s2l "Ag107") 102 (s2l "Ag108"); mkreac (s2l "Ag109") 16 (s2l "Ag108")])] (s2l "98c") (s2l "47107")
    = Ok [(s2l "102", s2l "47108900"); (s2l "102", s2l "47108")].
Proof. split; vm_compute; reflexivity. Qed.
