From Coq Require Import Lia Lqa Sorted.
From Verif Require Import PyBase PyLemmas PyStr PyStrLemmas PyText D1SModel D1SProofs2 LibModel LibSpec MatModel MatSpec MatProofs MatProofs2 MatProofs3 MatInfoModel MatInfoSpec MatInfoProofs MatInfoProofs2 MatInfoProofs3 MatInfoProofs4.
Open Scope nat_scope.

Lemma f2_len {A B} (R : A -> B -> Prop) l l' : Forall2 R l l' -> length l = length l'.
Proof. induction 1; cbn [length]; congruence. Qed.
Lemma combine_self {A B C} (f : A -> B) (g : A -> C) l : combine l (combine (map f l) (map g l)) = map (fun x => (x, (f x, g x))) l.
Proof. induction l as [|x l IH]; [reflexivity|]. cbn [map combine]. now rewrite IH. Qed.
Lemma numbered_nth {A} (l : list A) i : nth_error (numbered l) i = option_map (fun x => (S i, x)) (nth_error l i).
Proof. unfold numbered. assert (G : forall b, nth_error (combine (seq b (length l)) l) i = option_map (fun x => (b + i, x)) (nth_error l i)); [|exact (G 1)].
  revert i. induction l as [|x l IH]; intros i b; [destruct i; reflexivity|]. destruct i as [|i]; cbn [length seq combine nth_error option_map]; [now rewrite Nat.add_0_r|]. rewrite IH. replace (S b + i) with (b + S i) by lia. reflexivity. Qed.
Lemma numbered_length {A} (l : list A) : length (numbered l) = length l.
Proof. unfold numbered. rewrite combine_length, seq_length. lia. Qed.
Lemma info_blocks E b m rows el : wf_table (l_iso (m_lib E)) -> Forall consistent (mt_subs m) -> has_masses E m -> mat_info E b m = Ok (rows, el) ->
  let blk k s := complete k (lvl E b s) (lvl E b (mk_submat (withf (cfrac Atom E m) (s_zaids s)))) (lvl E b (mk_submat (withf (cfrac Mass E m) (s_zaids s)))) in
  rows = concat (map (fun x => blk (fst x) (snd x)) (numbered (mt_subs m))) /\
  (must_switch Atom (tot_fraction m) = true -> ~ (norm Atom E m == 0)%Q).
Proof. intros W C HM H blk. destruct (mat_info_ok E b m rows el W H) as [sa [sm [SA [SM [_ [_ [_ [R _]]]]]]]].
  destruct (switch_copy_ok Atom E m sa HM C SA) as [-> N]. destruct (switch_copy_ok Mass E m sm HM C SM) as [-> _]. split; [|exact N].
  rewrite R, combine_self, numbered_map, map_map. reflexivity. Qed.
Lemma sum_of_ext f g p zs : (forall z, In z zs -> (f z == g z)%Q) -> (sum_of f p zs == sum_of g p zs)%Q.
Proof. intros H. unfold sum_of. apply qsum_map_ext. intros z Hz. apply filter_In in Hz. now apply H. Qed.
Lemma info_zaid_rows E m rows el : wf_table (l_iso (m_lib E)) -> wf_material m -> Forall consistent (mt_subs m) -> has_masses E m -> mat_info E true m = Ok (rows, el) ->
  exists blocks, rows = concat blocks /\ length blocks = length (mt_subs m) /\ forall k s, nth_sub m k s -> exists bl, nth_error blocks (k - 1) = Some bl /\
    Forall2 (fun z r => row_for E m k (s_zaids s) (fun y => nuclide y = nuclide z) r /\ symbol_of E z (c_elem r) /\ exists l, c_iso r = Some l /\ label_of E z l) (shown s) bl.
Proof. intros W WM C HM H. destruct (info_blocks E true m rows el W C HM H) as [R N]. destruct (mat_info_ok E true m rows el W H) as [_ [_ [_ [_ [_ [_ [_ [_ [_ G]]]]]]]]].
  eexists. split; [exact R|]. split; [rewrite map_length; apply numbered_length|]. intros k s [Hk Hs].
  eexists. split; [rewrite nth_error_map, numbered_nth, Hs; cbn [option_map fst snd]; replace (S (k - 1)) with k by lia; reflexivity|].
  assert (Is : In s (mt_subs m)) by (eapply nth_error_In; eassumption). pose proof (all_wf m s WM Is) as Ws. rewrite Forall_forall in C. pose proof (C s Is) as Cs.
  pose proof (collapse_withf (cfrac Atom E m) (s_zaids s) Ws) as FA. pose proof (collapse_withf (cfrac Mass E m) (s_zaids s) Ws) as FM.
  rewrite <- Cs in FA, FM. fold (shown s) in FA, FM. cbn [lvl]. unfold shown at 3 4. cbn [mk_submat s_elems].
  rewrite complete_rows.
  - rewrite combine_map3, map_map. cbn [fst snd]. apply (three _ _ _ _ _ _ _) with (2 := FA) (3 := FM). intros z za zm Hz [_ Ha] [_ Hm]. cbn [fst snd]. unfold row_for. cbn [c_sub c_atom c_mass c_elem c_iso]. unfold i_elem, i_iso, i_frac, zrow. cbn [fst snd].
    destruct (proj2 (G s Is) z Hz) as [Sy Lb]. split; [|split; [exact Sy|exists (label E z); split; [reflexivity|exact Lb]]]. split; [reflexivity|]. split.
    + exists (z_frac za). split; [reflexivity|]. intros p Hp. rewrite (Ha p Hp). apply sum_of_ext. intros y Hy. apply cfrac_atom; [exact HM|eapply in_all; eassumption|exact N].
    + exists (z_frac zm). split; [reflexivity|]. intros p Hp. rewrite (Hm p Hp). apply sum_of_ext. intros y Hy. apply cfrac_mass.
  - rewrite !map_length. apply f2_len in FA. lia.
  - rewrite !map_length. apply f2_len in FM. lia. Qed.
Lemma info_elem_rows E m rows el : wf_table (l_iso (m_lib E)) -> wf_material m -> Forall consistent (mt_subs m) -> has_masses E m -> mat_info E false m = Ok (rows, el) ->
  exists blocks, rows = concat blocks /\ length blocks = length (mt_subs m) /\ forall k s, nth_sub m k s -> exists bl, nth_error blocks (k - 1) = Some bl /\
    Forall2 (fun e r => row_for E m k (s_zaids s) (fun y => z_elem y = e) r /\ c_iso r = None /\ forall z, In z (s_zaids s) -> z_elem z = e -> symbol_of E z (c_elem r)) (firsts (map z_elem (s_zaids s))) bl.
Proof. intros W WM C HM H. destruct (info_blocks E false m rows el W C HM H) as [R N]. destruct (mat_info_ok E false m rows el W H) as [_ [_ [_ [_ [_ [_ [_ [_ [_ G]]]]]]]]].
  eexists. split; [exact R|]. split; [rewrite map_length; apply numbered_length|]. intros k s [Hk Hs].
  eexists. split; [rewrite nth_error_map, numbered_nth, Hs; cbn [option_map fst snd]; replace (S (k - 1)) with k by lia; reflexivity|].
  assert (Is : In s (mt_subs m)) by (eapply nth_error_In; eassumption). pose proof (all_wf m s WM Is) as Ws. rewrite Forall_forall in C. pose proof (C s Is) as Cs.
  pose proof (collapse_groups z_frac (s_zaids s) Ws) as F0. rewrite withf_id in F0. rewrite <- Cs in F0. pose proof (collapse_groups (cfrac Atom E m) (s_zaids s) Ws) as FA. pose proof (collapse_groups (cfrac Mass E m) (s_zaids s) Ws) as FM.
  cbn [lvl]. cbn [mk_submat s_elems]. pose proof (f2_len _ _ _ F0) as L0. pose proof (f2_len _ _ _ FA) as LA. pose proof (f2_len _ _ _ FM) as LM.
  rewrite complete_rows by (rewrite !map_length; lia). rewrite combine_map3, map_map. cbn [fst snd].
  assert (Q : forall g, In g (s_elems s) -> g <> [] /\ forall z, In z g -> symbol_of E z (symb E z)).
  { intros g Hg. split; [now apply (G s Is)|]. intros z Hz. apply (G s Is). unfold shown. apply in_concat. eauto. }
  assert (Sy : forall z, In z (s_zaids s) -> symbol_of E z (symb E z)) by (apply zaid_symbols; [exact Ws|exact Cs|intros z Hz; now apply (G s Is)]).
  revert F0 FA FM Q. clear -Sy HM N Is. generalize (collapse (withf (cfrac Mass E m) (s_zaids s))) (collapse (withf (cfrac Atom E m) (s_zaids s))) (s_elems s). intros gm ga gs F0. revert gm ga.
  induction F0 as [|e g es gs [H1 _] F0 IH]; intros gm ga FA FM Q; inversion FA as [|? a ? ? [_ Ha]]; subst; inversion FM as [|? c ? ? [_ Hc]]; subst; [constructor|]. cbn [combine map fst snd]. constructor.
  - unfold row_for. cbn [c_sub c_atom c_mass c_elem c_iso]. unfold i_elem, i_iso, i_frac, grow. cbn [fst snd]. split; [|split; [reflexivity|]].
    + split; [reflexivity|]. split.
      * exists (elem_fraction a). split; [reflexivity|]. intros p Hp. rewrite Ha. rewrite (picked_sum _ p (fun y => str_eqb (z_elem y) e)) by (intros y Hy; apply eq_true_iff_eq; rewrite (Hp y Hy), str_eqb_eq; reflexivity).
        apply sum_of_ext. intros y Hy. apply cfrac_atom; [exact HM|eapply in_all; eassumption|exact N].
      * exists (elem_fraction c). split; [reflexivity|]. intros p Hp. rewrite Hc. rewrite (picked_sum _ p (fun y => str_eqb (z_elem y) e)) by (intros y Hy; apply eq_true_iff_eq; rewrite (Hp y Hy), str_eqb_eq; reflexivity).
        apply sum_of_ext. intros y Hy. apply cfrac_mass.
    + intros z Hz Ez. destruct (Q g (or_introl eq_refl)) as [Ng _]. unfold gsym. rewrite (symb_elem E (last g dz) z); [now apply Sy|]. rewrite (H1 _ (last_in g dz Ng)). symmetry. exact Ez.
  - apply IH; [assumption|assumption|]. intros g' Hg. apply Q. now right. Qed.
