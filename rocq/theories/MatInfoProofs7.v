From Coq Require Import Lia Lqa Sorted.
From Verif Require Import PyBase PyLemmas PyStr PyStrLemmas PyText D1SModel D1SProofs2 LibModel LibSpec MatModel MatSpec MatProofs MatProofs2 MatProofs3 MatInfoModel MatInfoSpec MatInfoProofs MatInfoProofs2 MatInfoProofs3 MatInfoProofs4 MatInfoProofs5 MatInfoProofs6.
Open Scope nat_scope.

Lemma numbered_forall2 {A B} (f : nat * A -> res B) (R : A -> B -> Prop) l t : mapM f (numbered l) = Ok t ->
  (forall k x y, nth_error l (k - 1) = Some x -> 1 <= k -> f (k, x) = Ok y -> R x y) -> Forall2 R l t.
Proof. intros M H. apply mapM_Forall2 in M. unfold numbered in M.
  assert (G : forall b l t, Forall2 (fun x y => f x = Ok y) (combine (seq b (length l)) l) t -> (forall k x y, nth_error l (k - b) = Some x -> b <= k -> f (k, x) = Ok y -> R x y) -> Forall2 R l t).
  { clear. intros b l. revert b. induction l as [|x l IH]; intros b t F H; cbn [length seq combine] in F; inversion F as [|? y ? t' Hy F']; subst; constructor.
    - apply (H b x y); [rewrite Nat.sub_diag; reflexivity|lia|exact Hy].
    - apply (IH (S b)); [exact F'|]. intros k x' y' Hx Hk Hf. apply (H k x' y'); [|lia|exact Hf]. replace (k - b) with (S (k - S b)) by lia. exact Hx. }
  exact (G 1 l t M H). Qed.
Lemma update_info_ok E m t : wf_table (l_iso (m_lib E)) -> wf_material m -> has_masses E m -> atom_material m \/ mass_material m -> update_info E m = Ok t ->
  Forall2 (fun s b => map (map fst) b = collapse (s_zaids s) /\ forall z i, In (z, i) (concat b) -> inl_for E m (s_zaids s) z i) (mt_subs m) t.
Proof. intros W WM HM A U. destruct (fake_ok E m HM A) as [h [c [m1 [r1 [r2 [S1 [S2 [Nc [_ [_ Hh]]]]]]]]]]. unfold update_info in U. rewrite S1 in U. cbn [bind] in U. rewrite S2 in U. cbn [bind] in U.
  destruct (mat_info E false (rebuild h m)) as [[rows el]|] eqn:MI; [|discriminate]. cbn [bind] in U. apply (numbered_forall2 _ _ _ _ U). intros k s b Hs Hk Hb. cbn [fst snd] in Hb.
  destruct (filter (fun r => Nat.eqb (e_sub r) k) el) as [|r rs] eqn:F; [discriminate|]. exact (update_sub_ok E m h c k s rows el (r :: rs) b W WM Nc Hh MI (conj Hk Hs) (eq_sym F) Hb). Qed.
(** the percentages of an element *)
Lemma update_sums E m t : wf_table (l_iso (m_lib E)) -> wf_material m -> has_masses E m -> atom_material m \/ mass_material m -> update_info E m = Ok t ->
  forall b g, In b t -> In g b -> (qsum (map (fun zi => in_ab (snd zi)) g) == 100)%Q.
Proof. intros W WM HM A U b g Hb Hg. pose proof (update_info_ok E m t W WM HM A U) as F. destruct (in_forall2_r _ _ _ _ F Hb) as [s [Hs [C I]]]. pose proof (all_wf m s WM Hs) as Ws.
  assert (Ig : In (map fst g) (collapse (s_zaids s))) by (rewrite <- C; now apply in_map). destruct (collapse_same_elem _ _ Ws Ig) as [e [_ He]].
  assert (Q : (elem_fraction (map fst g) == sum_of z_frac (fun y => str_eqb (z_elem y) e) (s_zaids s))%Q /\ (exists z, In z (map fst g))).
  { unfold collapse in Ig. apply in_map_iff in Ig. destruct Ig as [[e' g'] [Eg Hg']]. cbn [snd] in Eg. rewrite <- Eg in *.
    assert (Ne : exists z, In z (element_zaids g')). { pose proof Hg' as Hq. rewrite group_spec in Hq. apply in_map_iff in Hq. destruct Hq as [e2 [Q Hf]]. injection Q as -> <-. apply firsts_aux_in in Hf. destruct Hf as [Hf _]. apply in_map_iff in Hf. destruct Hf as [z [Ez Hz]].
      destruct (element_spec _ (filter_wf (fun z => str_eqb (z_elem z) e') _ Ws)) as [O _]. destruct (element_zaids (filter (fun z0 => str_eqb (z_elem z0) e') (s_zaids s))) as [|x l] eqn:El; [|exists x; now left]. exfalso.
      assert (In (z_name z) (firsts (map z_name (filter (fun z0 => str_eqb (z_elem z0) e') (s_zaids s))))) by (apply firsts_aux_in; split; [apply in_map, filter_In; split; [exact Hz|now apply str_eqb_eq]|intros []]). rewrite <- O in H. destruct H. }
    split; [|exact Ne]. assert (e' = e). { destruct Ne as [z Hz]. rewrite <- (He z Hz). pose proof Hg' as Hq. rewrite group_spec in Hq. apply in_map_iff in Hq. destruct Hq as [e2 [Q _]]. injection Q as -> <-. destruct (element_spec _ (filter_wf (fun z => str_eqb (z_elem z) e') _ Ws)) as [_ Fz]. rewrite Forall_forall in Fz. destruct (Fz z Hz) as [_ [[z0 [H0 N0]] _]]. apply filter_In in H0. destruct H0 as [_ H0]. apply str_eqb_eq in H0. apply nuclide_elem in N0. congruence. }
    subst e'. exact (elem_total z_frac _ e g' Ws Hg' eq_refl). }
  destruct Q as [Q [z0 Hz0]]. set (T := sum_of z_frac (fun y => str_eqb (z_elem y) e) (s_zaids s)) in *.
  assert (P : forall zi, In zi g -> ~ (T == 0)%Q /\ (in_ab (snd zi) == 100 * (z_frac (fst zi) / T))%Q).
  { intros [z i] Hz. cbn [fst snd]. destruct (I z i) as [_ [Q2 _]]; [apply in_concat; eauto|]. apply (Q2 (fun y => str_eqb (z_elem y) e)). intros y _. rewrite str_eqb_eq, (He z); [reflexivity|]. apply in_map_iff. exists (z, i). auto. }
  assert (NT : ~ (T == 0)%Q) by (apply in_map_iff in Hz0; destruct Hz0 as [zi [_ Hzi]]; apply (P zi Hzi)).
  assert (E1 : (qsum (map (fun zi => in_ab (snd zi)) g) == 100 * (elem_fraction (map fst g) / T))%Q); [|rewrite E1, Q; field; exact NT].
  unfold elem_fraction. clear -P NT. induction g as [|zi g IH]; [cbn; field; exact NT|]. cbn [map]. rewrite !qsum_cons, IH by (intros x Hx; apply P; now right). destruct (P zi (or_introl eq_refl)) as [_ ->]. field. exact NT. Qed.

(** when it succeeds *)
Lemma known_fullname E z : known E z -> exists f, fullname E z = Ok f.
Proof. intros [l [e [a [[n [r [P [F _]]]] [Pi _]]]]]. unfold fullname. rewrite P. cbn [bind]. rewrite (first_row_fun _ _ _ F). cbn [of_opt bind]. rewrite Pi. cbn [bind]. eauto. Qed.
Lemma known_nuclide E z z' : nuclide z = nuclide z' -> known E z -> known E z'.
Proof. unfold nuclide. intros N [l [e [a [[n [r [P [F Er]]]] [Pi Hl]]]]]. injection N as N1 N2 _. rewrite N1 in P. rewrite N2 in Pi. eexists. exists e, a. split; [exists n, r; auto|]. split; [exact Pi|reflexivity]. Qed.
Lemma collapse_nonempty zs g : Forall wf_zaid zs -> In g (collapse zs) -> g <> [].
Proof. intros Ws Ig. unfold collapse in Ig. apply in_map_iff in Ig. destruct Ig as [[e' g'] [<- Hq]]. cbn [snd]. rewrite group_spec in Hq. apply in_map_iff in Hq. destruct Hq as [e2 [Q Hf]]. injection Q as -> <-. apply firsts_aux_in in Hf. destruct Hf as [Hf _]. apply in_map_iff in Hf. destruct Hf as [z [Ez Hz]].
  destruct (element_spec _ (filter_wf (fun z => str_eqb (z_elem z) e') _ Ws)) as [O _]. intros El. rewrite El in O.
  assert (In (z_name z) (firsts (map z_name (filter (fun z0 => str_eqb (z_elem z0) e') zs)))) by (apply firsts_aux_in; split; [apply in_map, filter_In; split; [exact Hz|now apply str_eqb_eq]|intros []]). rewrite <- O in H. destruct H. Qed.
Lemma sub_info_total E zs : Forall wf_zaid zs -> (forall z, In z zs -> known E z) -> exists t, sub_info E (mk_submat zs) = Ok t.
Proof. intros Ws K. unfold sub_info. cbn [mk_submat s_elems]. destruct (mapM_some (elem_info E) (collapse zs)) as [l Hl]; [|rewrite Hl; cbn [bind]; eauto].
  intros g Hg. unfold elem_info. destruct (mapM_some (zaid_row E) g) as [rows Hr].
  - intros z Hz. destruct (collapse_spec zs Ws) as [_ [_ F]]. rewrite Forall_forall in F. destruct (F z) as [_ [[z0 [H0 N0]] _]]; [apply in_concat; eauto|]. destruct (known_fullname E z (known_nuclide E z0 z N0 (K z0 H0))) as [f Hf]. unfold zaid_row. rewrite Hf. cbn [bind]. eauto.
  - rewrite Hr. cbn [bind]. destruct (rev rows) as [|r rr] eqn:R; [|eauto]. exfalso. apply mapM_Forall2 in Hr. apply f2_len in Hr. assert (length (rev rows) = 0) by (rewrite R; reflexivity). rewrite rev_length in H. apply (collapse_nonempty zs g Ws Hg). destruct g; [reflexivity|cbn [length] in Hr; lia]. Qed.
Lemma mapM_pair_total {A B} (f : A -> res B) l : (forall x, In x l -> exists y, f x = Ok y) -> exists r, mapM f l = Ok r.
Proof. apply mapM_some. Qed.
Lemma update_total E m : wf_table (l_iso (m_lib E)) -> wf_material m -> has_masses E m -> atom_material m \/ mass_material m ->
  (forall s, In s (mt_subs m) -> s_zaids s <> []) -> (forall z, In z (all_zaids m) -> known E z) ->
  (forall s z p, In s (mt_subs m) -> In z (s_zaids s) -> picks p (fun y => z_elem y = z_elem z) (s_zaids s) -> ~ (total (filter p (s_zaids s)) == 0)%Q) ->
  exists t, update_info E m = Ok t.
Proof. intros W WM HM A NE K NT. destruct (fake_ok E m HM A) as [h [c [m1 [r1 [r2 [S1 [S2 [Nc [MM [HM2 Hh]]]]]]]]]]. unfold update_info. rewrite S1. cbn [bind]. rewrite S2. cbn [bind].
  set (m2 := rebuild h m) in *. pose proof (wf_rebuild h m WM) as WM2. fold m2 in WM2. pose proof (consistent_rebuild h m) as C2. fold m2 in C2.
  assert (MI : exists rows el, mat_info E false m2 = Ok (rows, el)).
  { assert (SA : exists sa, switch_copy Atom E m2 = Ok sa).
    { pose proof (norm_atom_pos E m2 HM2 MM) as N. unfold switch_copy. rewrite (must_atom m2 MM). rewrite (switch_subs_ok Atom E m2 HM2) by lra. eauto. }
    destruct SA as [sa SA]. assert (SM : switch_copy Mass E m2 = Ok (mt_subs m2)) by (unfold switch_copy; rewrite no_must_mass by (destruct MM; lra); reflexivity).
    destruct (switch_copy_ok Atom E m2 sa HM2 C2 SA) as [Esa _]. unfold mat_info. rewrite SA. cbn [bind]. rewrite SM. cbn [bind].
    match goal with |- exists rows el, bind (mapM ?f ?l) _ = _ => destruct (mapM_some f l) as [ts M] end.
    - intros [s [a c2]] Hx. cbn [fst snd]. assert (Hs : In s (mt_subs m2)) by now apply in_combine_l in Hx. apply in_combine_r in Hx. assert (Ha : In a sa) by now apply in_combine_l in Hx. assert (Hc : In c2 (mt_subs m2)) by now apply in_combine_r in Hx.
      assert (T2 : forall s, In s (mt_subs m2) -> exists t, sub_info E s = Ok t).
      { intros s0 H0. unfold m2, rebuild in H0. cbn [mt_subs] in H0. apply in_map_iff in H0. destruct H0 as [s1 [<- H1]]. apply sub_info_total; [apply withf_wf; now apply (all_wf m)|]. intros z Hz. apply in_map_iff in Hz. destruct Hz as [z1 [<- Hz]]. apply (known_nuclide E z1); [reflexivity|]. apply K. exact (in_all s1 z1 m H1 Hz). }
      assert (TA : exists t, sub_info E a = Ok t).
      { rewrite Esa in Ha. apply in_map_iff in Ha. destruct Ha as [s1 [<- H1]]. apply sub_info_total; [apply withf_wf; now apply (all_wf m2)|]. intros z Hz. apply in_map_iff in Hz. destruct Hz as [z1 [<- Hz]]. apply (known_nuclide E z1); [reflexivity|].
        pose proof (in_all s1 z1 m2 H1 Hz) as Hz1. unfold m2 in Hz1. rewrite all_zaids_rebuild in Hz1. apply in_map_iff in Hz1. destruct Hz1 as [z2 [<- Hz2]]. apply (known_nuclide E z2); [reflexivity|]. now apply K. }
      destruct (T2 s Hs) as [x1 ->], TA as [x2 ->], (T2 c2 Hc) as [x3 ->]. cbn [bind]. eauto.
    - rewrite M. cbn [bind]. destruct ts as [|t0 ts]; [|eexists; eexists; reflexivity]. exfalso. apply mapM_Forall2 in M. apply f2_len in M. rewrite !combine_length in M. rewrite (switch_copy_length _ _ _ _ SA) in M. destruct (mt_subs m2) as [|s0 l0] eqn:Q; [|cbn in M; lia].
      destruct MM as [_ MM]. unfold tot_fraction, all_zaids in MM. rewrite Q in MM. exact (Qlt_irrefl 0 MM). }
  destruct MI as [rows [el MI]]. rewrite MI. cbn [bind]. apply mapM_some. intros [k s] Hks. cbn [fst snd].
  assert (Hs : nth_sub m k s). { apply In_nth_error in Hks. destruct Hks as [i Hi]. rewrite numbered_nth in Hi. destruct (nth_error (mt_subs m) i) as [s'|] eqn:Q; [|discriminate]. cbn [option_map] in Hi. injection Hi as <- <-. split; [lia|]. replace (S i - 1) with i by lia. exact Q. }
  assert (Is : In s (mt_subs m)) by (destruct Hs as [_ Q]; eapply nth_error_In; eassumption). pose proof (all_wf m s WM Is) as Ws.
  destruct (info_elem E false m2 rows el W WM2 C2 MI) as [_ [Iff _]].
  assert (FR : forall z, In z (s_zaids s) -> exists r, In r (filter (fun r => Nat.eqb (e_sub r) k) el) /\ e_elem r = symb E z).
  { intros z Hz. destruct (Iff k (symb E z)) as [_ Q]. destruct Q as [r [Hr [Hk He]]].
    - exists (mk_submat (withf h (s_zaids s))), (with_frac z (h z)). split; [now apply nth_rebuild|]. split; [apply (in_map (fun z => with_frac z (h z))); exact Hz|]. destruct (K z (in_all s z m Is Hz)) as [l [e [a [Sy _]]]]. apply symbol_frac. rewrite <- (symbol_symb E z e Sy). exact Sy.
    - exists r. split; [apply filter_In; split; [exact Hr|now apply Nat.eqb_eq]|exact He]. }
  assert (Nf : filter (fun r => Nat.eqb (e_sub r) k) el <> []). { specialize (NE s Is). destruct (s_zaids s) as [|z l]; [congruence|]. destruct (FR z (or_introl eq_refl)) as [r [Hr _]]. intros Q. rewrite Q in Hr. destruct Hr. }
  destruct (filter (fun r => Nat.eqb (e_sub r) k) el) as [|r0 rs0] eqn:Fl; [congruence|]. set (rs := r0 :: rs0) in *.
  unfold update_sub. apply mapM_some. intros [e g] Hg. cbn [fst snd]. unfold update_elem.
  pose proof Hg as Hg'. rewrite group_spec in Hg'. apply in_map_iff in Hg'. destruct Hg' as [e2 [Q He]]. injection Q as -> Eg. apply firsts_aux_in in He. destruct He as [He _]. apply in_map_iff in He. destruct He as [z [Ez Hz]].
  destruct (K z (in_all s z m Is Hz)) as [l [sy [a [Sy _]]]]. pose proof (symbol_symb E z sy Sy) as Esy.
  assert (Ke : known E (mkzaid (-1) e (s2l "000") None)). { destruct Sy as [n [r [P [F Er]]]]. eexists. exists sy, 0%Z. split; [exists n, r; cbn [z_elem]; rewrite <- Ez; auto|]. split; [reflexivity|reflexivity]. }
  destruct (known_fullname E _ Ke) as [f Hf]. rewrite Hf. cbn [bind]. destruct (fullname_ok E _ f W Hf) as [_ [Bf _]]. rewrite Bf.
  assert (Sz : symb E (mkzaid (-1) e (s2l "000") None) = symb E z) by (apply symb_elem; cbn [z_elem]; congruence). rewrite Sz.
  destruct (FR z Hz) as [r [Hr Er]]. assert (D : exists w, dget str_eqb (symb E z) (map (fun r => (e_elem r, e_subfrac r)) rs) = Some w).
  { clear -Hr Er. induction rs as [|x l IH]; [destruct Hr|]. cbn [map dget]. destruct (str_eqb (symb E z) (e_elem x)) eqn:Q; [exists (e_subfrac x); reflexivity|]. destruct Hr as [->|Hr]; [rewrite Er, str_eqb_refl in Q; discriminate|]. now apply IH. }
  destruct D as [w ->]. cbn [of_opt bind]. apply mapM_some. intros y Hy. unfold update_zaid.
  assert (Wg : Forall wf_zaid g) by (rewrite <- Eg; now apply filter_wf).
  destruct (element_spec g Wg) as [_ Fy]. rewrite Forall_forall in Fy. destruct (Fy y Hy) as [_ [[y0 [H0 N0]] _]]. rewrite <- Eg in H0. apply filter_In in H0. destruct H0 as [H0 _].
  destruct (known_fullname E y (known_nuclide E y0 y N0 (K y0 (in_all s y0 m Is H0)))) as [fy ->]. cbn [bind]. rewrite qdiv_ok; [cbn [bind]; eauto|]. rewrite (elem_total z_frac _ e g Ws Hg eq_refl). unfold sum_of. fold (total (filter (fun y => str_eqb (z_elem y) e) (s_zaids s))). apply (NT s z); [exact Is|exact Hz|]. intros x _. rewrite str_eqb_eq, Ez. reflexivity. Qed.
