From Coq Require Import Lia Lqa Sorted.
From Verif Require Import PyBase PyLemmas PyStr PyStrLemmas PyText D1SModel D1SProofs2 LibModel LibSpec MatModel MatSpec MatProofs MatProofs2 MatProofs3 MatInfoModel MatInfoSpec MatInfoProofs MatInfoProofs2 MatInfoProofs3 MatInfoProofs4 MatInfoProofs5.
Open Scope nat_scope.

(** the mass fractions used for the in-line information *)
Lemma fake_ok E m : has_masses E m -> atom_material m \/ mass_material m ->
  exists h c m1 r1 r2, switch_inplace Atom E m = Ok (m1, r1) /\ switch_inplace Mass E m1 = Ok (rebuild h m, r2) /\ ~ (c == 0)%Q /\
    mass_material (rebuild h m) /\ has_masses E (rebuild h m) /\ forall z, In z (all_zaids m) -> (h z == c * mass_weight E m z)%Q.
Proof. intros HM [A|A].
  - exists (fr Mass E m), (- / norm Mass E m)%Q, m. pose proof (norm_mass_pos E m HM A) as N. destruct A as [A1 A2]. assert (switch_inplace Atom E m = Ok (m, mt_subs m)) as -> by (unfold switch_inplace; now rewrite no_must_atom by lra).
    rewrite (inplace_mass E m HM (conj A1 A2)). eexists. eexists. split; [reflexivity|]. split; [reflexivity|]. split.
    { intros Q. assert (norm Mass E m * (- / norm Mass E m) == -1)%Q by (field; lra). rewrite Q in H. lra. }
    split; [now apply switched_mass|]. split; [now apply has_masses_rebuild|]. intros z Hz. unfold mass_weight. destruct (Qlt_le_dec (tot_fraction m) 0); [lra|]. unfold fr. cbn [wt]. field. lra.
  - rewrite (inplace_atom E m HM A). pose proof (switched_atom E m HM A) as A'. pose proof (has_masses_rebuild E (fr Atom E m) m HM) as HM'.
    exists (fun z => fr Mass E (rebuild (fr Atom E m) m) (with_frac z (fr Atom E m z))), (/ tot_fraction m)%Q, (rebuild (fr Atom E m) m). eexists. eexists. split; [reflexivity|]. rewrite (inplace_mass E _ HM' A'). rewrite rebuild_rebuild. split; [reflexivity|]. destruct A as [A1 A2].
    split; [intros Q; assert (tot_fraction m * / tot_fraction m == 1)%Q by (field; lra); rewrite Q in H; lra|].
    split; [rewrite <- rebuild_rebuild; now apply switched_mass|]. split; [now apply has_masses_rebuild|]. intros z Hz. rewrite (mass_of_atom E m z HM (conj A1 A2) Hz). unfold mass_weight. destruct (Qlt_le_dec (tot_fraction m) 0); [|lra]. field. lra. Qed.
Lemma wf_rebuild h m : wf_material m -> wf_material (rebuild h m).
Proof. unfold wf_material. rewrite all_zaids_rebuild, Forall_map. apply Forall_impl. trivial. Qed.
Lemma consistent_rebuild h m : Forall consistent (mt_subs (rebuild h m)).
Proof. unfold rebuild. cbn [mt_subs]. rewrite Forall_map. apply Forall_forall. reflexivity. Qed.
Lemma nth_rebuild h m k s : nth_sub m k s -> nth_sub (rebuild h m) k (mk_submat (withf h (s_zaids s))).
Proof. intros [Hk Hs]. split; [exact Hk|]. unfold rebuild. cbn [mt_subs]. rewrite nth_error_map, Hs. reflexivity. Qed.
Lemma symbol_frac E z f e : symbol_of E (with_frac z f) e <-> symbol_of E z e. Proof. reflexivity. Qed.

Lemma ratio_scale o a b c a' b' : ~ (c == 0)%Q -> (a == c * a')%Q -> (b == c * b')%Q -> ratio o a b -> ratio o a' b'.
Proof. intros Nc Ha Hb [R1 R2]. assert (Z : (b == 0)%Q <-> (b' == 0)%Q).
  { rewrite Hb. split; [|intros ->; ring]. intros Q. apply Qmult_integral in Q. destruct Q; [contradiction|assumption]. }
  split; [intros Q; apply R1; now apply Z|]. intros N. destruct R2 as [q [-> Hq]]; [rewrite Z; exact N|]. exists q. split; [reflexivity|]. rewrite Hq, Ha, Hb. field. split; assumption. Qed.
Lemma dget_rows (rs : list erow) e w : dget str_eqb e (map (fun r => (e_elem r, e_subfrac r)) rs) = Some w -> exists r, In r rs /\ e_elem r = e /\ e_subfrac r = w.
Proof. induction rs as [|r rs IH]; [discriminate|]. cbn [map dget]. destruct (str_eqb e (e_elem r)) eqn:Q.
  - intros H. injection H as <-. apply str_eqb_eq in Q. exists r. split; [now left|]. split; [congruence|reflexivity].
  - intros H. destruct (IH H) as [r' [Hr R]]. exists r'. split; [now right|exact R]. Qed.
Lemma qdiv_inv a b q : qdiv a b = Ok q -> ~ (b == 0)%Q /\ q = (a / b)%Q.
Proof. unfold qdiv. destruct (Qeq_bool b 0) eqn:Q; [discriminate|]. intros H. apply Qeq_bool_neq in Q. split; [exact Q|congruence]. Qed.
Lemma forall2_map_eq {A B C} (f : A -> C) (R : A -> B -> Prop) (g : B -> C) l l' : (forall x y, R x y -> g y = f x) -> Forall2 R l l' -> map g l' = map f l.
Proof. intros H. induction 1; [reflexivity|]. cbn [map]. f_equal; [now apply H|assumption]. Qed.
Lemma in_forall2_r {A B} (R : A -> B -> Prop) l l' y : Forall2 R l l' -> In y l' -> exists x, In x l /\ R x y.
Proof. induction 1; intros H1; [destruct H1|]. destruct H1 as [<-|H1]; [exists x; split; [now left|assumption]|]. destruct (IHForall2 H1) as [a [Ha Ra]]. exists a. split; [now right|exact Ra]. Qed.

Lemma elem_total f zs e g : Forall wf_zaid zs -> In (e, g) (group_elements zs) -> f = z_frac -> (elem_fraction (element_zaids g) == sum_of f (fun y => str_eqb (z_elem y) e) zs)%Q.
Proof. intros W H ->. rewrite group_spec in H. apply in_map_iff in H. destruct H as [e' [Q _]]. injection Q as <- <-.
  pose proof (filter_wf (fun z => str_eqb (z_elem z) e') _ W) as W'. destruct (element_spec _ W') as [O F]. rewrite Forall_forall in F. unfold sum_of, elem_fraction.
  fold (total (filter (fun y => str_eqb (z_elem y) e') zs)). rewrite <- (total_by_names (map z_name (element_zaids (filter (fun z => str_eqb (z_elem z) e') zs))) (filter (fun z => str_eqb (z_elem z) e') zs)).
  - rewrite map_map. apply qsum_map_ext. intros z Hz. now apply F.
  - rewrite O. apply firsts_aux_nodup.
  - intros z Hz. rewrite O. apply firsts_aux_in. split; [now apply in_map|intros []]. Qed.
Lemma scaled (f g : zaid -> Q) c l : (forall z, In z l -> (f z == c * g z)%Q) -> (qsum (map f l) == c * qsum (map g l))%Q.
Proof. induction l as [|z l IH]; intros H; [cbn; ring|]. cbn [map]. rewrite !qsum_cons, IH by (intros; apply H; now right). rewrite (H z (or_introl eq_refl)). ring. Qed.
Lemma update_sub_ok E m h c k s rows el rs t : wf_table (l_iso (m_lib E)) -> wf_material m -> ~ (c == 0)%Q -> (forall z, In z (all_zaids m) -> (h z == c * mass_weight E m z)%Q) ->
  mat_info E false (rebuild h m) = Ok (rows, el) -> nth_sub m k s -> rs = filter (fun r => Nat.eqb (e_sub r) k) el ->
  update_sub E (map (fun r => (e_elem r, e_subfrac r)) rs) s = Ok t ->
  map (map fst) t = collapse (s_zaids s) /\ forall z i, In (z, i) (concat t) -> inl_for E m (s_zaids s) z i.
Proof. intros W WM Nc Hh MI Hs Ers U. unfold update_sub in U. assert (Is : In s (mt_subs m)) by (destruct Hs as [_ Hs]; eapply nth_error_In; eassumption). pose proof (all_wf m s WM Is) as Ws.
  apply mapM_Forall2 in U.
  destruct (info_elem E false (rebuild h m) rows el W (wf_rebuild h m WM) (consistent_rebuild h m) MI) as [_ [_ R]].
  assert (Y : forall y, In y (s_zaids s) -> symbol_of E y (symb E y)).
  { destruct (mat_info_ok E false _ rows el W MI) as [_ [_ [_ [_ [_ [_ [_ [_ [_ G]]]]]]]]]. pose proof (nth_rebuild h m k s Hs) as Hs2. assert (Is2 : In (mk_submat (withf h (s_zaids s))) (mt_subs (rebuild h m))) by (destruct Hs2 as [_ Q]; eapply nth_error_In; eassumption).
    intros y Hy. pose proof (zaid_symbols E _ (all_wf _ _ (wf_rebuild h m WM) Is2) eq_refl (fun z Hz => proj1 (proj2 (G _ Is2) z Hz)) (with_frac y (h y))) as Q. apply Q. cbn [mk_submat s_zaids]. unfold withf. apply (in_map (fun z => with_frac z (h z))). exact Hy. }
  assert (UE : forall g b, In g (group_elements (s_zaids s)) -> update_elem E (map (fun r => (e_elem r, e_subfrac r)) rs) (fst g) (element_zaids (snd g)) = Ok b -> map fst b = element_zaids (snd g) /\ forall z i, In (z, i) b -> inl_for E m (s_zaids s) z i).
  { intros [e g] b Hg H. cbn [fst snd] in *. unfold update_elem in H. destruct (fullname E (mkzaid (-1) e (s2l "000") None)) as [f|] eqn:F; [|discriminate]. cbn [bind] in H.
    destruct (dget str_eqb (before_dash f) _) as [w|] eqn:D; [|discriminate]. cbn [of_opt bind] in H. destruct (fullname_ok E _ f W F) as [Sf [Bf _]]. rewrite Bf in D. apply dget_rows in D. destruct D as [r [Hr [Er Ew]]]. rewrite Ers in Hr. apply filter_In in Hr. destruct Hr as [Hr Hk]. apply Nat.eqb_eq in Hk.
    destruct (R r Hr) as [s2 [Hs2 [Fr [Rt _]]]]. rewrite Hk in Hs2. pose proof (nth_rebuild h m k s Hs) as Hs2'. assert (s2 = mk_submat (withf h (s_zaids s))) by (destruct Hs2 as [_ Q1], Hs2' as [_ Q2]; congruence). subst s2. cbn [mk_submat s_zaids] in *.
    assert (Ge : forall z, In z (element_zaids g) -> z_elem z = e).
    { pose proof Hg as Hg'. rewrite group_spec in Hg'. apply in_map_iff in Hg'. destruct Hg' as [e' [Q _]]. injection Q as <- <-. intros z Hz. destruct (element_spec _ (filter_wf (fun z => str_eqb (z_elem z) e') _ Ws)) as [_ Fz]. rewrite Forall_forall in Fz. destruct (Fz z Hz) as [_ [[z0 [H0 N0]] _]]. apply filter_In in H0. destruct H0 as [_ H0]. apply str_eqb_eq in H0. apply nuclide_elem in N0. congruence. }
    apply mapM_Forall2 in H.
    assert (P : Forall2 (fun z zi => fst zi = z /\ inl_for E m (s_zaids s) (fst zi) (snd zi)) (element_zaids g) b).
    { revert H. apply f2_strengthen. intros z zi Hz _ Hu. unfold update_zaid in Hu. destruct (fullname E z) as [n|] eqn:Fn; [|discriminate]. cbn [bind] in Hu. destruct (qdiv (z_frac z) (elem_fraction (element_zaids g))) as [a|] eqn:Qd; [|discriminate]. cbn [bind] in Hu.
      assert (zi = (z, mkinl n (a * 100) w)) by congruence. subst zi. cbn [fst snd]. split; [reflexivity|]. apply qdiv_inv in Qd. destruct Qd as [Nz ->]. pose proof (elem_total z_frac _ e g Ws Hg eq_refl) as ET. rewrite ET in Nz.
      destruct (fullname_ok E z n W Fn) as [Sz [_ [ia [Pi Hn]]]]. unfold inl_for. cbn [in_name in_ab in_weight]. split; [|split].
      - exists (n ++ s2l " [" ++ z_elem z ++ z_iso z ++ s2l "]"). split; [|reflexivity]. exists (symb E z), ia. split; [exact Sz|]. split; [exact Pi|]. rewrite Hn, <- app_assoc. reflexivity.
      - intros p Hp. unfold total. fold (sum_of z_frac p (s_zaids s)). rewrite (picked_sum z_frac p (fun y => str_eqb (z_elem y) e)) by (intros y Hy; apply eq_true_iff_eq; rewrite (Hp y Hy), str_eqb_eq, (Ge z Hz); reflexivity).
        split; [exact Nz|]. rewrite ET. field. exact Nz.
      - exists (symb E z). split; [exact Sz|]. intros p Hp. assert (Sy : symb E z = e_elem r) by (rewrite Er; apply symb_elem; exact (Ge z Hz)).
        rewrite Ew in Rt. refine (ratio_scale w (e_frac r) (total (withf h (s_zaids s))) c _ _ Nc _ _ Rt).
        + rewrite (Fr (fun y => str_eqb (symb E y) (e_elem r))).
          * rewrite withf_filter by reflexivity. rewrite total_withf. rewrite (picked_sum _ p (fun y => str_eqb (symb E y) (e_elem r))).
            -- unfold sum_of. apply scaled. intros y Hy. apply filter_In in Hy. apply Hh. eapply in_all; [exact Is|apply Hy].
            -- intros y Hy. apply eq_true_iff_eq. rewrite (Hp y Hy), str_eqb_eq, <- Sy. split; [intros Q; now apply symbol_symb in Q|intros <-; now apply Y].
          * intros y Hy. unfold withf in Hy. apply in_map_iff in Hy. destruct Hy as [y0 [<- Hy]]. rewrite str_eqb_eq. split; [intros <-; apply symbol_frac; exact (Y y0 Hy)|intros Q; now apply symbol_symb in Q].
        + rewrite total_withf. apply scaled. intros y Hy. apply Hh. eapply in_all; [exact Is|exact Hy]. }
    split; [refine (eq_trans (forall2_map_eq (fun z => z) _ fst _ _ _ P) (map_id _)); intros x y [Q _]; exact Q|].
    intros z i Hz. destruct (in_forall2_r _ _ _ _ P Hz) as [y [_ [_ Q]]]. exact Q. }
  split.
  - unfold collapse. assert (Q : Forall2 (fun g b => map fst b = element_zaids (snd g)) (group_elements (s_zaids s)) t) by (revert U; apply f2_strengthen; intros g b Hg _ Hb; now apply (UE g b Hg)). clear -Q. induction Q; [reflexivity|]. cbn [map]. f_equal; assumption.
  - intros z i Hz. apply in_concat in Hz. destruct Hz as [b [Hb Hz]]. destruct (in_forall2_r _ _ _ _ U Hb) as [g [Hg Hu]]. now apply (UE g b Hg Hu). Qed.
