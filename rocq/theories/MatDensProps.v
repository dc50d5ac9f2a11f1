(** C48: atom densities of the materials of a list, and of a material already converted. *)
From Coq Require Import Lia ZArith Lqa.
From Verif Require Import PyBase PyLemmas PyStr LibModel MatModel MatSpec MatProofs MatProofs2 MatProofs3 MatProps MatProps2 MatDensModel.
Open Scope nat_scope.

Lemma densities_ok nav E d m m' : densities_state nav E d m = (m', None) <-> fractions_to_atom_densities nav E d m = Ok m'.
Proof.
  unfold densities_state, fractions_to_atom_densities. destruct (switch_inplace Mass E m) as [[m1 r1]|]; cbn [bind]; [|split; intros X; discriminate X].
  destruct (switch_inplace Atom E m1) as [[m2 r2]|]; cbn [bind]; [|split; intros X; discriminate X]. destruct (get_tad nav E d m2) as [[m3 t]|]; cbn [bind]; [|split; intros X; discriminate X].
  split; intros X; congruence.
Qed.
(* C48: when all the materials of the list can be converted, each one is, in the same order *)
Theorem C48_whole_list : forall nav E d ms, NoDup (map r_idx (l_iso (m_lib E))) -> Forall (fun m => wf_material m /\ tabulated E m /\ (atom_material m \/ mass_material m)) ms ->
  exists ms', list_densities nav E d ms = (ms', None) /\ Forall2 (fun m m' => fractions_to_atom_densities nav E d m = Ok m') ms ms'.
Proof.
  intros nav E d ms N F. induction F as [|m ms (W & T & A) F IH]; [exists []; split; [reflexivity|constructor]|]. destruct IH as (ms' & L & F2).
  assert (X : exists m', fractions_to_atom_densities nav E d m = Ok m').
  { destruct A as [A|A]; [destruct (C48_atom_densities_from_atom_fractions nav E d m N W T A) as (m' & X & _)|destruct (C48_atom_densities_from_mass_fractions nav E d m N W T A) as (m' & X & _)]; exists m'; exact X. }
  destruct X as [m' X]. exists (m' :: ms'). cbn [list_densities]. rewrite (proj2 (densities_ok nav E d m m') X), L. split; [reflexivity|constructor; assumption].
Qed.
Print Assumptions C48_whole_list.

(* C48: at the first material that cannot be converted the conversion stops: those before it are converted, those after it are untouched *)
Theorem C48_list_stops : forall nav E d ms ms' e, list_densities nav E d ms = (ms', Some e) ->
  exists a m b a' m', ms = a ++ m :: b /\ ms' = a' ++ m' :: b /\ fractions_to_atom_densities nav E d m = Err e /\ Forall2 (fun x x' => fractions_to_atom_densities nav E d x = Ok x') a a'.
Proof.
  intros nav E d. induction ms as [|m ms IH]; intros ms' e H; [discriminate H|]. cbn [list_densities] in H. destruct (densities_state nav E d m) as [m' [e'|]] eqn:S1.
  - injection H as <- <-. exists [], m, ms, [], m'. split; [reflexivity|]. split; [reflexivity|]. split; [|constructor].
    unfold densities_state in S1. unfold fractions_to_atom_densities. destruct (switch_inplace Mass E m) as [[m1 r1]|]; cbn [bind]; [|congruence].
    destruct (switch_inplace Atom E m1) as [[m2 r2]|]; cbn [bind]; [|congruence]. destruct (get_tad nav E d m2) as [[m3 t]|]; cbn [bind]; [discriminate S1|congruence].
  - destruct (list_densities nav E d ms) as [r' o] eqn:L. injection H as <- ->. destruct (IH r' e eq_refl) as (a & x & b & a' & x' & -> & -> & X & F).
    exists (m :: a), x, b, (m' :: a'), x'. split; [reflexivity|]. split; [reflexivity|]. split; [exact X|]. constructor; [apply densities_ok; exact S1|exact F].
Qed.
Print Assumptions C48_list_stops.

(* C48: the material that cannot be converted is left in normalised atom fractions, not as it was: a natural element in mass fractions *)
Theorem C48_failure_leaves_the_material_refuted : exists E m, wf_material m /\ has_masses E m /\ mass_material m
  /\ forall nav d, exists m', list_densities nav E d [m] = ([m'], Some KeyError) /\ m' <> m /\ atom_material m'.
Proof.
  exists denv, (mkmat (s2l "m1") [mk_submat [zd (-1) "6" "000" "31c"]]). split; [|split; [|split]].
  - constructor; [|constructor]. repeat split; intros Q; vm_compute in Q; repeat (destruct Q as [Q|Q]; [discriminate|]); exact Q.
  - intros z [<-|[]]. eexists. split; vm_compute; reflexivity.
  - split; [intros z [<-|[]]; vm_compute; discriminate|vm_compute; reflexivity].
  - intros nav d. eexists. split; [vm_compute; reflexivity|]. split; [discriminate|]. split; [intros z [<-|[]]; vm_compute; discriminate|vm_compute; reflexivity].
Qed.
Print Assumptions C48_failure_leaves_the_material_refuted.

Lemma refrac_all f m m' : refrac f m m' -> Forall2 (fun z z' => nuclide z' = nuclide z /\ (z_frac z' == f z)%Q) (all_zaids m) (all_zaids m').
Proof. intros [_ F]. unfold all_zaids. induction F as [|s s' l l' H _ IH]; [constructor|]. cbn [map concat]. apply Forall2_app; assumption. Qed.
Lemma refrac_sum f h g m m' : refrac f m m' -> (forall z z', In z (all_zaids m) -> nuclide z' = nuclide z -> (z_frac z' == f z)%Q -> (h z' == g z)%Q) -> (sum_over h m' == sum_over g m)%Q.
Proof.
  intros R H. apply refrac_all in R. unfold sum_over. induction R as [|z z' l l' [A B] _ IH]; [reflexivity|]. cbn [map]. rewrite !qsum_cons, IH by (intros x x' Hx; apply H; right; exact Hx). rewrite (H z z' (or_introl eq_refl) A B). reflexivity.
Qed.
Lemma massof_nuclide E z z' : nuclide z' = nuclide z -> massof E z' = massof E z.
Proof. unfold nuclide, massof, zmass. intros H. injection H as -> -> _. reflexivity. Qed.
Lemma qsum_scale (f : zaid -> Q) c l : (qsum (map (fun z => f z * c)%Q l) == qsum (map f l) * c)%Q.
Proof. induction l as [|x l IH]; [cbn; ring|]. cbn [map]. rewrite !qsum_cons, IH. ring. Qed.

(* C48: a material already converted for a density is left as it is *)
Theorem C48_converting_twice : forall nav E d m m1, NoDup (map r_idx (l_iso (m_lib E))) -> wf_material m -> tabulated E m -> atom_material m \/ mass_material m -> (0 < nav)%Q -> (0 < d)%Q ->
  fractions_to_atom_densities nav E d m = Ok m1 -> exists m2, fractions_to_atom_densities nav E d m1 = Ok m2 /\ refrac z_frac m1 m2.
Proof.
  intros nav E d m m1 N W T A Pn Pd X. destruct (tab_masses E m N W T) as [H _].
  assert (K : exists f, refrac f m m1 /\ (forall z, In z (all_zaids m) -> (0 <= f z)%Q) /\ (sum_over (fun z => f z * massof E z)%Q m == d * nav)%Q).
  { destruct A as [A|A].
    - destruct (C48_atom_densities_from_atom_fractions nav E d m N W T A) as (m' & X' & R). rewrite X in X'. injection X' as <-. eexists. split; [exact R|]. cbv beta. pose proof (atom_mean_pos E m H A) as P. pose proof (proj2 A) as Pt. split.
      + intros z Hz. pose proof (proj1 A z Hz). apply Qmult_le_0_compat; [apply Qle_shift_div_l; lra|]. apply Qle_shift_div_l; [exact P|]. nra.
      + unfold sum_over. transitivity (qsum (map (fun z => (z_frac z * massof E z) * (d * nav / atom_mean_mass E m / tot_fraction m))%Q (all_zaids m))); [apply qsum_map_ext; intros z Hz; field; split; lra|].
        rewrite (qsum_scale (fun z => z_frac z * massof E z)%Q). fold (sum_over (fun z => z_frac z * massof E z)%Q m). assert (Em : (sum_over (fun z => z_frac z * massof E z) m == atom_mean_mass E m * tot_fraction m)%Q).
        { unfold atom_mean_mass. change (sum_over z_frac m) with (tot_fraction m). field. lra. }
        rewrite Em. field. split; lra.
    - destruct (C48_atom_densities_from_mass_fractions nav E d m N W T A) as (m' & X' & R). rewrite X in X'. injection X' as <-. eexists. split; [exact R|]. cbv beta. pose proof (proj2 A) as Pt. split.
      + intros z Hz. pose proof (proj1 A z Hz). pose proof (massof_pos E m z H Hz). apply Qle_shift_div_l; [assumption|]. rewrite Qmult_0_l. apply Qmult_le_0_compat; [nra|].
        assert (Ez : (z_frac z / tot_fraction m == (- z_frac z) / (- tot_fraction m))%Q) by (field; lra). rewrite Ez. apply Qle_shift_div_l; lra.
      + unfold sum_over. transitivity (qsum (map (fun z => z_frac z * (d * nav / tot_fraction m))%Q (all_zaids m))); [apply qsum_map_ext; intros z Hz; pose proof (massof_pos E m z H Hz); field; split; lra|].
        rewrite (qsum_scale z_frac). fold (tot_fraction m). unfold tot_fraction. fold (tot_fraction m). field. lra. }
  destruct K as (f & R & Pf & S1).
  assert (S2 : (sum_over (fun z => z_frac z * massof E z) m1 == d * nav)%Q). { rewrite <- S1. apply (refrac_sum f); [exact R|]. intros z z' _ A1 A2. rewrite A2, (massof_nuclide E z z' A1). reflexivity. }
  pose proof (refrac_all f m m1 R) as FA.
  assert (In1 : forall z', In z' (all_zaids m1) -> exists z, In z (all_zaids m) /\ nuclide z' = nuclide z /\ (z_frac z' == f z)%Q). { clear -FA. induction FA as [|z z' l l' [A B] _ IH]; [intros z' []|]. intros x [<-|Hx]; [exists z; split; [left; reflexivity|auto]|]. destruct (IH x Hx) as (y & Hy & Y). exists y. split; [right; exact Hy|exact Y]. }
  assert (H1 : has_masses E m1). { intros z' Hz'. destruct (In1 z' Hz') as (z & Hz & A1 & _). destruct (H z Hz) as (q & Q1 & Q2). exists q. split; [|exact Q2]. unfold zmass in *. unfold nuclide in A1. injection A1 as -> -> _. exact Q1. }
  assert (W1 : wf_material m1). { unfold wf_material in *. rewrite Forall_forall in *. intros z' Hz'. destruct (In1 z' Hz') as (z & Hz & A1 & _). pose proof (W z Hz) as Wz. unfold wf_zaid in *. unfold nuclide in A1. injection A1 as E1 E2 E3. rewrite E1, E2, ?E3. exact Wz. }
  assert (T1 : tabulated E m1). { intros z' Hz'. destruct (In1 z' Hz') as (z & Hz & A1 & _). destruct (T z Hz) as (r & T1). exists r. unfold nuclide in A1. injection A1 as -> -> _. exact T1. }
  assert (F1 : forall z', In z' (all_zaids m1) -> (0 <= z_frac z')%Q). { intros z' Hz'. destruct (In1 z' Hz') as (z & Hz & _ & A2). rewrite A2. apply Pf. exact Hz. }
  assert (P1 : (0 < tot_fraction m1)%Q).
  { apply Qnot_le_lt. intros Ht. assert (Z : forall z, In z (all_zaids m1) -> (z_frac z == 0)%Q).
    { unfold tot_fraction in Ht. revert F1 Ht. generalize (all_zaids m1). clear. induction l as [|x l IH]; intros F Ht z Hz; [destruct Hz|]. cbn [map] in Ht. rewrite qsum_cons in Ht. pose proof (F x (or_introl eq_refl)).
      assert (0 <= qsum (map z_frac l))%Q. { assert (F' : forall z, In z l -> (0 <= z_frac z)%Q) by (intros y Hy; apply F; right; exact Hy). revert F'. clear. induction l as [|y l IH]; intros F; [cbn; lra|]. cbn [map]. rewrite qsum_cons. pose proof (F y (or_introl eq_refl)). pose proof (IH (fun z Hz => F z (or_intror Hz))). lra. }
      destruct Hz as [<-|Hz]; [lra|]. apply IH; [intros y Hy; apply F; right; exact Hy|lra|exact Hz]. }
    assert (Z2 : (sum_over (fun z => z_frac z * massof E z) m1 == 0)%Q). { unfold sum_over. transitivity (qsum (map (fun z => z_frac z * 0)%Q (all_zaids m1))); [apply qsum_map_ext; intros z Hz; rewrite (Z z Hz); ring|]. rewrite (qsum_scale z_frac). ring. }
    rewrite Z2 in S2. nra. }
  assert (A1 : atom_material m1) by (split; assumption).
  destruct (C48_atom_densities_from_atom_fractions nav E d m1 N W1 T1 A1) as (m2 & X2 & R2). exists m2. split; [exact X2|]. destruct R2 as [R2 R3]. split; [exact R2|].
  revert R3. apply Forall2_impl. intros s s'. apply Forall2_impl. intros z z' [B1 B2]. split; [exact B1|]. rewrite B2. unfold atom_mean_mass. change (sum_over z_frac m1) with (tot_fraction m1). rewrite S2. field. repeat split; nra.
Qed.
Print Assumptions C48_converting_twice.
(* a list with a material that meets the hypotheses (C25_witness): it is converted *)
Example C48_list_witness : exists m1, list_densities 1 denv 5 [lith; lith] = ([m1; m1], None) /\ fractions_to_atom_densities 1 denv 5 lith = Ok m1.
Proof. eexists. split; vm_compute; reflexivity. Qed.
