From Coq Require Import Lia Lqa.
From Verif Require Import PyBase PyLemmas PyStr PyStrLemmas PyText WWTextProofs D1SProofs2 LibModel LibSpec LibProofs LibProofs2 LibProofs3 MatModel MatSpec MatProofs MatProofs2.
Open Scope nat_scope.

(** the material with new fractions *)
Definition rebuild (f : zaid -> Q) (m : material) : material :=
  mkmat (mt_name m) (map (fun s => mk_submat (map (fun z => with_frac z (f z)) (s_zaids s))) (mt_subs m)).
Lemma all_zaids_rebuild f m : all_zaids (rebuild f m) = map (fun z => with_frac z (f z)) (all_zaids m).
Proof. unfold all_zaids, rebuild. cbn [mt_subs]. rewrite map_map, concat_map, map_map. reflexivity. Qed.
Lemma refrac_rebuild f g m : (forall z, In z (all_zaids m) -> (f z == g z)%Q) -> refrac g m (rebuild f m).
Proof. intros H. split; [reflexivity|]. unfold rebuild. cbn [mt_subs]. apply Forall2_map_r. unfold all_zaids in H.
  induction (mt_subs m) as [|s l IH]; [constructor|]. cbn [map concat] in H. constructor.
  - cbn [mk_submat s_zaids]. apply Forall2_map_r. assert (Q : forall z, In z (s_zaids s) -> (f z == g z)%Q) by (intros z Hz; apply H; apply in_or_app; auto). clear - Q.
    induction (s_zaids s) as [|z l IH]; [constructor|]. constructor; [split; [reflexivity|apply Q; left; reflexivity]|]. apply IH. intros z' Hz. apply Q. now right.
  - apply IH. intros z Hz. apply H. apply in_or_app. auto. Qed.
Lemma massof_frac E z f : massof E (with_frac z f) = massof E z. Proof. reflexivity. Qed.
Lemma zmass_frac E z f : zmass E (with_frac z f) = zmass E z. Proof. reflexivity. Qed.
Lemma has_masses_rebuild E f m : has_masses E m -> has_masses E (rebuild f m).
Proof. intros H z Hz. rewrite all_zaids_rebuild in Hz. apply in_map_iff in Hz. destruct Hz as [z0 [<- H0]]. exact (H z0 H0). Qed.
Lemma sum_rebuild (h : zaid -> Q) f m : sum_over h (rebuild f m) = qsum (map (fun z => h (with_frac z (f z))) (all_zaids m)).
Proof. unfold sum_over. rewrite all_zaids_rebuild, map_map. reflexivity. Qed.

Definition wt (t : ftype) (E : matenv) (z : zaid) : Q :=
  match t with Atom => ((- z_frac z) / massof E z)%Q | Mass => (z_frac z * massof E z)%Q end.
Definition norm (t : ftype) (E : matenv) (m : material) : Q := sum_over (wt t E) m.
Definition fr (t : ftype) (E : matenv) (m : material) (z : zaid) : Q :=
  ((match t with Atom => wt t E z | Mass => - wt t E z end) / norm t E m)%Q.

Lemma qdiv_ok a b : ~ (b == 0)%Q -> qdiv a b = Ok (a / b)%Q.
Proof. intros H. unfold qdiv. destruct (Qeq_bool b 0) eqn:E; [apply Qeq_bool_eq in E; contradiction|reflexivity]. Qed.
Lemma massof_ok E z q : zmass E z = Ok q -> massof E z = q. Proof. unfold massof. now intros ->. Qed.
Lemma weight_ok t E z : (exists q, zmass E z = Ok q /\ (0 < q)%Q) -> weight_of t E z = Ok (wt t E z).
Proof. intros [q [H P]]. unfold weight_of, wt. rewrite (massof_ok _ _ _ H), H. cbn [bind]. destruct t; [|reflexivity]. rewrite qdiv_ok by lra. reflexivity. Qed.
Lemma mapM_ext_map {A B} (f : A -> res B) (g : A -> B) l : (forall x, In x l -> f x = Ok (g x)) -> mapM f l = Ok (map g l).
Proof. induction l as [|x l IH]; intros H; [reflexivity|]. cbn [mapM map]. rewrite (H x (or_introl eq_refl)). cbn [bind]. rewrite IH by (intros; apply H; right; assumption). reflexivity. Qed.
Lemma in_all s z m : In s (mt_subs m) -> In z (s_zaids s) -> In z (all_zaids m).
Proof. intros Hs Hz. unfold all_zaids. apply in_concat. exists (s_zaids s). split; [now apply in_map|exact Hz]. Qed.
Lemma switch_subs_ok t E m : has_masses E m -> ~ (norm t E m == 0)%Q -> switch_subs t E m = Ok (mt_subs (rebuild (fr t E m) m)).
Proof. intros H N. unfold switch_subs. rewrite (mapM_ext_map (weight_of t E) (wt t E)) by (intros z Hz; apply weight_ok; exact (H z Hz)). cbn [bind].
  fold (sum_over (wt t E) m). fold (norm t E m). unfold rebuild. cbn [mt_subs]. apply mapM_ext_map. intros s Hs.
  rewrite (mapM_ext_map _ (fun z => with_frac z (fr t E m z))); [reflexivity|]. intros z Hz. unfold switched. rewrite weight_ok by (apply H; eapply in_all; eassumption).
  cbn [bind]. rewrite qdiv_ok by exact N. reflexivity. Qed.

(** positivity *)
Lemma qsum_pos l : Forall (fun x => (0 <= x)%Q) l -> (exists x, In x l /\ (0 < x)%Q) -> (0 < qsum l)%Q.
Proof. induction 1 as [|x l Hx Hl IH]; intros [y [Hy Py]]; [destruct Hy|]. rewrite qsum_cons. pose proof (qsum_nonneg l Hl). destruct Hy as [->|Hy]; [lra|].
  assert (0 < qsum l)%Q by (apply IH; eauto). lra. Qed.
Lemma qsum_pos_elem l : (0 < qsum l)%Q -> exists x, In x l /\ (0 < x)%Q.
Proof. induction l as [|x l IH]; intros H; [cbn in H; lra|]. rewrite qsum_cons in H. destruct (Qlt_le_dec 0 x) as [P|P]; [exists x; split; [left; reflexivity|exact P]|].
  destruct IH as [y [Hy Py]]; [lra|]. exists y. split; [right; exact Hy|exact Py]. Qed.
Lemma qsum_opp {A} (f : A -> Q) l : (qsum (map (fun x => - f x) l) == - qsum (map f l))%Q.
Proof. induction l as [|x l IH]; [reflexivity|]. cbn [map]. rewrite !qsum_cons, IH. ring. Qed.
Lemma massof_pos E m z : has_masses E m -> In z (all_zaids m) -> (0 < massof E z)%Q.
Proof. intros H Hz. destruct (H z Hz) as [q [E1 P]]. now rewrite (massof_ok _ _ _ E1). Qed.
Lemma norm_mass_pos E m : has_masses E m -> atom_material m -> (0 < norm Mass E m)%Q.
Proof. intros H [P T]. unfold norm, sum_over. apply qsum_pos.
  - rewrite Forall_map. apply Forall_forall. intros z Hz. cbn [wt]. pose proof (massof_pos E m z H Hz). pose proof (P z Hz). nra.
  - apply qsum_pos_elem in T. destruct T as [x [Hx Px]]. apply in_map_iff in Hx. destruct Hx as [z [<- Hz]]. exists (wt Mass E z). split; [now apply in_map|].
    cbn [wt]. pose proof (massof_pos E m z H Hz). nra. Qed.
Lemma norm_atom_pos E m : has_masses E m -> mass_material m -> (0 < norm Atom E m)%Q.
Proof. intros H [P T]. unfold norm, sum_over. apply qsum_pos.
  - rewrite Forall_map. apply Forall_forall. intros z Hz. cbn [wt]. pose proof (massof_pos E m z H Hz) as M. pose proof (P z Hz).
    apply Qle_shift_div_l; [exact M|]. lra.
  - assert (T' : (0 < qsum (map (fun z => - z_frac z) (all_zaids m)))%Q) by (rewrite qsum_opp; unfold tot_fraction in T; lra).
    apply qsum_pos_elem in T'. destruct T' as [x [Hx Px]]. apply in_map_iff in Hx. destruct Hx as [z [<- Hz]]. exists (wt Atom E z). split; [now apply in_map|].
    cbn [wt]. pose proof (massof_pos E m z H Hz) as M. apply Qlt_shift_div_l; [exact M|]. lra. Qed.

Lemma must_mass m : atom_material m -> must_switch Mass (tot_fraction m) = true.
Proof. intros [_ T]. cbn [must_switch]. destruct (Qle_bool (tot_fraction m) 0) eqn:E; [apply Qle_bool_iff in E; lra|reflexivity]. Qed.
Lemma must_atom m : mass_material m -> must_switch Atom (tot_fraction m) = true.
Proof. intros [_ T]. cbn [must_switch]. destruct (Qle_bool 0 (tot_fraction m)) eqn:E; [apply Qle_bool_iff in E; lra|reflexivity]. Qed.
Lemma no_must_mass m : (tot_fraction m <= 0)%Q -> must_switch Mass (tot_fraction m) = false.
Proof. intros T. cbn [must_switch]. apply Qle_bool_iff in T. now rewrite T. Qed.
Lemma no_must_atom m : (0 <= tot_fraction m)%Q -> must_switch Atom (tot_fraction m) = false.
Proof. intros T. cbn [must_switch]. apply Qle_bool_iff in T. now rewrite T. Qed.

Lemma tot_rebuild f m : tot_fraction (rebuild f m) = qsum (map f (all_zaids m)).
Proof. unfold tot_fraction. rewrite all_zaids_rebuild, map_map. reflexivity. Qed.
Lemma tot_fr_mass E m : ~ (norm Mass E m == 0)%Q -> (tot_fraction (rebuild (fr Mass E m) m) == -1)%Q.
Proof. intros N. rewrite tot_rebuild.
  transitivity (qsum (map (fun z => wt Mass E z * - / norm Mass E m)%Q (all_zaids m))).
  - apply qsum_map_ext. intros z _. unfold fr. field. exact N.
  - rewrite (qsum_scale (wt Mass E)). change (norm Mass E m * - / norm Mass E m == -1)%Q. field. exact N. Qed.
Lemma tot_fr_atom E m : ~ (norm Atom E m == 0)%Q -> (tot_fraction (rebuild (fr Atom E m) m) == 1)%Q.
Proof. intros N. rewrite tot_rebuild.
  transitivity (qsum (map (fun z => wt Atom E z * / norm Atom E m)%Q (all_zaids m))).
  - apply qsum_map_ext. intros z _. unfold fr. reflexivity.
  - rewrite (qsum_scale (wt Atom E)). change (norm Atom E m * / norm Atom E m == 1)%Q. field. exact N. Qed.
Lemma switched_mass E m : has_masses E m -> atom_material m -> mass_material (rebuild (fr Mass E m) m).
Proof. intros H A. pose proof (norm_mass_pos E m H A) as N. split.
  - intros z Hz. rewrite all_zaids_rebuild in Hz. apply in_map_iff in Hz. destruct Hz as [z0 [<- H0]]. cbn [with_frac z_frac]. unfold fr.
    apply Qle_shift_div_r; [exact N|]. cbn [wt]. destruct A as [P _]. specialize (P z0 H0). pose proof (massof_pos E m z0 H H0). nra.
  - rewrite tot_fr_mass by lra. reflexivity. Qed.
Lemma switched_atom E m : has_masses E m -> mass_material m -> atom_material (rebuild (fr Atom E m) m).
Proof. intros H A. pose proof (norm_atom_pos E m H A) as N. split.
  - intros z Hz. rewrite all_zaids_rebuild in Hz. apply in_map_iff in Hz. destruct Hz as [z0 [<- H0]]. cbn [with_frac z_frac]. unfold fr.
    apply Qle_shift_div_l; [exact N|]. cbn [wt]. destruct A as [P _]. specialize (P z0 H0). pose proof (massof_pos E m z0 H H0) as M.
    assert (0 <= (- z_frac z0) / massof E z0)%Q by (apply Qle_shift_div_l; [exact M|lra]). lra.
  - rewrite tot_fr_atom by lra. reflexivity. Qed.

Lemma inplace_mass E m : has_masses E m -> atom_material m ->
  switch_inplace Mass E m = Ok (rebuild (fr Mass E m) m, map (fun _ => mk_submat []) (mt_subs (rebuild (fr Mass E m) m))).
Proof. intros H A. unfold switch_inplace. rewrite must_mass by exact A. rewrite switch_subs_ok; [reflexivity|exact H|]. pose proof (norm_mass_pos E m H A). lra. Qed.
Lemma inplace_atom E m : has_masses E m -> mass_material m ->
  switch_inplace Atom E m = Ok (rebuild (fr Atom E m) m, map (fun _ => mk_submat []) (mt_subs (rebuild (fr Atom E m) m))).
Proof. intros H A. unfold switch_inplace. rewrite must_atom by exact A. rewrite switch_subs_ok; [reflexivity|exact H|]. pose proof (norm_atom_pos E m H A). lra. Qed.

(** round trips *)
Lemma rebuild_rebuild f g m : rebuild g (rebuild f m) = rebuild (fun z => g (with_frac z (f z))) m.
Proof. unfold rebuild. cbn [mt_name mt_subs]. rewrite map_map. f_equal. apply map_ext. intros s. cbn [mk_submat s_zaids]. rewrite map_map. reflexivity. Qed.
Lemma atom_of_mass E m z : has_masses E m -> atom_material m -> In z (all_zaids m) ->
  (fr Atom E (rebuild (fr Mass E m) m) (with_frac z (fr Mass E m z)) == z_frac z / tot_fraction m)%Q.
Proof. intros H A Hz. pose proof (norm_mass_pos E m H A) as N. pose proof (massof_pos E m z H Hz) as M. assert (T := proj2 A).
  assert (NA : (norm Atom E (rebuild (fr Mass E m) m) == tot_fraction m / norm Mass E m)%Q).
  { unfold norm at 1. rewrite sum_rebuild. transitivity (qsum (map (fun z => z_frac z * / norm Mass E m)%Q (all_zaids m))).
    - apply qsum_map_ext. intros z0 H0. cbn [wt]. rewrite massof_frac. cbn [with_frac z_frac]. unfold fr. cbn [wt]. pose proof (massof_pos E m z0 H H0). field. split; lra.
    - rewrite qsum_scale. unfold tot_fraction. reflexivity. }
  unfold fr at 1. cbn [wt]. rewrite massof_frac. cbn [with_frac z_frac]. rewrite NA. unfold fr. cbn [wt]. field. repeat split; lra. Qed.
Lemma mass_of_atom E m z : has_masses E m -> mass_material m -> In z (all_zaids m) ->
  (fr Mass E (rebuild (fr Atom E m) m) (with_frac z (fr Atom E m z)) == - (z_frac z / tot_fraction m))%Q.
Proof. intros H A Hz. pose proof (norm_atom_pos E m H A) as N. pose proof (massof_pos E m z H Hz) as M. assert (T := proj2 A).
  assert (NA : (norm Mass E (rebuild (fr Atom E m) m) == - tot_fraction m / norm Atom E m)%Q).
  { unfold norm at 1. rewrite sum_rebuild. transitivity (qsum (map (fun z => z_frac z * - / norm Atom E m)%Q (all_zaids m))).
    - apply qsum_map_ext. intros z0 H0. cbn [wt]. rewrite massof_frac. cbn [with_frac z_frac]. unfold fr. cbn [wt]. pose proof (massof_pos E m z0 H H0). field. split; lra.
    - rewrite qsum_scale. unfold tot_fraction. field. lra. }
  unfold fr at 1. cbn [wt]. rewrite massof_frac. cbn [with_frac z_frac]. rewrite NA. unfold fr. cbn [wt]. field. repeat split; lra. Qed.

(** tabulated zaids *)
Lemma find_unique {A B} (f : A -> B) (eqb : B -> B -> bool) l r : (forall x y, eqb x y = true <-> x = y) -> NoDup (map f l) -> In r l -> find (fun x => eqb (f x) (f r)) l = Some r.
Proof. intros EQ N H. induction l as [|x l IH]; [destruct H|]. cbn [find]. inversion N; subst. destruct H as [->|H].
  - now rewrite (proj2 (EQ _ _) eq_refl).
  - destruct (eqb (f x) (f r)) eqn:E; [|now apply IH]. apply EQ in E. exfalso. apply H2. rewrite E. now apply in_map. Qed.
Lemma before_dot_no s : ~ In dot s -> before_dot s = s.
Proof. induction s as [|c s IH]; intros H; [reflexivity|]. cbn [before_dot]. destruct (Ascii.eqb_spec c dot) as [->|_]; [exfalso; apply H; left; reflexivity|]. f_equal. apply IH. intros Q. apply H. now right. Qed.
Lemma before_dot_dot s r : ~ In dot s -> before_dot (s ++ dot :: r) = s.
Proof. induction s as [|c s IH]; intros H; [cbn [app before_dot]; now rewrite Ascii.eqb_refl|]. cbn [app before_dot]. destruct (Ascii.eqb_spec c dot) as [->|_]; [exfalso; apply H; left; reflexivity|]. f_equal. apply IH. intros Q. apply H. now right. Qed.
Lemma before_dot_name z : wf_zaid z -> before_dot (z_name z) = z_elem z ++ z_iso z.
Proof. intros (_ & H1 & H2 & _). unfold z_name. assert (N : ~ In dot (z_elem z ++ z_iso z)) by (intros Q; apply in_app_or in Q; tauto).
  destruct (z_lib z); [rewrite app_assoc; now apply before_dot_dot|]. rewrite app_nil_r. now apply before_dot_no. Qed.
Lemma tab_masses E m : NoDup (map r_idx (l_iso (m_lib E))) -> wf_material m -> tabulated E m ->
  has_masses E m /\ forall z, In z (all_zaids m) -> table_mass E z = Ok (massof E z).
Proof. intros N W T.
  assert (G : forall z, In z (all_zaids m) -> exists r, (0 < r_mass r)%Q /\ zmass E z = Ok (r_mass r) /\ table_mass E z = Ok (r_mass r)).
  { intros z Hz. destruct (T z Hz) as [r [Hr [Er P]]]. exists r. split; [exact P|].
    pose proof (find_unique r_idx str_eqb _ r str_eqb_eq N Hr) as F. rewrite Er in F. unfold zmass, get_zaid_mass, table_mass.
    rewrite before_dot_name by (unfold wf_material in W; rewrite Forall_forall in W; now apply W). rewrite F. split; reflexivity. }
  split.
  - intros z Hz. destruct (G z Hz) as [r [P [E1 _]]]. eauto.
  - intros z Hz. destruct (G z Hz) as [r [P [E1 E2]]]. rewrite (massof_ok _ _ _ E1). exact E2. Qed.
Lemma table_mass_frac E z f : table_mass E (with_frac z f) = table_mass E z. Proof. reflexivity. Qed.

Lemma tad_parts E m : ~ (tot_fraction m == 0)%Q -> (forall z, In z (all_zaids m) -> table_mass E z = Ok (massof E z)) ->
  mapM (fun z => do q <- qdiv (z_frac z) (tot_fraction m); do a <- table_mass E z; Ok (q * a)%Q) (all_zaids m) =
  Ok (map (fun z => z_frac z / tot_fraction m * massof E z)%Q (all_zaids m)).
Proof. intros N H. apply mapM_ext_map. intros z Hz. rewrite qdiv_ok by exact N. cbn [bind]. rewrite (H z Hz). reflexivity. Qed.
Lemma tad_sum E m : ~ (tot_fraction m == 0)%Q -> (qsum (map (fun z => z_frac z / tot_fraction m * massof E z)%Q (all_zaids m)) == atom_mean_mass E m)%Q.
Proof. intros N. unfold atom_mean_mass, sum_over.
  transitivity (qsum (map (fun z => z_frac z * massof E z * / tot_fraction m)%Q (all_zaids m))).
  - apply qsum_map_ext. intros z _. field. exact N.
  - rewrite (qsum_scale (fun z => z_frac z * massof E z)%Q). reflexivity. Qed.
Lemma density_parts E m : ~ (tot_fraction m == 0)%Q -> has_masses E m -> (forall z, In z (all_zaids m) -> table_mass E z = Ok (massof E z)) ->
  mapM (fun z => do q <- qdiv (z_frac z) (tot_fraction m); do a <- table_mass E z; qdiv q a) (all_zaids m) =
  Ok (map (fun z => z_frac z / tot_fraction m / massof E z)%Q (all_zaids m)).
Proof. intros N HM H. apply mapM_ext_map. intros z Hz. rewrite qdiv_ok by exact N. cbn [bind]. rewrite (H z Hz). cbn [bind]. apply qdiv_ok. pose proof (massof_pos E m z HM Hz). lra. Qed.
Lemma density_sum E m : ~ (tot_fraction m == 0)%Q -> has_masses E m ->
  (qsum (map (fun z => z_frac z / tot_fraction m / massof E z)%Q (all_zaids m)) == sum_over (fun z => z_frac z / massof E z) m / tot_fraction m)%Q.
Proof. intros N H. unfold sum_over.
  transitivity (qsum (map (fun z => z_frac z / massof E z * / tot_fraction m)%Q (all_zaids m))).
  - apply qsum_map_ext. intros z Hz. pose proof (massof_pos E m z H Hz). field. split; [exact N|lra].
  - rewrite (qsum_scale (fun z => z_frac z / massof E z)%Q). reflexivity. Qed.

Lemma norm_atom_eq E m : has_masses E m -> (sum_over (fun z => z_frac z / massof E z) m == - norm Atom E m)%Q.
Proof. intros H. unfold norm, sum_over. cbn [wt]. rewrite <- (qsum_opp (fun z => (- z_frac z / massof E z)%Q)). apply qsum_map_ext. intros z Hz. pose proof (massof_pos E m z H Hz). cbv beta. field. lra. Qed.

(** mean masses and switching *)
Lemma mean_mass_to_mass E m : has_masses E m -> atom_material m -> (mass_mean_mass E (rebuild (fr Mass E m) m) == atom_mean_mass E m)%Q.
Proof. intros H A. pose proof (norm_mass_pos E m H A) as N. assert (T := proj2 A). unfold mass_mean_mass, atom_mean_mass.
  assert (E1 : (sum_over z_frac (rebuild (fr Mass E m) m) == -1)%Q) by (apply tot_fr_mass; lra).
  assert (E2 : (sum_over (fun z => z_frac z / massof E z) (rebuild (fr Mass E m) m) == - tot_fraction m / norm Mass E m)%Q).
  { rewrite sum_rebuild. transitivity (qsum (map (fun z => z_frac z * - / norm Mass E m)%Q (all_zaids m))).
    - apply qsum_map_ext. intros z Hz. rewrite massof_frac. cbn [with_frac z_frac]. unfold fr. cbn [wt]. pose proof (massof_pos E m z H Hz). field. split; lra.
    - rewrite qsum_scale. unfold tot_fraction. field. lra. }
  rewrite E1, E2. change (sum_over (fun z => z_frac z * massof E z) m)%Q with (norm Mass E m). change (sum_over z_frac m) with (tot_fraction m). field. split; lra. Qed.
Lemma mean_mass_to_atom E m : has_masses E m -> mass_material m -> (atom_mean_mass E (rebuild (fr Atom E m) m) == mass_mean_mass E m)%Q.
Proof. intros H A. pose proof (norm_atom_pos E m H A) as N. assert (T := proj2 A). unfold mass_mean_mass, atom_mean_mass.
  assert (E1 : (sum_over z_frac (rebuild (fr Atom E m) m) == 1)%Q) by (apply tot_fr_atom; lra).
  assert (E2 : (sum_over (fun z => z_frac z * massof E z) (rebuild (fr Atom E m) m) == - tot_fraction m / norm Atom E m)%Q).
  { rewrite sum_rebuild. transitivity (qsum (map (fun z => z_frac z * - / norm Atom E m)%Q (all_zaids m))).
    - apply qsum_map_ext. intros z Hz. rewrite massof_frac. cbn [with_frac z_frac]. unfold fr. cbn [wt]. pose proof (massof_pos E m z H Hz). field. split; lra.
    - rewrite qsum_scale. unfold tot_fraction. field. lra. }
  pose proof (norm_atom_eq E m H) as E3.
  rewrite E1, E2, E3. change (sum_over z_frac m) with (tot_fraction m). field. lra. Qed.
Lemma atom_mean_pos E m : has_masses E m -> atom_material m -> (0 < atom_mean_mass E m)%Q.
Proof. intros H A. pose proof (norm_mass_pos E m H A). unfold atom_mean_mass. apply Qlt_shift_div_l; [exact (proj2 A)|]. change (sum_over (fun z => z_frac z * massof E z) m)%Q with (norm Mass E m). lra. Qed.

(** the density calls *)
Lemma get_tad_atom nav E d m : has_masses E m -> (forall z, In z (all_zaids m) -> table_mass E z = Ok (massof E z)) -> atom_material m ->
  exists t, get_tad nav E d m = Ok (m, t) /\ (t == d / atom_mean_mass E m * nav)%Q.
Proof. intros H TM A. unfold get_tad, switch_inplace. rewrite no_must_atom by (apply Qlt_le_weak; apply A). cbn [bind].
  assert (N : ~ (tot_fraction m == 0)%Q) by (pose proof (proj2 A); lra). rewrite tad_parts by assumption. cbn [bind].
  pose proof (tad_sum E m N) as S. pose proof (atom_mean_pos E m H A) as P. rewrite qdiv_ok by (rewrite S; lra). cbn [bind]. eexists. split; [reflexivity|]. rewrite S. reflexivity. Qed.
Lemma table_rebuild E f m : (forall z, In z (all_zaids m) -> table_mass E z = Ok (massof E z)) -> forall z, In z (all_zaids (rebuild f m)) -> table_mass E z = Ok (massof E z).
Proof. intros H z Hz. rewrite all_zaids_rebuild in Hz. apply in_map_iff in Hz. destruct Hz as [z0 [<- H0]]. exact (H z0 H0). Qed.
Lemma get_tad_mass nav E d m : has_masses E m -> (forall z, In z (all_zaids m) -> table_mass E z = Ok (massof E z)) -> mass_material m ->
  exists t, get_tad nav E d m = Ok (rebuild (fr Atom E m) m, t) /\ (t == d / mass_mean_mass E m * nav)%Q.
Proof. intros H TM A. pose proof (switched_atom E m H A) as A1.
  destruct (get_tad_atom nav E d (rebuild (fr Atom E m) m) (has_masses_rebuild _ _ _ H) (table_rebuild _ _ _ TM) A1) as [t [G1 G2]].
  exists t. split; [|rewrite G2, mean_mass_to_atom by assumption; reflexivity].
  unfold get_tad in *. rewrite (inplace_atom E m H A). cbn [bind]. unfold switch_inplace in G1. rewrite no_must_atom in G1 by (apply Qlt_le_weak; apply A1). exact G1. Qed.
Lemma get_density_mass nav E t m : has_masses E m -> (forall z, In z (all_zaids m) -> table_mass E z = Ok (massof E z)) -> mass_material m ->
  exists d, get_density nav E t m = Ok (m, d) /\ (d == t / nav * mass_mean_mass E m)%Q.
Proof. intros H TM A. unfold get_density, switch_inplace. rewrite no_must_mass by (apply Qlt_le_weak; apply A). cbn [bind].
  assert (N : ~ (tot_fraction m == 0)%Q) by (pose proof (proj2 A); lra). rewrite density_parts by assumption. cbn [bind].
  pose proof (density_sum E m N H) as S. pose proof (norm_atom_pos E m H A) as P.
  pose proof (norm_atom_eq E m H) as E3.
  pose proof (proj2 A) as T.
  assert (Q : (0 < sum_over (fun z => z_frac z / massof E z) m / tot_fraction m)%Q).
  { rewrite E3. assert ((- norm Atom E m / tot_fraction m == norm Atom E m / - tot_fraction m)%Q) by (field; lra). rewrite H0. apply Qlt_shift_div_l; lra. }
  rewrite qdiv_ok by (rewrite S; lra). cbn [bind]. eexists. split; [reflexivity|]. rewrite S. unfold mass_mean_mass. change (sum_over z_frac m) with (tot_fraction m).
  rewrite E3. apply Qmult_comp; [reflexivity|]. field. split; lra. Qed.
Lemma get_density_atom nav E t m : has_masses E m -> (forall z, In z (all_zaids m) -> table_mass E z = Ok (massof E z)) -> atom_material m ->
  exists d, get_density nav E t m = Ok (rebuild (fr Mass E m) m, d) /\ (d == t / nav * atom_mean_mass E m)%Q.
Proof. intros H TM A. pose proof (switched_mass E m H A) as A1.
  destruct (get_density_mass nav E t (rebuild (fr Mass E m) m) (has_masses_rebuild _ _ _ H) (table_rebuild _ _ _ TM) A1) as [d [G1 G2]].
  exists d. split; [|rewrite G2, mean_mass_to_mass by assumption; reflexivity].
  unfold get_density in *. rewrite (inplace_mass E m H A). cbn [bind]. unfold switch_inplace in G1. rewrite no_must_mass in G1 by (apply Qlt_le_weak; apply A1). exact G1. Qed.

(** atom densities *)
Lemma scale_rebuild k m : mkmat (mt_name m) (map (scale_sub k) (mt_subs m)) = rebuild (fun z => (z_frac z * k)%Q) m.
Proof. reflexivity. Qed.
Lemma f2ad_atom nav E d m : has_masses E m -> (forall z, In z (all_zaids m) -> table_mass E z = Ok (massof E z)) -> atom_material m ->
  exists m', fractions_to_atom_densities nav E d m = Ok m' /\ refrac (fun z => z_frac z / tot_fraction m * (d / atom_mean_mass E m * nav))%Q m m'.
Proof. intros H TM A. unfold fractions_to_atom_densities. rewrite (inplace_mass E m H A). cbn [bind].
  set (m1 := rebuild (fr Mass E m) m). assert (H1 : has_masses E m1) by now apply has_masses_rebuild. assert (A1 : mass_material m1) by now apply switched_mass.
  rewrite (inplace_atom E m1 H1 A1). cbn [bind]. set (m2 := rebuild (fr Atom E m1) m1).
  assert (H2 : has_masses E m2) by now apply has_masses_rebuild. assert (A2 : atom_material m2) by now apply switched_atom.
  destruct (get_tad_atom nav E d m2 H2) as [t [G1 G2]]; [apply table_rebuild, table_rebuild; exact TM|exact A2|].
  rewrite G1. cbn [bind]. rewrite scale_rebuild. eexists. split; [reflexivity|]. unfold m2, m1. rewrite !rebuild_rebuild. apply refrac_rebuild. intros z Hz. cbn [with_frac z_frac].
  rewrite G2. unfold m2. rewrite mean_mass_to_atom by assumption. unfold m1. rewrite mean_mass_to_mass by assumption.
  pose proof (atom_of_mass E m z H A Hz) as Q. unfold with_frac in Q. rewrite Q. reflexivity. Qed.
Lemma f2ad_mass nav E d m : has_masses E m -> (forall z, In z (all_zaids m) -> table_mass E z = Ok (massof E z)) -> mass_material m ->
  exists m', fractions_to_atom_densities nav E d m = Ok m' /\ refrac (fun z => d * nav * (z_frac z / tot_fraction m) / massof E z)%Q m m'.
Proof. intros H TM A. unfold fractions_to_atom_densities. unfold switch_inplace at 1. rewrite no_must_mass by (apply Qlt_le_weak; apply A). cbn [bind].
  rewrite (inplace_atom E m H A). cbn [bind]. set (m2 := rebuild (fr Atom E m) m).
  assert (H2 : has_masses E m2) by now apply has_masses_rebuild. assert (A2 : atom_material m2) by now apply switched_atom.
  destruct (get_tad_atom nav E d m2 H2) as [t [G1 G2]]; [apply table_rebuild; exact TM|exact A2|].
  rewrite G1. cbn [bind]. rewrite scale_rebuild. eexists. split; [reflexivity|]. unfold m2. rewrite !rebuild_rebuild. apply refrac_rebuild. intros z Hz. cbn [with_frac z_frac].
  rewrite G2. unfold m2. rewrite mean_mass_to_atom by assumption. unfold mass_mean_mass. change (sum_over z_frac m) with (tot_fraction m).
  pose proof (norm_atom_eq E m H) as E3.
  rewrite E3. unfold fr. cbn [wt]. pose proof (norm_atom_pos E m H A). pose proof (massof_pos E m z H Hz). pose proof (proj2 A). field. repeat split; lra. Qed.
