From Verif Require Import PyBase PyLemmas WWModel WWSpec WWProofs WWProofs2 WWReal.
From Coq Require Import Reals Lra.

(** ** histories keep the particle structure *)
Lemma standard_map {A} (f : particle -> Q -> arr A -> arr A) v : standard v -> standard (map_pv f v).
Proof. intros [[b ->]|[b [c ->]]]; [left|right]; unfold map_pv; simpl; eauto. Qed.
Lemma step_standard {A} (O : ops A) pow w c : standard (vals w) -> standard (vals (ww_step O pow w c)).
Proof. intros H. destruct c; simpl.
  - unfold multiply. destruct (oeqb _ _ _); [exact H|]. simpl. now apply standard_map.
  - unfold soften. destruct (oeqb _ _ _); [exact H|]. simpl. now apply standard_map.
  - unfold add_particle. destruct H as [[b H]|[b [c H]]]; rewrite H; simpl; [right; eauto|rewrite H; right; eauto].
  - unfold remove_particle. destruct H as [[b H]|[b [c H]]]; rewrite H; simpl; [rewrite H; left; eauto|left; eauto].
  - now apply standard_map. Qed.
Lemma run_standard {A} (O : ops A) pow w cs : standard (vals w) -> standard (vals (ww_run O pow w cs)).
Proof. unfold ww_run. revert w; induction cs as [|c cs IH]; intros w H; simpl; [exact H|]. apply IH, step_standard, H. Qed.

(** ** add and remove a particle *)
Lemma at_single {A} (b : ebin A) p e x : at_ [(Neutron, b)] p e x =
  match p with Neutron => match dget Qeq_bool e b with Some a => voxel a x | None => None end | Photon => None end.
Proof. unfold at_; simpl. destruct p; reflexivity. Qed.

Lemma add_particle_spec {A} (O : ops A) pow w norm soft :
  standard (vals w) -> consistent O w ->
  (length (particles (vals w)) = 2%nat /\ add_particle O pow w norm soft = Err ValueError) \/
  (length (particles (vals w)) = 1%nat /\ exists w', add_particle O pow w norm soft = Ok w' /\
     particles (vals w') = [Neutron; Photon] /\
     (forall e x, at_ (vals w') Neutron e x = at_ (vals w) Neutron e x) /\
     (forall e x, at_ (vals w') Photon e x =
        option_map (fun v => omul O v (pow norm soft)) (at_ (vals w) Neutron e x)) /\
     consistent O w' /\
     (forall n s, add_particle O pow w' n s = Err ValueError) /\
     exists w'', remove_particle O w' = Ok w'' /\ vals w'' = vals w /\ rats w'' = rats w /\
       format_nested (vals w'') = format_nested (vals w) /\ ge w'' = ge w).
Proof. intros [[b H]|[b [c H]]] Hc; unfold add_particle, consistent in *; rewrite H in *; simpl.
  - right. split; [reflexivity|]. eexists; split; [reflexivity|]. simpl. repeat split.
    + intros e x. rewrite at_single. unfold at_; simpl.
      pose proof (dget_map_q (fun _ a => map3 (fun v => omul O v (pow norm soft)) a) e b) as G.
      destruct (dget Qeq_bool e b) as [a|]; [destruct G as [e' [_ ->]]; apply voxel_map3|now rewrite G].
    + eexists; split; [reflexivity|]. simpl. rewrite Hc. auto.
  - left. split; reflexivity. Qed.

Lemma remove_particle_spec {A} (O : ops A) w : standard (vals w) ->
  (length (particles (vals w)) = 1%nat /\ remove_particle O w = Err ValueError) \/
  (length (particles (vals w)) = 2%nat /\ exists w', remove_particle O w = Ok w' /\ particles (vals w') = [Neutron] /\
     (forall e x, at_ (vals w') Neutron e x = at_ (vals w) Neutron e x) /\
     (forall e x, at_ (vals w') Photon e x = None) /\ consistent O w').
Proof. intros [[b H]|[b [c H]]]; unfold remove_particle; rewrite H; simpl.
  - left. auto.
  - right. split; [reflexivity|]. eexists; split; [reflexivity|]. simpl. repeat split. Qed.

(** ** the grid *)
Lemma gname_eqb_ok a b : gname_eqb a b = true <-> a = b.
Proof. destruct a, b; simpl; rewrite ?andb_true_iff, ?particle_eqb_ok, ?Z.eqb_eq; split; intros H; try discriminate;
  try (destruct H; subst; reflexivity); try (inversion H; subst; auto); congruence. Qed.

Definition assign {A} (l : list (gname * list A)) (g : grid A) : grid A :=
  fold_left (fun g kv => gset (fst kv) (snd kv) g) l g.
Lemma assign_other {A} (l : list (gname * list A)) g n : ~ In n (map fst l) -> dget gname_eqb n (assign l g) = dget gname_eqb n g.
Proof. unfold assign. revert g; induction l as [|[k v] l IH]; intros g H; simpl in *; [reflexivity|].
  rewrite IH by tauto. unfold gset. apply (dget_dset_other gname_eqb gname_eqb_ok). intros ->; tauto. Qed.
Lemma assign_in {A} (l : list (gname * list A)) g n a : NoDup (map fst l) -> In (n, a) l -> dget gname_eqb n (assign l g) = Some a.
Proof. revert g; induction l as [|[k v] l IH]; intros g Hd Hi; [destruct Hi|]. simpl in Hd. inversion Hd; subst.
  destruct Hi as [Hi|Hi].
  - inversion Hi; subst. change (assign ((n, a) :: l) g) with (assign l (gset n a g)). rewrite assign_other by assumption.
    apply (dget_dset_same gname_eqb gname_eqb_ok).
  - change (assign ((k, v) :: l) g) with (assign l (gset k v g)). apply IH; assumption. Qed.
Lemma assign_app {A} (l l' : list (gname * list A)) g : assign (l ++ l') g = assign l' (assign l g).
Proof. apply fold_left_app. Qed.

Definition val_asg {A} (g : geom) (v : pvals A) : list (gname * list A) :=
  flat_map (fun pb => map (fun ea => (GVal (fst pb) (e2 (fst ea)), grid_array g (snd ea))) (snd pb)) v.
Definition rat_asg {A} (O : ops A) (g : geom) (v : pvals A) : list (gname * list A) :=
  flat_map (fun pb => map (fun ea => (GRatio (fst pb) (e2 (fst ea)), grid_array g (snd ea))) (snd pb)
      ++ [(GMax (fst pb), grid_array g (max_over O (dvals (snd pb))))]) v.

Lemma fold_left_map {X Y Z} (f : X -> Y -> X) (h : Z -> Y) l x : fold_left f (map h l) x = fold_left (fun x z => f x (h z)) l x.
Proof. revert x; induction l; simpl; auto. Qed.

Lemma fill_values_assign {A} (gm : geom) (v : pvals A) g : fill_values gm v g = assign (val_asg gm v) g.
Proof. unfold fill_values, val_asg. revert g; induction v as [|pb v IH]; intros g; simpl; [reflexivity|].
  rewrite IH, assign_app. f_equal. unfold assign. rewrite fold_left_map. reflexivity. Qed.
Lemma fill_ratios_assign {A} (O : ops A) (gm : geom) (v : pvals A) g : fill_ratios O gm v g = assign (rat_asg O gm v) g.
Proof. unfold fill_ratios, rat_asg. revert g; induction v as [|pb v IH]; intros g; simpl; [reflexivity|].
  rewrite IH, assign_app. f_equal. rewrite assign_app. unfold assign. rewrite fold_left_map. reflexivity. Qed.

Lemma nodup_map_inj {X Y Z} (f : X -> Y) (g : Y -> Z) l : (forall a b, g a = g b -> a = b) -> NoDup (map f l) -> NoDup (map (fun x => g (f x)) l).
Proof. intros Hg. induction l as [|x l IH]; simpl; intros H; [constructor|]. inversion H; subst. constructor; [|auto].
  intros Hi. apply in_map_iff in Hi. destruct Hi as [y [H1 H4]]. apply Hg in H1. apply H2. rewrite <- H1. apply in_map. exact H4. Qed.

Lemma val_names {A} (gm : geom) (v : pvals A) n : In n (map fst (val_asg gm v)) -> exists p b e, In (p, b) v /\ In e (dkeys b) /\ n = GVal p (e2 e).
Proof. unfold val_asg. intros H. apply in_map_iff in H. destruct H as [[n' a] [H1 H2]]. simpl in H1; subst n'.
  apply in_flat_map in H2. destruct H2 as [[p b] [Hpb H2]]. apply in_map_iff in H2. destruct H2 as [[e x] [H2 H3]].
  simpl in H2. inversion H2; subst. exists p, b, e. repeat split; auto. apply (in_map fst) in H3. exact H3. Qed.
Lemma rat_names {A} (O : ops A) (gm : geom) (v : pvals A) n : In n (map fst (rat_asg O gm v)) ->
  exists p b, In (p, b) v /\ (n = GMax p \/ exists e, In e (dkeys b) /\ n = GRatio p (e2 e)).
Proof. unfold rat_asg. intros H. apply in_map_iff in H. destruct H as [[n' a] [H1 H2]]. simpl in H1; subst n'.
  apply in_flat_map in H2. destruct H2 as [[p b] [Hpb H2]]. apply in_app_or in H2. destruct H2 as [H2|H2].
  - apply in_map_iff in H2. destruct H2 as [[e x] [H2 H3]]. simpl in H2. inversion H2; subst.
    exists p, b. split; [exact Hpb|]. right. exists e. split; [apply (in_map fst) in H3; exact H3|reflexivity].
  - destruct H2 as [H2|[]]. inversion H2; subst. exists p, b. auto. Qed.

Lemma standard_nodup {A} (v : pvals A) : standard v -> NoDup (dkeys v).
Proof. intros [[b ->]|[b [c ->]]]; unfold dkeys; simpl; repeat constructor; simpl; intuition discriminate. Qed.

Lemma val_nodup {A} (gm : geom) (v : pvals A) : NoDup (dkeys v) -> unique_labels v -> NoDup (map fst (val_asg gm v)).
Proof. unfold unique_labels. induction v as [|[p b] v IH]; intros Hd Hu; simpl; [constructor|].
  inversion Hd; subst. inversion Hu; subst. rewrite map_app, map_map. simpl.
  assert (N1 : NoDup (map (fun x : Q * arr A => GVal p (e2 (fst x))) b)).
  { simpl in H3. unfold dkeys in H3. rewrite map_map in H3. apply (nodup_map_inj _ (GVal p)) in H3; [exact H3|intros; congruence]. }
  specialize (IH H2 H4).
  clear - N1 IH H1. induction b as [|[e a] b IHb]; simpl; [exact IH|]. simpl in N1. inversion N1; subst.
  constructor; [|auto]. intros Hi. apply in_app_or in Hi. destruct Hi as [Hi|Hi]; [contradiction|].
  apply val_names in Hi. destruct Hi as [p' [b' [e' [Q1 [_ Q2]]]]]. inversion Q2; subst. apply H1. apply (in_map fst) in Q1. exact Q1. Qed.

Lemma rat_nodup {A} (O : ops A) (gm : geom) (v : pvals A) : NoDup (dkeys v) -> unique_labels v -> NoDup (map fst (rat_asg O gm v)).
Proof. unfold unique_labels. induction v as [|[p b] v IH]; intros Hd Hu; simpl; [constructor|].
  inversion Hd; subst. inversion Hu; subst. rewrite !map_app, map_map. simpl.
  assert (N1 : NoDup (map (fun x : Q * arr A => GRatio p (e2 (fst x))) b)).
  { simpl in H3. unfold dkeys in H3. rewrite map_map in H3. apply (nodup_map_inj _ (GRatio p)) in H3; [exact H3|intros; congruence]. }
  specialize (IH H2 H4). rewrite <- app_assoc.
  clear - N1 IH H1. induction b as [|[e a] b IHb]; simpl.
  - constructor; [|exact IH]. intros Hi. apply rat_names in Hi. destruct Hi as [p' [b' [Q1 [Q2|[e' [_ Q2]]]]]]; inversion Q2; subst.
    apply H1. apply (in_map fst) in Q1. exact Q1.
  - simpl in N1. inversion N1; subst.
    constructor; [|auto]. intros Hi. apply in_app_or in Hi. destruct Hi as [Hi|[Hi|Hi]]; [contradiction|discriminate|].
    apply rat_names in Hi. destruct Hi as [p' [b' [Q1 [Q2|[e' [_ Q2]]]]]]; inversion Q2; subst. apply H1. apply (in_map fst) in Q1. exact Q1. Qed.

Lemma map_pv_keys {A} (f : particle -> Q -> arr A -> arr A) v : dkeys (map_pv f v) = dkeys v.
Proof. unfold map_pv, dkeys. rewrite map_map. reflexivity. Qed.
Lemma map_pv_labels {A} (f : particle -> Q -> arr A -> arr A) v : unique_labels v -> unique_labels (map_pv f v).
Proof. unfold unique_labels, map_pv. rewrite Forall_map. apply Forall_impl. intros [p b] H. simpl in *.
  unfold dkeys in *. rewrite !map_map in *. simpl. exact H. Qed.

Lemma set_values_grid {A} (O : ops A) w v : NoDup (dkeys v) -> grid_ok O (set_values O w v).
Proof. intros Hd Hu p b e a Hpb Hea. cbn [vals gr ge set_values] in *.
  rewrite fill_ratios_assign, fill_values_assign.
  set (r := calculate_ratios O v). assert (Hdr : NoDup (dkeys r)) by (unfold r, calculate_ratios; now rewrite map_pv_keys).
  assert (Hur : unique_labels r) by (unfold r, calculate_ratios; now apply map_pv_labels).
  assert (Hrb : In (p, map (fun ea => (fst ea, calc_ratios O (snd ea))) b) r).
  { unfold r, calculate_ratios, map_pv. apply in_map_iff. exists (p, b). split; [reflexivity|exact Hpb]. }
  repeat split.
  - rewrite assign_other.
    + apply assign_in; [now apply val_nodup|]. unfold val_asg. apply in_flat_map. exists (p, b). split; [exact Hpb|].
      apply in_map_iff. exists (e, a). auto.
    + intros Hi. apply rat_names in Hi. destruct Hi as [p' [b' [_ [Q2|[e' [_ Q2]]]]]]; discriminate.
  - apply assign_in; [now apply rat_nodup|]. unfold rat_asg. apply in_flat_map. eexists; split; [exact Hrb|].
    apply in_or_app. left. apply in_map_iff. exists (e, calc_ratios O a). split; [reflexivity|].
    apply in_map_iff. exists (e, a). auto.
  - apply assign_in; [now apply rat_nodup|]. unfold rat_asg. apply in_flat_map. eexists; split; [exact Hrb|].
    apply in_or_app. right. left. simpl. unfold dvals. rewrite !map_map. reflexivity. Qed.

Lemma step_grid {A} (O : ops A) pow w c : standard (vals w) -> grid_ok O w -> grid_ok O (ww_step O pow w c).
Proof. intros Hs H. pose proof (standard_nodup _ Hs) as Hd. destruct c; simpl.
  - unfold multiply. destruct (oeqb _ _ _); [exact H|]. apply set_values_grid. now rewrite map_pv_keys.
  - unfold soften. destruct (oeqb _ _ _); [exact H|]. apply set_values_grid. now rewrite map_pv_keys.
  - unfold add_particle. destruct (Nat.eqb _ _); [exact H|]. destruct (dget _ _ _); [|exact H]. apply set_values_grid.
    apply dset_nodup; [exact particle_eqb_ok|exact Hd].
  - unfold remove_particle. destruct (Nat.eqb _ _); [exact H|]. destruct (dget _ _ _); [|exact H]. apply set_values_grid.
    unfold dkeys; simpl. repeat constructor; tauto.
  - apply set_values_grid. now rewrite map_pv_keys. Qed.

Lemma run_grid {A} (O : ops A) pow g v cs : standard v -> grid_ok O (ww_run O pow (new_ww O g v) cs).
Proof. intros Hs. unfold ww_run.
  assert (H : grid_ok O (new_ww O g v)) by (apply set_values_grid, standard_nodup, Hs).
  assert (Hs' : standard (vals (new_ww O g v))) by exact Hs. revert H Hs'. generalize (new_ww O g v).
  induction cs as [|c cs IH]; intros w H Hw; simpl; [exact H|]. apply IH; [now apply step_grid|now apply step_standard]. Qed.

(** ** real powers *)
Open Scope R_scope.

Lemma rpow_1 x : 0 <= x -> rpow x 1 = x.
Proof. intros H. unfold rpow. destruct (Req_EM_T x 0); [destruct (Req_EM_T 1 0); lra|]. apply Rpower_1. lra. Qed.
Lemma rpow_pos x s : 0 < x -> 0 < rpow x s.
Proof. intros H. unfold rpow. destruct (Req_EM_T x 0); [lra|]. unfold Rpower. apply exp_pos. Qed.
Lemma rpow_0 s : s <> 0 -> rpow 0 s = 0.
Proof. intros H. unfold rpow. destruct (Req_EM_T 0 0); [|lra]. destruct (Req_EM_T s 0); [contradiction|reflexivity]. Qed.
Lemma rpow_nonneg x s : 0 <= x -> 0 <= rpow x s.
Proof. intros [H|<-]; [left; now apply rpow_pos|]. unfold rpow. destruct (Req_EM_T 0 0); [|lra]. destruct (Req_EM_T s 0); lra. Qed.
Lemma rpow_posE x s : 0 < x -> rpow x s = Rpower x s.
Proof. intros H. unfold rpow. destruct (Req_EM_T x 0); [lra|reflexivity]. Qed.
Lemma rpow_rpow x s t : 0 <= x -> 0 < s -> 0 < t -> rpow (rpow x s) t = rpow x (s * t).
Proof. intros [H|<-] Hs Ht.
  - rewrite !(rpow_posE x) by exact H. rewrite rpow_posE by (unfold Rpower; apply exp_pos). apply Rpower_mult.
  - rewrite !rpow_0; nra. Qed.

Lemma Reqb_true a b : Reqb a b = true <-> a = b.
Proof. unfold Reqb. destruct (Req_EM_T a b); split; congruence. Qed.

Lemma soften_at w s p e x : rnonneg (vals w) ->
  at_ (vals (soften Rops rpow w s)) p e x = option_map (fun v => rpow v s) (at_ (vals w) p e x).
Proof. intros Hn. unfold soften; simpl. destruct (Reqb s 1) eqn:E.
  - apply Reqb_true in E; subst. destruct (at_ (vals w) p e x) as [v|] eqn:Ev; simpl; [|reflexivity].
    rewrite rpow_1; [reflexivity|eapply Hn; eauto].
  - cbn [vals set_values]. rewrite !at_arr, arr_of_map0. destruct (arr_of (vals w) p e); simpl; [|reflexivity]. apply voxel_map3. Qed.

Lemma soften_nonneg w s : rnonneg (vals w) -> rnonneg (vals (soften Rops rpow w s)).
Proof. intros Hn p e x y. rewrite soften_at by exact Hn. destruct (at_ (vals w) p e x) as [v|] eqn:E; simpl; [|discriminate].
  intros H; inversion H. apply rpow_nonneg. eapply Hn; eauto. Qed.

Lemma soften_soften w s t : rnonneg (vals w) -> 0 < s -> 0 < t -> forall p e x,
  at_ (vals (soften Rops rpow (soften Rops rpow w s) t)) p e x = at_ (vals (soften Rops rpow w (s * t))) p e x.
Proof. intros Hn Hs Ht p e x. rewrite !soften_at; auto using soften_nonneg.
  destruct (at_ (vals w) p e x) as [v|] eqn:E; simpl; [|reflexivity]. f_equal. apply rpow_rpow; auto. eapply Hn; eauto. Qed.

(** ratios commute with powers *)
Lemma rpow_div a b s : 0 < a -> 0 < b -> rpow a s / rpow b s = rpow (a / b) s.
Proof. intros Ha Hb. rewrite !rpow_posE; auto; [|now apply Rdiv_lt_0_compat].
  unfold Rdiv, Rpower. rewrite ln_mult by (auto; now apply Rinv_0_lt_compat). rewrite ln_Rinv by exact Hb.
  rewrite <- exp_Ropp, <- exp_plus. f_equal. ring. Qed.
Lemma rpow_lt a b s : 0 <= a -> 0 < s -> a < b -> rpow a s < rpow b s.
Proof. intros [Ha|<-] Hs H.
  - rewrite !rpow_posE by lra. unfold Rpower. apply exp_increasing. apply Rmult_lt_compat_l; [exact Hs|]. now apply ln_increasing.
  - rewrite rpow_0 by lra. apply rpow_pos. exact H. Qed.
Lemma rpow_inj a b s : 0 <= a -> 0 <= b -> 0 < s -> rpow a s = rpow b s -> a = b.
Proof. intros Ha Hb Hs H. destruct (Rtotal_order a b) as [L|[L|L]]; auto; apply (rpow_lt _ _ s) in L; auto; lra. Qed.
Lemma rpow_one s : rpow 1 s = 1.
Proof. rewrite rpow_posE by lra. unfold Rpower. rewrite ln_1, Rmult_0_r. apply exp_0. Qed.

Lemma Rltb_rpow a b s : 0 <= a -> 0 <= b -> 0 < s -> Rltb (rpow a s) (rpow b s) = Rltb a b.
Proof. intros Ha Hb Hs. unfold Rltb. destruct (Rlt_dec a b) as [L|L].
  - destruct (Rlt_dec (rpow a s) (rpow b s)); [reflexivity|]. exfalso. apply n. now apply rpow_lt.
  - destruct (Rlt_dec (rpow a s) (rpow b s)) as [G|G]; [|reflexivity]. exfalso.
    assert (Hle : b <= a) by lra. destruct Hle as [Hle|Hle]; [apply (rpow_lt _ _ s) in Hle; auto; lra|subst; lra]. Qed.

Definition ext_map (f : R -> R) (x : ext R) : ext R := match x with Fin a => Fin (f a) | PInf => PInf | NInf => NInf | NaN => NaN end.
Definition ext_nn (x : ext R) : Prop := match x with Fin a => 0 <= a | NInf => False | _ => True end.

Lemma divx_rpow v b s : 0 <= v -> 0 <= b -> 0 < s ->
  divx Rops (rpow v s) (rpow b s) = ext_map (fun x => rpow x s) (divx Rops v b) /\ ext_nn (divx Rops v b).
Proof. intros Hv Hb Hs. unfold divx; simpl.
  assert (E0 : forall z, 0 <= z -> Reqb (rpow z s) 0 = Reqb z 0).
  { intros z Hz. unfold Reqb. destruct (Req_EM_T z 0) as [E|E].
    - subst. rewrite rpow_0 by lra. destruct (Req_EM_T 0 0); [reflexivity|lra].
    - assert (0 < rpow z s) by (apply rpow_pos; lra). destruct (Req_EM_T (rpow z s) 0); [lra|reflexivity]. }
  rewrite !E0 by assumption. destruct (Reqb b 0) eqn:Eb.
  - destruct (Reqb v 0) eqn:Ev; [split; [reflexivity|exact I]|].
    assert (Hv' : v <> 0) by (intros E; apply Reqb_true in E; congruence).
    assert (P1 : 0 < v) by lra. assert (P2 := rpow_pos v s P1).
    unfold Rltb. destruct (Rlt_dec 0 v); [|lra]. destruct (Rlt_dec 0 (rpow v s)); [|lra]. split; [reflexivity|exact I].
  - assert (Hb' : b <> 0) by (intros E; apply Reqb_true in E; congruence). assert (P1 : 0 < b) by lra.
    simpl. split.
    + f_equal. destruct Hv as [Hv|<-]; [now apply rpow_div|].
      unfold Rdiv. rewrite Rmult_0_l, rpow_0 by lra. ring.
    + unfold Rdiv. apply Rmult_le_pos; [exact Hv|]. left. now apply Rinv_0_lt_compat. Qed.

Lemma invert_rpow x s : 0 < s -> ext_nn x ->
  invert_small Rops (ext_map (fun x => rpow x s) x) = ext_map (fun x => rpow x s) (invert_small Rops x) /\ ext_nn (invert_small Rops x).
Proof. intros Hs Hx. destruct x as [a| | |]; simpl in *; try tauto; try (split; [reflexivity|exact I]).
  assert (E1 : Rltb (rpow a s) 1 = Rltb a 1) by (pose proof (Rltb_rpow a 1 s Hx ltac:(lra) Hs) as G; rewrite rpow_one in G; exact G). rewrite E1.
  destruct (Rltb a 1) eqn:E; [|split; [reflexivity|exact Hx]].
  assert (E0 : Reqb (rpow a s) 0 = Reqb a 0).
  { unfold Reqb. destruct (Req_EM_T a 0) as [Z|Z].
    - subst. rewrite rpow_0 by lra. destruct (Req_EM_T 0 0); [reflexivity|lra].
    - assert (0 < rpow a s) by (apply rpow_pos; lra). destruct (Req_EM_T (rpow a s) 0); [lra|reflexivity]. }
  rewrite E0. destruct (Reqb a 0) eqn:Ea; [split; [reflexivity|exact I]|].
  assert (Ha : a <> 0) by (intros Z; apply Reqb_true in Z; congruence). assert (P : 0 < a) by lra.
  simpl. split.
  - f_equal. rewrite <- (rpow_one s) at 1. apply rpow_div; lra.
  - unfold Rdiv. rewrite Rmult_1_l. left. now apply Rinv_0_lt_compat. Qed.

Lemma lmax_rpow s x l : 0 < s -> Forall (fun y => 0 <= y) (x :: l) ->
  lmax Rops (rpow x s) (map (fun y => rpow y s) l) = rpow (lmax Rops x l) s.
Proof. intros Hs. revert x; induction l as [|y l IH]; intros x H; simpl; [reflexivity|].
  inversion H as [|? ? Hx H']; subst. inversion H' as [|? ? Hy H'']; subst.
  assert (E : omax Rops (rpow x s) (rpow y s) = rpow (omax Rops x y) s).
  { unfold omax; simpl. rewrite Rltb_rpow by assumption. destruct (Rltb x y); reflexivity. }
  rewrite E. apply IH. constructor; [|exact H'']. unfold omax; simpl. destruct (Rltb x y); assumption. Qed.

Lemma max_ratio_rpow s v nbs : 0 < s -> 0 <= v -> Forall (fun y => 0 <= y) nbs ->
  max_ratio_of Rops (rpow v s) (map (fun y => rpow y s) nbs) = rpow (max_ratio_of Rops v nbs) s.
Proof. intros Hs Hv Hn. unfold max_ratio_of.
  assert (G : finite_only (map (fun b => invert_small Rops (divx Rops (rpow v s) b)) (map (fun y => rpow y s) nbs))
     = map (fun y => rpow y s) (finite_only (map (fun b => invert_small Rops (divx Rops v b)) nbs))
     /\ Forall (fun y => 0 <= y) (finite_only (map (fun b => invert_small Rops (divx Rops v b)) nbs))).
  { induction Hn as [|b nbs Hb Hn IH]; [split; [reflexivity|constructor]|]. cbn [map finite_only flat_map].
    destruct (divx_rpow v b s Hv Hb Hs) as [D1 D2]. rewrite D1.
    destruct (invert_rpow (divx Rops v b) s Hs D2) as [I1 I2]. rewrite I1.
    destruct IH as [IH1 IH2]. unfold finite_only in *. rewrite map_app.
    destruct (invert_small Rops (divx Rops v b)) as [a| | |]; simpl in *; try (split; [exact IH1|exact IH2]).
    split; [f_equal; exact IH1|constructor; [exact I2|exact IH2]]. }
  destruct G as [G1 G2]. rewrite G1.
  destruct (finite_only (map (fun b => invert_small Rops (divx Rops v b)) nbs)) as [|x xs]; simpl; [now rewrite rpow_one|].
  now apply lmax_rpow. Qed.

Lemma neighbours_map3 (f : R -> R) a k j i : f 0 = 0 ->
  neighbour_values Rops (map3 f a) k j i = map f (neighbour_values Rops a k j i).
Proof. intros H0. unfold neighbour_values. rewrite map_map. apply map_ext. intros [[k' j'] i']. 
  assert (E : get3z (map3 f a) k' j' i' = option_map f (get3z a k' j' i')).
  { unfold get3z. destruct ((k' <? 0)%Z || (j' <? 0)%Z || (i' <? 0)%Z); [reflexivity|]. apply (voxel_map3 f a (Z.to_nat k', Z.to_nat j', Z.to_nat i')). }
  rewrite E. destruct (get3z a k' j' i'); simpl; congruence. Qed.

Lemma soften_ratios w nz ny nx s : consistent Rops w -> shaped nz ny nx (vals w) -> rnonneg (vals w) -> 0 < s -> forall p e x,
  at_ (rats (soften Rops rpow w s)) p e x = option_map (fun r => rpow r s) (at_ (rats w) p e x).
Proof. intros Hc Hs Hn Hp p e x.
  assert (Hgoal : forall a, arr_of (vals w) p e = Some a ->
     voxel (calc_ratios Rops (map3 (fun v => rpow v s) a)) x = option_map (fun r => rpow r s) (voxel (calc_ratios Rops a) x)).
  { intros a Ha. pose proof (shaped_arr _ _ _ _ _ _ _ Hs Ha) as Hr. destruct x as [[k j] i].
    rewrite !(calc_voxel Rops nz ny nx) by (try apply map3_rect; exact Hr). rewrite voxel_map3.
    destruct (voxel a (k, j, i)) as [v|] eqn:Ev; simpl; [|reflexivity]. f_equal.
    unfold ratio_at. rewrite !get3z_voxel, voxel_map3, Ev. simpl.
    rewrite neighbours_map3 by (apply rpow_0; lra).
    assert (Hnn : forall q y, voxel a q = Some y -> 0 <= y).
    { intros q y Hy. apply (Hn p e q y). rewrite at_arr, Ha. exact Hy. }
    apply max_ratio_rpow; [exact Hp|eapply Hnn; eauto|].
    apply Forall_forall. intros y Hy. unfold neighbour_values in Hy. apply in_map_iff in Hy. destruct Hy as [[[k' j'] i'] [H1 _]].
    destruct (get3z a k' j' i') as [u|] eqn:Eu; [|subst; simpl; lra].
    destruct (get3z_some _ _ _ _ _ Eu) as [k2 [j2 [i2 [_ [_ [_ Hu]]]]]]. subst. eapply Hnn; eauto. }
  unfold soften; simpl. destruct (Reqb s 1) eqn:E.
  - apply Reqb_true in E; subst s. rewrite Hc in *. unfold calculate_ratios in *. rewrite at_arr, arr_of_map0.
    destruct (arr_of (vals w) p e) as [a|] eqn:Ea; simpl; [|reflexivity].
    rewrite <- (Hgoal a eq_refl). f_equal. f_equal.
    pose proof (shaped_arr _ _ _ _ _ _ _ Hs Ea) as Hr.
    apply (arr_ext nz ny nx); [exact Hr|now apply map3_rect|]. intros q. rewrite voxel_map3.
    destruct (voxel a q) as [y|] eqn:Ey; simpl; [|reflexivity]. rewrite rpow_1; [reflexivity|].
    apply (Hn p e q y). rewrite at_arr, Ea. exact Ey.
  - cbn [rats set_values]. rewrite Hc. unfold calculate_ratios. rewrite !at_arr, !arr_of_map0.
    destruct (arr_of (vals w) p e) as [a|] eqn:Ea; simpl; [|reflexivity]. now apply Hgoal. Qed.

(** documentation of add_particle vs code, characterised *)
Lemma add_doc_iff x norm soft : 0 < x -> 0 < norm ->
  (x * rpow norm soft = rpow (x * norm) soft <-> x = 1 \/ soft = 1).
Proof. intros Hx Hn. rewrite (rpow_posE norm) by exact Hn. rewrite rpow_posE by nra.
  rewrite <- Rpower_mult_distr by assumption.
  assert (P : 0 < Rpower norm soft) by (unfold Rpower; apply exp_pos).
  split.
  - intros H. assert (E : x = Rpower x soft) by nra. unfold Rpower in E.
    rewrite <- (exp_ln x Hx) in E at 1. apply exp_inv in E.
    destruct (Req_EM_T soft 1) as [|N]; [right; assumption|left].
    assert (L : ln x = 0) by nra. apply ln_inv; [exact Hx|lra|]. rewrite ln_1. exact L.
  - intros [->| ->].
    + rewrite <- (rpow_posE 1 soft) by lra. rewrite rpow_one. reflexivity.
    + rewrite !Rpower_1 by assumption. reflexivity. Qed.
