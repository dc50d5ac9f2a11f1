From Verif Require Import PyBase PyLemmas WWModel WWSpec WWProofs.
From Coq Require Import Lqa.
Open Scope Q_scope.

Lemma particle_eqb_ok a b : particle_eqb a b = true <-> a = b.
Proof. destruct a, b; simpl; split; congruence. Qed.

(** ** dictionaries under map *)
Lemma dget_map_pv {A} (f : particle -> Q -> arr A -> arr A) (v : pvals A) p :
  dget particle_eqb p (map_pv f v) =
  option_map (fun b => map (fun ea => (fst ea, f p (fst ea) (snd ea))) b) (dget particle_eqb p v).
Proof. unfold map_pv. induction v as [|[p' b] v IH]; simpl; [reflexivity|].
  destruct (particle_eqb p p') eqn:E; [apply particle_eqb_ok in E; subst; reflexivity|exact IH]. Qed.

Lemma Qeqb_sym a b : Qeq_bool a b = Qeq_bool b a.
Proof. destruct (Qeqb_spec a b), (Qeqb_spec b a); try reflexivity; exfalso; [apply H0|apply H]; symmetry; assumption. Qed.
Lemma Qeqb_trans a b c : a == b -> Qeq_bool a c = Qeq_bool b c.
Proof. intros H. destruct (Qeqb_spec a c), (Qeqb_spec b c); try reflexivity; exfalso.
  - apply H1. rewrite <- H. exact H0. - apply H0. rewrite H. exact H1. Qed.

Lemma dget_q_compat {V} e e' (d : list (Q * V)) : e == e' -> dget Qeq_bool e d = dget Qeq_bool e' d.
Proof. intros H. induction d as [|[k v] d IH]; simpl; [reflexivity|].
  rewrite (Qeqb_trans e e' k H). now rewrite IH. Qed.

Lemma dget_map_q {V W} (g : Q -> V -> W) e (d : list (Q * V)) :
  match dget Qeq_bool e d with
  | Some a => exists e', e == e' /\ dget Qeq_bool e (map (fun ea => (fst ea, g (fst ea) (snd ea))) d) = Some (g e' a)
  | None => dget Qeq_bool e (map (fun ea => (fst ea, g (fst ea) (snd ea))) d) = None
  end.
Proof. induction d as [|[k v] d IH]; simpl; [reflexivity|].
  destruct (Qeqb_spec e k); [exists k; auto|exact IH]. Qed.

Definition arr_of {A} (v : pvals A) p e : option (arr A) :=
  match dget particle_eqb p v with Some b => dget Qeq_bool e b | None => None end.
Lemma at_arr {A} (v : pvals A) p e x : at_ v p e x = match arr_of v p e with Some a => voxel a x | None => None end.
Proof. unfold at_, arr_of. destruct (dget particle_eqb p v); reflexivity. Qed.

Lemma arr_of_map {A} (f : particle -> Q -> arr A -> arr A) v p e :
  match arr_of v p e with
  | Some a => exists e', e == e' /\ arr_of (map_pv f v) p e = Some (f p e' a)
  | None => arr_of (map_pv f v) p e = None
  end.
Proof. unfold arr_of. rewrite dget_map_pv. destruct (dget particle_eqb p v) as [b|]; simpl; [|reflexivity].
  apply (dget_map_q (fun e a => f p e a)). Qed.
Lemma arr_of_map0 {A} (f : arr A -> arr A) v p e :
  arr_of (map_pv (fun _ _ a => f a) v) p e = option_map f (arr_of v p e).
Proof. pose proof (arr_of_map (fun _ _ a => f a) v p e) as H. destruct (arr_of v p e); simpl.
  - destruct H as [e' [_ H]]. exact H. - exact H. Qed.

Lemma arr_of_q {A} (v : pvals A) p e e' : e == e' -> arr_of v p e = arr_of v p e'.
Proof. intros H. unfold arr_of. destruct (dget particle_eqb p v); [|reflexivity]. now apply dget_q_compat. Qed.

Lemma shaped_arr {A} nz ny nx (v : pvals A) p e a : shaped nz ny nx v -> arr_of v p e = Some a -> rect nz ny nx a.
Proof. unfold shaped, arr_of. intros Hs. destruct (dget particle_eqb p v) as [b|] eqn:E; [|discriminate].
  intros Ha. apply (dget_some_in particle_eqb particle_eqb_ok) in E. rewrite Forall_forall in Hs. specialize (Hs _ E). simpl in Hs.
  clear E. induction Hs as [|[k x] b Hx Hb IH]; simpl in *; [discriminate|].
  destruct (Qeq_bool e k); [inversion Ha; subst; exact Hx|auto]. Qed.

Lemma shaped_map {A} nz ny nx (f : particle -> Q -> arr A -> arr A) v :
  (forall p e a, rect nz ny nx a -> rect nz ny nx (f p e a)) -> shaped nz ny nx v -> shaped nz ny nx (map_pv f v).
Proof. intros Hf Hs. unfold shaped, map_pv in *. rewrite Forall_map. eapply Forall_impl; [|exact Hs].
  intros [p b] Hb. simpl in *. rewrite Forall_map. eapply Forall_impl; [|exact Hb]. intros [e a] Ha. simpl in *. auto. Qed.

(** ** consistency over histories *)
Lemma set_values_consistent {A} (O : ops A) w v : consistent O (set_values O w v).
Proof. reflexivity. Qed.
Lemma step_consistent {A} (O : ops A) pow w c : consistent O w -> consistent O (ww_step O pow w c).
Proof. intros H. destruct c; simpl.
  - unfold multiply. destruct (oeqb O f (o1 O)); [exact H|reflexivity].
  - unfold soften. destruct (oeqb O s (o1 O)); [exact H|reflexivity].
  - unfold add_particle. destruct (Nat.eqb _ _); [exact H|]. destruct (dget _ _ _); [reflexivity|exact H].
  - unfold remove_particle. destruct (Nat.eqb _ _); [exact H|]. destruct (dget _ _ _); [reflexivity|exact H].
  - reflexivity. Qed.
Lemma run_consistent {A} (O : ops A) pow g v cs : consistent O (ww_run O pow (new_ww O g v) cs).
Proof. unfold ww_run. assert (H : consistent O (new_ww O g v)) by reflexivity.
  revert H. generalize (new_ww O g v). induction cs as [|c cs IH]; intros w H; simpl; [exact H|].
  apply IH, step_consistent, H. Qed.

(** the keys (particles and energies) and shapes are those of the values *)
Lemma at_rats_ex w p e x nz ny nx y : consistent Qops w -> shaped nz ny nx (vals w) ->
  at_ (vals w) p e x = Some y -> exists r, at_ (rats w) p e x = Some r.
Proof. intros Hc Hs. rewrite Hc, !at_arr. unfold calculate_ratios. rewrite arr_of_map0.
  destruct (arr_of (vals w) p e) as [a|] eqn:E; [|discriminate]. simpl.
  pose proof (shaped_arr _ _ _ _ _ _ _ Hs E) as Hr. intros Hy. destruct x as [[k j] i].
  rewrite (calc_voxel Qops nz ny nx) by exact Hr. rewrite Hy. eauto. Qed.

Lemma ratio_lift w nz ny nx p e x y : consistent Qops w -> shaped nz ny nx (vals w) -> nonneg_pv (vals w) ->
  at_ (vals w) p e x = Some y ->
  exists a r, dget particle_eqb p (vals w) <> None /\ (forall q, at_ (vals w) p e q = voxel a q) /\
    at_ (rats w) p e x = Some r /\ is_ratio a x r.
Proof. intros Hc Hs Hn. rewrite Hc, !at_arr. unfold calculate_ratios. rewrite arr_of_map0.
  destruct (arr_of (vals w) p e) as [a|] eqn:E; [|discriminate]. simpl. intros Hy.
  pose proof (shaped_arr _ _ _ _ _ _ _ Hs E) as Hr.
  destruct (ratio_is_ratio nz ny nx a x y Hr) as [r [H1 H2]]; [|exact Hy|].
  - intros q v Hv. apply (Hn p e q v). rewrite at_arr, E. exact Hv.
  - exists a, r. repeat split; auto.
    + unfold arr_of in E. destruct (dget particle_eqb p (vals w)); congruence.
    + intros q. rewrite at_arr, E. reflexivity.
    + apply H2. + apply H2. + apply H2. Qed.

(** ** mitigation *)
Lemma mitigate_arr w r p e : consistent Qops w ->
  arr_of (vals (mitigate Qops w r)) p e = option_map (mit r) (arr_of (vals w) p e).
Proof. intros Hc. unfold mitigate. cbn [vals set_values].
  pose proof (arr_of_map (fun p e a => mask3 Qops r (ratios_of w p e) a) (vals w) p e) as H.
  destruct (arr_of (vals w) p e) as [a|] eqn:E; simpl; [|exact H].
  destruct H as [e' [He H]]. rewrite H. unfold mit. f_equal. f_equal.
  unfold ratios_of. rewrite Hc. unfold calculate_ratios.
  pose proof (arr_of_map0 (calc_ratios Qops) (vals w) p e') as H'.
  rewrite <- (arr_of_q (vals w) p e e' He), E in H'. unfold arr_of in H'.
  destruct (dget particle_eqb p (map_pv _ (vals w))); [|discriminate].
  rewrite H'. reflexivity. Qed.

Lemma nonneg_arr v p e a : nonneg_pv v -> arr_of v p e = Some a -> nonneg a.
Proof. intros H E q x Hx. apply (H p e q x). rewrite at_arr, E. exact Hx. Qed.

Lemma mitigate_spec w nz ny nx r :
  consistent Qops w -> shaped nz ny nx (vals w) -> nonneg_pv (vals w) -> 1 <= r ->
  let w' := mitigate Qops w r in
  (forall p e x, at_ (vals w') p e x =
     match at_ (vals w) p e x, at_ (rats w) p e x with
     | Some v, Some rho => Some (if Qle_bool rho r then v else 0) | _, _ => None end) /\
  (forall p e x rho', at_ (rats w') p e x = Some rho' ->
     rho' <= r /\ exists rho, at_ (rats w) p e x = Some rho /\ rho' <= rho) /\
  (forall p e x, at_ (vals (mitigate Qops w' r)) p e x = at_ (vals w') p e x).
Proof. intros Hc Hs Hn H1 w'.
  assert (Hc' : consistent Qops w') by reflexivity.
  assert (Hrat : forall p e, arr_of (rats w) p e = option_map (calc_ratios Qops) (arr_of (vals w) p e)).
  { intros p e. rewrite Hc. unfold calculate_ratios. now rewrite arr_of_map0. }
  assert (Hrat' : forall p e, arr_of (rats w') p e = option_map (calc_ratios Qops) (arr_of (vals w') p e)).
  { intros p e. rewrite Hc'. unfold calculate_ratios. now rewrite arr_of_map0. }
  repeat split.
  - intros p e x. rewrite !at_arr, Hrat. unfold w'. rewrite mitigate_arr by exact Hc.
    destruct (arr_of (vals w) p e) as [a|] eqn:E; simpl; [|reflexivity].
    rewrite (mit_voxel nz ny nx) by (eapply shaped_arr; eauto).
    destruct (voxel a x); [|reflexivity]. destruct (voxel (calc_ratios Qops a) x) as [rho|]; [|reflexivity].
    unfold Qltb. destruct (Qle_bool rho r); reflexivity.
  - revert H. rewrite at_arr, Hrat'. unfold w' at 1. rewrite mitigate_arr by exact Hc.
    destruct (arr_of (vals w) p e) as [a|] eqn:E; simpl; [|discriminate]. intros H.
    pose proof (shaped_arr _ _ _ _ _ _ _ Hs E) as Hr.
    destruct x as [[k j] i].
    assert (Hex : exists y, voxel (calc_ratios Qops a) (k, j, i) = Some y).
    { apply (rect_voxel nz ny nx); [apply calc_rect; exact Hr|].
      apply (rect_voxel nz ny nx _ k j i (calc_rect Qops _ _ _ _ (mit_rect _ _ _ r _ Hr))). eauto. }
    destruct Hex as [y Hy].
    eapply (mit_ratio nz ny nx r a); eauto. eapply nonneg_arr; eauto.
  - revert H. rewrite !at_arr, Hrat', Hrat. unfold w' at 1. rewrite mitigate_arr by exact Hc.
    destruct (arr_of (vals w) p e) as [a|] eqn:E; simpl; [|discriminate]. intros H.
    pose proof (shaped_arr _ _ _ _ _ _ _ Hs E) as Hr.
    destruct x as [[k j] i].
    assert (Hex : exists y, voxel (calc_ratios Qops a) (k, j, i) = Some y).
    { apply (rect_voxel nz ny nx); [apply calc_rect; exact Hr|].
      apply (rect_voxel nz ny nx _ k j i (calc_rect Qops _ _ _ _ (mit_rect _ _ _ r _ Hr))). eauto. }
    destruct Hex as [y Hy]. exists y. split; [exact Hy|].
    eapply (mit_ratio nz ny nx r a); eauto. eapply nonneg_arr; eauto.
  - intros p e x. rewrite !at_arr, mitigate_arr by exact Hc'. unfold w'. rewrite mitigate_arr by exact Hc.
    destruct (arr_of (vals w) p e) as [a|] eqn:E; simpl; [|reflexivity].
    rewrite (mit_idem nz ny nx); auto; [eapply shaped_arr|eapply nonneg_arr]; eauto. Qed.

(** ** multiply *)
Lemma voxel_map3 {A} (f : A -> A) (a : arr A) x : voxel (map3 f a) x = option_map f (voxel a x).
Proof. destruct x as [[k j] i]. unfold voxel, map3. rewrite nth_error_map.
  destruct (nth_error a k) as [p|]; simpl; [|reflexivity]. rewrite nth_error_map.
  destruct (nth_error p j) as [r|]; simpl; [|reflexivity]. apply nth_error_map. Qed.
Lemma map3_rect {A} (f : A -> A) nz ny nx (a : arr A) : rect nz ny nx a -> rect nz ny nx (map3 f a).
Proof. intros [H1 H2]. split; [unfold map3; rewrite map_length; exact H1|].
  unfold map3. rewrite Forall_map. eapply Forall_impl; [|exact H2]. intros p [Hp Hr]. rewrite map_length. split; [exact Hp|].
  rewrite Forall_map. eapply Forall_impl; [|exact Hr]. intros r Hl. now rewrite map_length. Qed.

Lemma multiply_at w f p e x :
  match at_ (vals w) p e x, at_ (vals (multiply Qops w f)) p e x with
  | Some a, Some b => b == a * f | None, None => True | _, _ => False end.
Proof. unfold multiply; simpl. destruct (Qeqb_spec f 1) as [E|E].
  - destruct (at_ (vals w) p e x) as [a|]; [|exact I]. rewrite E. ring.
  - cbn [vals set_values]. rewrite !at_arr, arr_of_map0.
    destruct (arr_of (vals w) p e) as [a|]; simpl; [|exact I]. rewrite voxel_map3.
    destruct (voxel a x); simpl; [reflexivity|exact I]. Qed.

Lemma multiply_multiply w f g : same_at (vals (multiply Qops (multiply Qops w f) g)) (vals (multiply Qops w (f * g))).
Proof. intros p e x.
  pose proof (multiply_at w f p e x) as H1. pose proof (multiply_at (multiply Qops w f) g p e x) as H2.
  pose proof (multiply_at w (f * g) p e x) as H3.
  destruct (at_ (vals w) p e x), (at_ (vals (multiply Qops w f)) p e x),
    (at_ (vals (multiply Qops (multiply Qops w f) g)) p e x), (at_ (vals (multiply Qops w (f * g))) p e x); try tauto.
  rewrite H2, H1, H3. ring. Qed.

Lemma pair_ratio_scale a b f : 0 < f -> 0 < a -> 0 < b -> pair_ratio (a * f) (b * f) == pair_ratio a b.
Proof. intros Hf Ha Hb. unfold pair_ratio.
  destruct (Qle_bool a b) eqn:E1, (Qle_bool (a * f) (b * f)) eqn:E2; try (field; lra); exfalso.
  - apply Qle_bool_iff in E1. assert (a * f <= b * f) as H by nra. apply Qle_bool_iff in H. congruence.
  - apply Qle_bool_iff in E2. assert (a <= b) as H by nra. apply Qle_bool_iff in H. congruence. Qed.

Lemma is_ratio_scale a f x r : 0 < f -> is_ratio a x r -> is_ratio (map3 (fun y => y * f) a) x r.
Proof. intros Hf [H1 [H2 H3]]. split; [exact H1|]. split.
  - intros q v b Ha Hv Hb Hpv Hpb. rewrite voxel_map3 in Hv, Hb.
    destruct (voxel a x) as [v0|] eqn:Ev; [|discriminate]. destruct (voxel a q) as [b0|] eqn:Eb; [|discriminate].
    simpl in Hv, Hb. inversion Hv; inversion Hb; subst v b.
    assert (0 < v0) by nra. assert (0 < b0) by nra.
    rewrite pair_ratio_scale by assumption. eapply H2; eauto.
  - destruct H3 as [H3|[q [v [b [Ha [Hv [Hb [Hpv [Hpb He]]]]]]]]]; [left; exact H3|right].
    exists q, (v * f), (b * f). rewrite !voxel_map3, Hv, Hb. simpl. repeat split; auto; try nra.
    rewrite pair_ratio_scale by assumption. exact He. Qed.

Lemma multiply_ratios w nz ny nx f : consistent Qops w -> shaped nz ny nx (vals w) -> nonneg_pv (vals w) -> 0 < f ->
  same_at (rats (multiply Qops w f)) (rats w).
Proof. intros Hc Hs Hn Hf p e x. unfold multiply; simpl. destruct (Qeqb_spec f 1) as [E|E].
  - destruct (at_ (rats w) p e x); [reflexivity|exact I].
  - cbn [rats set_values]. rewrite Hc. rewrite !at_arr. unfold calculate_ratios. rewrite !arr_of_map0.
    destruct (arr_of (vals w) p e) as [a|] eqn:Ea; simpl; [|exact I].
    pose proof (shaped_arr _ _ _ _ _ _ _ Hs Ea) as Hr. pose proof (nonneg_arr _ _ _ _ Hn Ea) as Hna.
    assert (Hr' := map3_rect (fun y => y * f) _ _ _ _ Hr).
    assert (Hna' : nonneg (map3 (fun y => y * f) a)).
    { intros q v Hv. rewrite voxel_map3 in Hv. destruct (voxel a q) as [u|] eqn:Eu; [|discriminate].
      simpl in Hv. inversion Hv. specialize (Hna q u Eu). nra. }
    destruct (voxel a x) as [v|] eqn:Ev.
    + destruct (ratio_is_ratio nz ny nx a x v Hr Hna Ev) as [r [R1 R2]].
      destruct (ratio_is_ratio nz ny nx _ x (v * f) Hr' Hna') as [r' [R1' R2']]; [rewrite voxel_map3, Ev; reflexivity|].
      rewrite R1, R1'. eapply is_ratio_unique; [exact R2'|]. now apply is_ratio_scale.
    + destruct x as [[k j] i]. rewrite !(calc_voxel Qops nz ny nx) by assumption.
      rewrite voxel_map3, Ev. simpl. exact I. Qed.
