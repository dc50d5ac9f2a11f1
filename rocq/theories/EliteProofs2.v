(** C44: angles, regions, planes. *)
From Coq Require Import Lia Lqa Lra ZArith QArith Qabs Reals.
From Verif Require Import PyBase PyLemmas PyStr PyStrLemmas PyFmtLemmas PyText D1SProofs2 LibModel MatModel MatProofs MatProofs2 InpModel InpSpec InpGeomSpec InpProofs InpProofs2 InpProofs6 InpGeomProofs InpGeomProofs2 InpGeomProofs3 InpGeomProps FmeshModel FmeshProofs6 EliteModel EliteSpec EliteProofs.
Open Scope nat_scope.

(** ** the tables *)
Lemma sector_eqb_eq a b : sector_eqb a b = true <-> a = b.
Proof. destruct a, b; cbn [sector_eqb]; split; intros H; try discriminate H.
  - apply Z.eqb_eq in H. congruence.
  - injection H as ->. apply Z.eqb_refl.
  - apply str_eqb_eq in H. congruence.
  - injection H as ->. apply str_eqb_refl. Qed.
Lemma lookup_in {A} (d : list (sector * A)) s x : lookup d s = Ok x -> In (s, x) d.
Proof. unfold lookup. induction d as [|[k y] d IH]; cbn [dget]; [discriminate|]. destruct (sector_eqb s k) eqn:E; [|intros H; right; apply IH; exact H].
  apply sector_eqb_eq in E. subst k. cbn. intros H. injection H as ->. left. reflexivity. Qed.
Lemma lookup_nodup {A} (d : list (sector * A)) s x : NoDup (map fst d) -> In (s, x) d -> lookup d s = Ok x.
Proof. unfold lookup. induction d as [|[k y] d IH]; cbn [dget map fst]; [intros _ []|]. intros N [H|H]; inversion N as [|? ? NI N']; subst.
  - injection H as -> ->. rewrite (proj2 (sector_eqb_eq s s) eq_refl). reflexivity.
  - destruct (sector_eqb s k) eqn:E; [|apply IH; assumption]. apply sector_eqb_eq in E. subst k. elim NI. apply in_map_iff. exists (s, x). auto. Qed.
Lemma lookup_none {A} (d : list (sector * A)) s : ~ In s (map fst d) -> lookup d s = Err KeyError.
Proof. unfold lookup. induction d as [|[k y] d IH]; cbn [dget map fst In]; [reflexivity|]. intros N. destruct (sector_eqb s k) eqn:E; [apply sector_eqb_eq in E; subst; tauto|]. apply IH. tauto. Qed.
Lemma names_nodup : NoDup sector_names.
Proof. unfold sector_names. repeat constructor; cbn [In]; intros H; repeat (destruct H as [H|H]; [discriminate H|]); exact H. Qed.
Lemma angles_names : map fst sector_angles = sector_names. Proof. reflexivity. Qed.
Lemma bounds_names : map fst sector_boundaries = sector_names. Proof. reflexivity. Qed.
Lemma plasma_names : map fst plasma_cells = sector_names. Proof. reflexivity. Qed.
Lemma plasma_table s z : In (s, z) plasma_cells <-> plasma_of s z.
Proof.
  unfold plasma_of, place. split.
    + intros H. repeat (destruct H as [H|H]; [injection H as <- <-; first [exists 1%Z; split; [left; split; [reflexivity|lia]|reflexivity]|exists 2%Z; split; [right; split; reflexivity|reflexivity]|exists 4%Z; split; [left; split; [reflexivity|lia]|reflexivity]|exists 5%Z; split; [left; split; [reflexivity|lia]|reflexivity]|exists 6%Z; split; [left; split; [reflexivity|lia]|reflexivity]|exists 7%Z; split; [left; split; [reflexivity|lia]|reflexivity]|exists 8%Z; split; [left; split; [reflexivity|lia]|reflexivity]|exists 9%Z; split; [left; split; [reflexivity|lia]|reflexivity]]|]). destruct H.
    + intros (n & [[-> H]|[-> ->]] & ->); [|right; left; reflexivity].
      assert (E : (n = 1 \/ n = 4 \/ n = 5 \/ n = 6 \/ n = 7 \/ n = 8 \/ n = 9)%Z) by lia. unfold plasma_cells. destruct E as [-> | [-> | [-> | [-> | [-> | [-> | ->]]]]]]; cbn; tauto.
Qed.
Lemma plasma_all l cs : Forall2 (fun s z => In (s, z) plasma_cells) l cs -> Forall2 plasma_of l cs.
Proof. intros H. induction H as [|s z l cs H _ IH]; constructor; [apply plasma_table; exact H|exact IH]. Qed.
Lemma lookup_known {A} (d : list (sector * A)) s : map fst d = sector_names -> known s -> exists x, In (s, x) d /\ lookup d s = Ok x.
Proof. intros E K. unfold known in K. rewrite <- E in K. apply in_map_iff in K. destruct K as ((k & x) & E1 & H). cbn [fst] in E1. subst k. exists x. split; [exact H|]. apply lookup_nodup; [rewrite E; exact names_nodup|exact H]. Qed.
Lemma lookup_unknown {A} (d : list (sector * A)) s : map fst d = sector_names -> ~ known s -> lookup d s = Err KeyError.
Proof. intros E K. apply lookup_none. rewrite E. exact K. Qed.
Lemma angles_unique s p q : In (s, p) sector_angles -> In (s, q) sector_angles -> p = q.
Proof. intros H1 H2. assert (N : NoDup (map fst sector_angles)) by exact names_nodup.
  pose proof (lookup_nodup _ _ _ N H1). pose proof (lookup_nodup _ _ _ N H2). congruence. Qed.

(** ** angles of the cutting planes *)
Lemma angles_aux l : forall first, Forall known l ->
  exists r, boundaries_angles_aux first l = Ok r /\
    match l with
    | [] => r = []
    | s :: _ => exists a b, starts_at s a /\ ends_at (last l s) b /\ r = (if first then [a] else []) ++ [b]
    end.
Proof.
  induction l as [|s l IH]; intros first K; [exists []; split; reflexivity|]. inversion K as [|? ? Ks Kl]; subst.
  destruct (lookup_known sector_angles s angles_names Ks) as ((a & b) & Hi & E). cbn [boundaries_angles_aux]. rewrite E. cbn [bind].
  destruct (IH false Kl) as (r & Er & Hr). rewrite Er. cbn [bind]. eexists. split; [reflexivity|]. destruct l as [|s' l].
  - subst r. exists a, b. split; [exists b; exact Hi|]. split; [exists a; exact Hi|]. destruct first; reflexivity.
  - destruct Hr as (a' & b' & S' & E' & ->). exists a, b'. split; [exists b; exact Hi|]. split; [|reflexivity].
    change (last (s :: s' :: l) s) with (last (s' :: l) s). assert (L : forall (x y : sector) l0, last (x :: l0) y = last (x :: l0) x).
    { clear. intros x y l0. revert x y. induction l0 as [|z l0 IH]; intros x y; [reflexivity|]. change (last (z :: l0) y = last (z :: l0) x). rewrite (IH z y), (IH z x). reflexivity. }
    rewrite (L s' s l). exact E'.
Qed.
Lemma angles_unknown l s : forall first, In s l -> ~ known s -> boundaries_angles_aux first l = Err KeyError.
Proof.
  induction l as [|x l IH]; intros first H N; [destruct H|]. cbn [boundaries_angles_aux].
  destruct (lookup sector_angles x) as [(a & b)|e] eqn:E.
  - cbn [bind]. destruct H as [->|H]; [rewrite (lookup_unknown _ _ angles_names N) in E; discriminate|]. rewrite (IH false H N). reflexivity.
  - cbn [bind]. unfold lookup in E. destruct (dget sector_eqb x sector_angles); [discriminate E|]. cbn in E. congruence.
Qed.
Fixpoint zsum (l : list Z) : Z := match l with [] => 0 | z :: r => z + zsum r end%Z.
Lemma contiguous_opening l : contiguous l -> forall s r a b ws, l = s :: r -> starts_at s a -> ends_at (last l s) b -> Forall2 width_is l ws -> ((b - a) mod 360 = zsum ws mod 360)%Z.
Proof.
  induction 1 as [s0|s0 s' l a0 He Hs Hc IH]; intros s r a b ws EL Hsa Heb F; injection EL as <- <-.
  - inversion F as [|? w ? ? W F']; subst. inversion F'; subst. cbn [last zsum] in *. destruct W as (a1 & b1 & Hi & ->). destruct Hsa as (b2 & H2). destruct Heb as (a2 & H3).
    pose proof (angles_unique _ _ _ Hi H2) as E1. pose proof (angles_unique _ _ _ Hi H3) as E2. injection E1 as -> ->. injection E2 as -> ->. rewrite Z.add_0_r, Z.mod_mod by lia. reflexivity.
  - inversion F as [|? w ? ws' W F']; subst. cbn [zsum]. destruct W as (a1 & b1 & Hi & ->). destruct Hsa as (b2 & H2). destruct He as (a2 & H3).
    pose proof (angles_unique _ _ _ Hi H2) as E1. pose proof (angles_unique _ _ _ Hi H3) as E2. injection E1 as -> ->. injection E2 as -> ->.
    assert (L : forall (x y : sector) l0, last (x :: l0) y = last (x :: l0) x).
    { clear. intros x y l0. revert x y. induction l0 as [|z l0 IH]; intros x y; [reflexivity|]. change (last (z :: l0) y = last (z :: l0) x). rewrite (IH z y), (IH z x). reflexivity. }
    change (last (s0 :: s' :: l) s0) with (last (s' :: l) s0) in Heb. rewrite (L s' s0 l) in Heb.
    pose proof (IH s' l _ b ws' eq_refl Hs Heb F') as E. rewrite <- Zplus_mod_idemp_r, <- E, Zplus_mod_idemp_r, Zplus_mod_idemp_l. f_equal. lia.
Qed.

(** ** sines *)
Open Scope R_scope.
Lemma sin_pos_iff x : 0 <= x < 360 -> (0 < sin (deg x) <-> 0 < x < 180).
Proof.
  intros H. unfold deg. pose proof PI_RGT_0 as P. assert (E : forall y, y * PI / 180 = y / 180 * PI) by (intros; field). rewrite E. split.
  - intros S. destruct (Req_dec x 0) as [->|N0]; [unfold Rdiv in S; rewrite !Rmult_0_l, sin_0 in S; lra|]. split; [lra|]. destruct (Rlt_le_dec x 180) as [L|L]; [exact L|exfalso].
    assert (sin (x / 180 * PI) <= 0); [|lra]. apply sin_le_0; [|].
    + assert (1 <= x / 180) by lra. nra.
    + assert (x / 180 <= 2) by lra. nra.
  - intros [A B]. apply sin_gt_0.
    + assert (0 < x / 180) by lra. nra.
    + assert (x / 180 < 1) by lra. nra.
Qed.
Lemma sin_period_Z x (k : Z) : sin (deg (x + IZR k * 360)) = sin (deg x).
Proof.
  unfold deg. replace ((x + IZR k * 360) * PI / 180) with (x * PI / 180 + 2 * IZR k * PI) by field. apply sin_period_gen || idtac.
  destruct (Z_le_gt_dec 0 k) as [H|H].
  - rewrite <- (Z2Nat.id k H), <- INR_IZR_INZ. apply sin_period.
  - assert (H2 : (0 <= - k)%Z) by lia. rewrite <- (sin_period (x * PI / 180 + 2 * IZR k * PI) (Z.to_nat (- k))). f_equal. rewrite INR_IZR_INZ, (Z2Nat.id _ H2), opp_IZR. ring.
Qed.
Lemma between_planes (a b w : Z) (t : R) : (w = (b - a) mod 360)%Z -> (w <= 180)%Z -> IZR a <= t < IZR a + 360 ->
  (0 < sin (deg (t - IZR a)) /\ 0 < sin (deg (IZR b - t))) <-> between a w t.
Proof.
  intros Ew Hw Ht. assert (W0 : (0 <= w)%Z) by (subst w; apply Z.mod_pos_bound; lia).
  assert (Eb : exists k, (b = a + w + k * 360)%Z). { exists ((b - a) / 360)%Z. pose proof (Z.div_mod (b - a) 360 ltac:(lia)). lia. }
  destruct Eb as (k & Eb). assert (Er : IZR b - t = (IZR a + IZR w - t) + IZR k * 360) by (rewrite Eb, !plus_IZR, mult_IZR; ring).
  rewrite Er, sin_period_Z. rewrite sin_pos_iff by lra. unfold between. apply IZR_le in W0, Hw.
  split.
  - intros [[A B] C]. split; [lra|]. destruct (Rlt_le_dec t (IZR a + IZR w)) as [L|L]; [exact L|exfalso].
    destruct (Req_dec t (IZR a + IZR w)) as [->|NE]; [apply sin_pos_iff in C; lra|].
    replace (IZR a + IZR w - t) with ((IZR a + IZR w - t + 360) + IZR (-1) * 360) in C by ring. rewrite sin_period_Z in C. apply sin_pos_iff in C; [|lra]. lra.
  - intros [A B]. split; [lra|]. apply sin_pos_iff; lra.
Qed.
Lemma lost_directions (a b w : Z) (t : R) : (w = (b - a) mod 360)%Z -> (180 < w)%Z -> IZR a < t < IZR a + (IZR w - 180) -> ~ 0 < sin (deg (IZR b - t)).
Proof.
  intros Ew Hw Ht C. assert (W1 : (w < 360)%Z) by (subst w; apply Z.mod_pos_bound; lia).
  assert (Eb : exists k, (b = a + w + k * 360)%Z). { exists ((b - a) / 360)%Z. pose proof (Z.div_mod (b - a) 360 ltac:(lia)). lia. }
  destruct Eb as (k & Eb). assert (Er : IZR b - t = (IZR a + IZR w - t) + IZR k * 360) by (rewrite Eb, !plus_IZR, mult_IZR; ring).
  rewrite Er, sin_period_Z in C. apply IZR_lt in Hw, W1. apply sin_pos_iff in C; lra.
Qed.
Close Scope R_scope.
