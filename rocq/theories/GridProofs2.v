From Coq Require Import Lia ZArith Qabs Lqa Reals Lra.
From Verif Require Import PyBase PyLemmas B2Model B2Proofs GridModel GridSpec GridProofs FmeshProofs3 WWTextProofs.
Open Scope R_scope.

(** radii and angles *)
Lemma radii_ok v : (2 <= length v)%nat -> exists r, correct_radius v = Ok r /\ Radii v r.
Proof.
  intros L. destruct v as [|x [|y v]]; cbn [length] in L; try lia. unfold correct_radius. destruct (Qle_bool (Qabs x) (1 # 10 ^ 8)) eqn:B.
  - eexists. split; [reflexivity|]. split; [reflexivity|]. intros i z Hz. destruct i as [|i]; cbn [nth_error Nat.eqb] in *.
    + injection Hz as <-. exists (y * (1 # 100))%Q. split; [reflexivity|]. split; [|intros N; contradiction N; apply Qle_bool_iff; exact B]. intros _. exists y. split; [reflexivity|]. ring.
    + exists z. auto.
  - eexists. split; [reflexivity|]. split; [reflexivity|]. intros i z Hz. exists z. split; [exact Hz|]. destruct (i =? 0)%nat eqn:E; [|reflexivity].
    apply Nat.eqb_eq in E. subst i. injection Hz as <-. split; [|reflexivity]. intros H. apply Qle_bool_iff in H. congruence.
Qed.
Lemma split_last {A} (v : list A) d : v <> [] -> v = removelast v ++ [last v d].
Proof. intros. apply app_removelast_last. assumption. Qed.
Lemma nth_split_last {A} (l : list A) x d i z : nth_error (l ++ [d]) i = Some z -> i <> length l -> nth_error (l ++ [x]) i = Some z.
Proof.
  intros H N. assert ((i < length (l ++ [d]))%nat) by (apply nth_error_Some; congruence). rewrite app_length in *. cbn [length] in *.
  rewrite nth_error_app1 in * by lia. exact H.
Qed.
Lemma theta_ok v : (2 <= length v)%nat -> exists c, correct_theta v = Ok c /\ Corrected v c.
Proof.
  intros L. destruct v as [|x v']; cbn [length] in L; [lia|]. unfold correct_theta.
  set (x0 := if Qle_bool (Qabs x) (1 # 10 ^ 8) then 0%Q else x). eexists. split; [reflexivity|].
  assert (v' <> []) as Nv by (destruct v'; [cbn in L; lia|discriminate]).
  destruct (exists_last Nv) as (m & z & ->). rewrite app_length in L. cbn [length] in L.
  replace (last (x0 :: m ++ [z]) 0%Q) with z by (change (x0 :: m ++ [z]) with ((x0 :: m) ++ [z]); rewrite last_last; reflexivity).
  replace (removelast (x0 :: m ++ [z])) with (x0 :: m) by (change (x0 :: m ++ [z]) with ((x0 :: m) ++ [z]); rewrite removelast_last; reflexivity).
  set (z1 := if Qle_bool (Qabs (z - 1)%Q) (1001 # 10 ^ 8) then 1%Q else z).
  assert (E : (if Qle_bool (Qabs (z - 1)%Q) (1001 # 10 ^ 8) then (x0 :: m) ++ [1%Q] else x0 :: m ++ [z]) = x0 :: m ++ [z1]) by (unfold z1; destruct (Qle_bool (Qabs (z - 1)%Q) (1001 # 10 ^ 8)); reflexivity).
  rewrite E. clear E. split; [cbn [length]; rewrite !app_length; reflexivity|]. intros i y Hy. destruct i as [|i]; cbn [nth_error] in *.
  - injection Hy as <-. exists x0. split; [reflexivity|]. unfold first_turn, last_turn. cbn [length]. rewrite app_length. cbn [length]. unfold x0.
    destruct (Qle_bool (Qabs x) (1 # 10 ^ 8)) eqn:B; (split; [|split; [lia|]]).
    + reflexivity. + intros N. exfalso. apply N. split; [reflexivity|apply Qle_bool_iff; exact B]. + intros [_ H]. apply Qle_bool_iff in H. congruence. + reflexivity.
  - assert (Hi : (i < length (m ++ [z]))%nat) by (apply nth_error_Some; congruence). rewrite app_length in Hi. cbn [length] in Hi.
    destruct (Nat.eq_dec i (length m)) as [->|Ni].
    + rewrite nth_error_app2, Nat.sub_diag in Hy by lia. injection Hy as <-. exists z1. split; [rewrite nth_error_app2, Nat.sub_diag by lia; reflexivity|].
      unfold first_turn, last_turn. cbn [length]. rewrite app_length. cbn [length]. split; [lia|]. unfold z1. destruct (Qle_bool (Qabs (z - 1)%Q) (1001 # 10 ^ 8)) eqn:B; split.
      * reflexivity. * intros _ N. exfalso. apply N. split; [lia|apply Qle_bool_iff; exact B]. * intros [_ H]. apply Qle_bool_iff in H. congruence. * reflexivity.
    + exists y. split; [apply (nth_split_last m z1 z); assumption|]. unfold first_turn, last_turn. cbn [length]. rewrite app_length. cbn [length]. split; [lia|]. split; [lia|reflexivity].
Qed.
Lemma nth_lt {A} (l : list A) i a : nth_error l i = Some a -> (i < length l)%nat.
Proof. intros H. apply nth_error_Some. congruence. Qed.
Lemma angles_ok v : (2 <= length v)%nat -> exists c t, correct_theta v = Ok c /\ extend_theta c = Ok t /\ Angles v t.
Proof.
  intros L. destruct (theta_ok v L) as (c & E & Hc). exists c. pose proof (proj1 Hc) as Lc. destruct c as [|x0 [|x1 [|x2 [|x3 c]]]]; cbn [length] in Lc; try lia; cbn [extend_theta]; eexists; (split; [exact E|]); (split; [reflexivity|]); eexists; (split; [exact Hc|]); cbn zeta; rewrite <- Lc.
  - change (2 - 1)%nat with 1%nat. change (pieces 1) with 20%nat. split; [rewrite linspace_length; reflexivity|]. intros k s a b Ha Hb Hs. destruct k as [|k]; [|apply nth_lt in Hb; cbn [length] in Hb; lia].
    injection Ha as <-. injection Hb as <-. apply (linspace_nth x0 x1 20 s); lia.
  - change (3 - 1)%nat with 2%nat. change (pieces 2) with 10%nat. split; [rewrite app_length, linspace_length; pose proof (linspace_length x1 x2 10); destruct (linspace x1 x2 10); cbn [length tl] in *; lia|].
    intros k s a b Ha Hb Hs. destruct k as [|[|k]]; [| |apply nth_lt in Hb; cbn [length] in Hb; lia]; cbn [nth_error] in Ha, Hb; injection Ha as <-; injection Hb as <-.
    + destruct (linspace_nth x0 x1 10 s) as (y & Hy & Ey); [lia|lia|]. exists y. split; [|exact Ey]. change (0 * 10 + s)%nat with s. rewrite nth_error_app1; [exact Hy|apply nth_lt in Hy; exact Hy].
    + destruct s as [|s].
      * destruct (linspace_nth x0 x1 10 10) as (y & Hy & Ey); [lia|lia|]. exists y. split; [rewrite nth_error_app1; [exact Hy|apply nth_lt in Hy; exact Hy]|].
        rewrite Ey. change (inject_Z (Z.of_nat 10)) with 10%Q. change (inject_Z (Z.of_nat 0)) with 0%Q. field.
      * destruct (linspace_nth x1 x2 10 (S s)) as (y & Hy & Ey); [lia|lia|]. exists y. split; [|exact Ey]. rewrite nth_error_app2; rewrite linspace_length; [|lia].
        replace (1 * 10 + S s - 11)%nat with s by lia. destruct (linspace x1 x2 10); [discriminate Hy|exact Hy].
  - replace (pieces (S (S (S (S (length c)))) - 1)) with 1%nat by reflexivity. split; [cbn [length]; lia|]. intros k s a b Ha Hb Hs. change (inject_Z (Z.of_nat 1)) with 1%Q. destruct s as [|[|s]]; [| |lia].
    + exists a. split; [replace (k * 1 + 0)%nat with k by lia; exact Ha|]. change (inject_Z (Z.of_nat 0)) with 0%Q. field.
    + exists b. split; [replace (k * 1 + 1)%nat with (S k) by lia; exact Hb|]. change (inject_Z (Z.of_nat 1)) with 1%Q. field.
Qed.

(** the rotated starting vector *)
Lemma tilt_unit (a : V) x y : (let '(a1, a2, c) := a in a1 * a1 + a2 * a2 + c * c = 1 /\ -1 < c <= 1) ->
  dotR a (tilt a (x, y, 0)) = 0 /\ dotR (tilt a (x, y, 0)) (tilt a (x, y, 0)) = x * x + y * y.
Proof.
  intros H. pose proof (tilt_cross a x y H) as Cr. destruct a as [[a1 a2] c]. destruct H as [Ha Hc].
  assert (K : (1 + c) * / (1 + c) = 1) by (apply Rinv_r; lra). unfold tilt, dotR, Rdiv in *. set (d := / (1 + c)) in *. clearbody d.
  split; [ring|].
  assert (E : c * d = 1 - d) by lra. assert (F : (a1 * a1 + a2 * a2) * d = 1 - c). { replace (a1 * a1 + a2 * a2) with ((1 - c) * (1 + c)) by lra. rewrite Rmult_assoc, K. ring. }
  set (w := (a1 * y - a2 * x)). transitivity (c * c * (x * x + y * y) + 2 * (c * d) * w * (a1 * y - a2 * x) + ((a1 * a1 + a2 * a2) * d) * (w * w * d) + (a1 * x + a2 * y) * (a1 * x + a2 * y)); [unfold w; ring|].
  rewrite E, F. transitivity (c * c * (x * x + y * y) + w * w * (2 - d - c * d) + (a1 * x + a2 * y) * (a1 * x + a2 * y)); [unfold w; ring|]. rewrite E.
  transitivity ((a1 * a1 + a2 * a2 + c * c) * (x * x + y * y)); [unfold w; ring|]. rewrite Ha. ring.
Qed.

(** a cylinder whose axis does not point down *)
Lemma grid_ok vi vj vk o axis vec a u : (2 <= length vi)%nat -> (2 <= length vk)%nat -> direction axis a -> not_down axis -> direction vec u ->
  exists g, cylindrical_grid vi vj vk o axis vec = Ok g /\ Drawn o a (tilt a (start (fst (fst u)))) vi vj vk g.
Proof.
  intros Li Lk Da Na Du. destruct (radii_ok vi Li) as (r & Er & Hr). destruct (angles_ok vk Lk) as (c & t & Ec & Et & Ht). unfold cylindrical_grid. rewrite Er, Ec. cbn [bind]. rewrite Et. cbn [bind].
  pose proof (unit_up axis a Da Na) as U.
  rewrite (mapM_ok _ (fun p => addR (tilt a (turn (start (fst (fst u))) p)) o)).
  - cbn [bind]. eexists. split; [reflexivity|]. exists r, t. split; [exact Hr|]. split; [exact Ht|]. cbn [pg_dims pg_points]. destruct Hr as [Lr _].
    split; [rewrite Lr; reflexivity|]. split; [rewrite map_length, (length_grid3 (fun x t z => z_point (Q2R x) (Q2R z) (Q2R t))), Lr; reflexivity|].
    intros i j k x y z Hi Hj Hk. rewrite nth_error_map. rewrite <- Lr.
    rewrite (nth_grid3 (fun x t z => z_point (Q2R x) (Q2R z) (Q2R t)) r t vj j k i x z y Hj Hk Hi). cbn [option_map]. apply f_equal.
    unfold start. apply tilt_place. exact U.
  - intros p _. unfold place_point. rewrite (to_vec vec u p Du). cbn [bind]. rewrite (to_axis axis a _ Da Na). reflexivity.
Qed.
Lemma start_unit x : -1 <= x <= 1 -> x * x + sqrt (1 - x²) * sqrt (1 - x²) = 1.
Proof. intros H. rewrite sqrt_sqrt; unfold Rsqr; nra. Qed.
Lemma unit_bound (u : V) : dotR u u = 1 -> -1 <= fst (fst u) <= 1.
Proof. destruct u as [[x y] z]. unfold dotR. cbn [fst]. intros H. apply (sq_le1 x (y * y + z * z)); [lra|nra]. Qed.
