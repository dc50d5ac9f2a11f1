From Coq Require Import Lia ZArith Qabs Lqa Reals Lra.
From Verif Require Import PyBase PyLemmas B2Model B2Proofs GridModel GridSpec FmeshProofs3 WWTextProofs.
Open Scope R_scope.

Lemma vec_eq (a b c x y z : R) : a = x -> b = y -> c = z -> (a, b, c) = (x, y, z).
Proof. congruence. Qed.
Ltac veq := apply vec_eq.

(** lists of points *)
Lemma nth_grid3 {A} (h : Q -> Q -> Q -> A) l1 l2 l3 k j i a b c : nth_error l3 k = Some c -> nth_error l2 j = Some b -> nth_error l1 i = Some a ->
  nth_error (concat (map (fun x3 => concat (map (fun x2 => map (fun x1 => h x1 x2 x3) l1) l2)) l3)) ((k * length l2 + j) * length l1 + i)%nat = Some (h a b c).
Proof.
  intros Hc Hb Ha. assert (Hj : (j < length l2)%nat) by (apply nth_error_Some; congruence). assert (Hi : (i < length l1)%nat) by (apply nth_error_Some; congruence).
  replace ((k * length l2 + j) * length l1 + i)%nat with (k * (length l2 * length l1) + (j * length l1 + i))%nat by lia.
  rewrite (nth_concat_any (fun x3 => concat (map (fun x2 => map (fun x1 => h x1 x2 x3) l1) l2)) (length l2 * length l1) l3) with (x := c).
  - rewrite (nth_concat_any (fun x2 => map (fun x1 => h x1 x2 c) l1) (length l1) l2) with (x := b); [|intros; apply map_length|exact Hb|exact Hi].
    rewrite nth_error_map, Ha. reflexivity.
  - intros x. rewrite (length_concat_any _ (length l1)); [lia|]. intros y. apply map_length.
  - exact Hc.
  - nia.
Qed.
Lemma length_grid3 {A} (h : Q -> Q -> Q -> A) l1 l2 l3 :
  length (concat (map (fun x3 => concat (map (fun x2 => map (fun x1 => h x1 x2 x3) l1) l2)) l3)) = (length l3 * length l2 * length l1)%nat.
Proof.
  rewrite (length_concat_any _ (length l2 * length l1)); [lia|]. intros x. rewrite (length_concat_any _ (length l1)); [lia|]. intros. apply map_length.
Qed.

(** angles between vectors *)
Lemma dot_pos x y z : x <> 0 \/ y <> 0 \/ z <> 0 -> 0 < x * x + y * y + z * z.
Proof.
  intros [H|[H|H]]; pose proof (Rle_0_sqr x) as A; pose proof (Rle_0_sqr y) as B; pose proof (Rle_0_sqr z) as C; pose proof (Rlt_0_sqr _ H) as D; unfold Rsqr in *; lra.
Qed.
Lemma norm_scale c (u : V) : 0 < c -> dotR u u = 1 -> normR (scaleR c u) = c.
Proof.
  intros Hc Hu. destruct u as [[x y] z]. unfold normR, scaleR, dotR in *.
  replace (c * x * (c * x) + c * y * (c * y) + c * z * (c * z)) with (c * c * (x * x + y * y + z * z)) by ring. rewrite Hu, Rmult_1_r. apply sqrt_square. lra.
Qed.
Lemma unit_scale c (u : V) : 0 < c -> dotR u u = 1 -> unitR (scaleR c u) = u.
Proof. intros Hc Hu. unfold unitR. rewrite norm_scale by assumption. destruct u as [[x y] z]. unfold scaleR. veq; field; lra. Qed.
Lemma unit_one (u : V) : dotR u u = 1 -> unitR u = u.
Proof. intros H. rewrite <- (unit_scale 1 u) at 2; [|lra|exact H]. f_equal. destruct u as [[x y] z]. unfold scaleR. veq; ring. Qed.
Lemma clip_id x : -1 <= x <= 1 -> clip x = x.
Proof. intros [H1 H2]. unfold clip. rewrite Rmax_right by lra. apply Rmin_right. lra. Qed.
Lemma sq_le1 x r : x * x + r = 1 -> 0 <= r -> -1 <= x <= 1.
Proof. intros. split; nra. Qed.
(** the angle to an axis of the coordinates *)
Lemma angle_x v (u : V) : direction v u -> let '(x, _, _) := u in angle_between (1, 0, 0) v = acos x /\ cos (acos x) = x /\ sin (acos x) = sqrt (1 - x²).
Proof.
  intros (c & Hc & -> & Hu). destruct u as [[x y] z]. unfold angle_between. rewrite unit_scale by assumption. rewrite (unit_one (1, 0, 0)) by (unfold dotR; ring).
  assert (B : -1 <= x <= 1) by (unfold dotR in Hu; apply (sq_le1 x (y * y + z * z)); [lra|nra]).
  unfold dotR. replace (1 * x + 0 * y + 0 * z) with x by ring. rewrite clip_id by exact B. split; [reflexivity|]. split; [apply cos_acos|apply sin_acos]; exact B.
Qed.
Lemma angle_z v (u : V) : direction v u -> let '(_, _, z) := u in angle_between (0, 0, 1) v = acos z /\ cos (acos z) = z /\ sin (acos z) = sqrt (1 - z²).
Proof.
  intros (c & Hc & -> & Hu). destruct u as [[x y] z]. unfold angle_between. rewrite unit_scale by assumption. rewrite (unit_one (0, 0, 1)) by (unfold dotR; ring).
  assert (B : -1 <= z <= 1) by (unfold dotR in Hu; apply (sq_le1 z (x * x + y * y)); [lra|nra]).
  unfold dotR. replace (0 * x + 0 * y + 1 * z) with z by ring. rewrite clip_id by exact B. split; [reflexivity|]. split; [apply cos_acos|apply sin_acos]; exact B.
Qed.
Lemma acos_zero x : -1 <= x <= 1 -> acos x = 0 -> x = 1.
Proof. intros B H. rewrite <- (cos_acos x B), H. apply cos_0. Qed.

(** the turn about z: the starting vector has the same x and a positive y *)
Definition start (x : R) : V := (x, sqrt (1 - x²), 0).
Definition turn (s p : V) : V := let '(a, b, _) := s in let '(p1, p2, p3) := p in (a * p1 - b * p2, b * p1 + a * p2, p3).
Lemma to_vec v (u : V) p : direction v u -> rotate_to_vec v p = Ok (turn (start (fst (fst u))) p).
Proof.
  intros D. pose proof (angle_x v u D) as A. destruct D as (c & Hc & -> & Hu). destruct u as [[x y] z]. destruct A as (A & C & Sn). cbn [fst]. unfold rotate_to_vec, rotate_vector. rewrite A.
  assert (B : -1 <= x <= 1) by (unfold dotR in Hu; apply (sq_le1 x (y * y + z * z)); [lra|nra]).
  unfold start, turn. destruct p as [[p1 p2] p3]. destruct (Req_EM_T (acos x) 0) as [E|E].
  - apply acos_zero in E; [|exact B]. subst x. replace (1 - 1²) with 0 by (unfold Rsqr; ring). rewrite sqrt_0. apply f_equal. veq; ring.
  - destruct (Req_EM_T (normR (0, 0, 1)) 0) as [N|N].
    + exfalso. revert N. unfold normR, dotR. replace (0 * 0 + 0 * 0 + 1 * 1) with 1 by ring. rewrite sqrt_1. lra.
    + rewrite (unit_one (0, 0, 1)) by (unfold dotR; ring). unfold rodrigues, addR, scaleR, crossR, dotR. rewrite C, Sn. apply f_equal. veq; ring.
Qed.
(** the tilt that takes z to the axis *)
Definition tilt (a p : V) : V :=
  let '(x, y, c) := a in let '(p1, p2, p3) := p in let w := (x * p2 - y * p1) / (1 + c) in
  (c * p1 + x * p3 - y * w, c * p2 + y * p3 + x * w, c * p3 - x * p1 - y * p2).
Lemma unit_up v (a : V) : direction v a -> not_down v -> let '(x, y, c) := a in x * x + y * y + c * c = 1 /\ -1 < c <= 1.
Proof.
  intros (n & Hn & -> & Ha) H. destruct a as [[x y] c]. unfold dotR in Ha. split; [exact Ha|].
  assert (B : -1 <= c <= 1) by (apply (sq_le1 c (x * x + y * y)); [lra|nra]). split; [|lra].
  destruct (Req_dec c (-1)) as [->|]; [|lra]. exfalso. assert (x * x + y * y = 0) as Z by lra. assert (x = 0) by nra. assert (y = 0) by nra. subst. unfold not_down, scaleR in H. rewrite !Rmult_0_r in H. lra.
Qed.
Lemma to_axis v (a : V) p : direction v a -> not_down v -> rotate_to_axis v p = Ok (tilt a p).
Proof.
  intros D U. pose proof (angle_z v a D) as A. pose proof (unit_up v a D U) as H. destruct D as (n & Hn & -> & Ha). destruct a as [[x y] c]. destruct A as (A & C & Sn). destruct H as [H1 B].
  unfold rotate_to_axis, rotate_vector. rewrite A. destruct p as [[p1 p2] p3]. destruct (Req_EM_T (acos c) 0) as [E|E].
  - apply acos_zero in E; [|lra]. subst c. assert (x = 0) by nra. assert (y = 0) by nra. subst. unfold tilt. apply f_equal. veq; field.
  - assert (Hc : c < 1). { destruct (Req_dec c 1) as [->|]; [|lra]. contradiction E. apply acos_1. }
    set (s := sqrt (1 - c²)) in *. assert (Hs : 0 < s) by (apply sqrt_lt_R0; unfold Rsqr; nra).
    assert (Ss : s * s = x * x + y * y). { unfold s. rewrite sqrt_sqrt; unfold Rsqr; nra. }
    assert (Ek : crossR (0, 0, 1) (scaleR n (x, y, c)) = scaleR (n * s) (- y / s, x / s, 0)). { unfold crossR, scaleR. veq; field; lra. }
    assert (Hk : dotR (- y / s, x / s, 0) (- y / s, x / s, 0) = 1). { unfold dotR. replace (- y / s * (- y / s) + x / s * (x / s) + 0 * 0) with ((x * x + y * y) / (s * s)) by (field; lra). rewrite <- Ss. field. lra. }
    rewrite Ek. rewrite norm_scale by (try nra; exact Hk). destruct (Req_EM_T (n * s) 0) as [N|N]; [nra|].
    rewrite unit_scale by (try nra; exact Hk). unfold rodrigues, addR, scaleR, crossR, dotR, tilt. rewrite C, Sn. fold s. apply f_equal.
    assert (K : (1 - c) * (/ s * / s) = / (1 + c)). { assert (s * s = (1 - c) * (1 + c)) as S2 by (unfold s; rewrite sqrt_sqrt; unfold Rsqr; nra). rewrite <- Rinv_mult, S2. field. lra. }
    veq.
    + transitivity (c * p1 + x * p3 - y * (x * p2 - y * p1) * ((1 - c) * (/ s * / s))); [field; lra|rewrite K; field; lra].
    + transitivity (c * p2 + y * p3 + x * (x * p2 - y * p1) * ((1 - c) * (/ s * / s))); [field; lra|rewrite K; field; lra].
    + field. lra.
Qed.
Lemma down_axis v p : ~ not_down v -> v <> (0, 0, 0) -> rotate_to_axis v p = Err ValueError.
Proof.
  intros U N. destruct v as [[x y] z]. unfold not_down in U. assert (x = 0) by (destruct (Req_dec x 0); tauto). assert (y = 0) by (destruct (Req_dec y 0); tauto). subst.
  assert (z < 0). { destruct (Rtotal_order z 0) as [|[->|]]; [assumption|contradiction N; reflexivity|tauto]. }
  assert (D : direction (0, 0, z) (0, 0, -1)) by (exists (- z); split; [lra|]; split; [unfold scaleR; veq; ring|unfold dotR; ring]).
  pose proof (angle_z _ _ D) as (A & C & _). unfold rotate_to_axis, rotate_vector. rewrite A. destruct (Req_EM_T (acos (-1)) 0) as [E|E]; [rewrite E, cos_0 in C; lra|].
  unfold crossR. destruct (Req_EM_T (normR (0 * z - 1 * 0, 1 * 0 - 0 * z, 0 * 0 - 0 * 0)) 0) as [K|K]; [reflexivity|]. exfalso. apply K.
  unfold normR, dotR. replace ((0 * z - 1 * 0) * (0 * z - 1 * 0) + (1 * 0 - 0 * z) * (1 * 0 - 0 * z) + (0 * 0 - 0 * 0) * (0 * 0 - 0 * 0)) with 0 by ring. apply sqrt_0.
Qed.

(** the tilt is a rotation that takes z to the axis *)
Lemma tilt_cross (a : V) x y : (let '(a1, a2, c) := a in a1 * a1 + a2 * a2 + c * c = 1 /\ -1 < c <= 1) ->
  crossR a (tilt a (x, y, 0)) = tilt a (- y, x, 0).
Proof.
  destruct a as [[a1 a2] c]. intros [Ha Hc]. unfold tilt, crossR. unfold Rdiv. assert (K : (1 + c) * / (1 + c) = 1) by (apply Rinv_r; lra). set (d := / (1 + c)) in *. clearbody d.
  assert (E : c * d = 1 - d) by lra. assert (F : (a1 * a1 + a2 * a2) * d = 1 - c). { replace (a1 * a1 + a2 * a2) with ((1 - c) * (1 + c)) by lra. rewrite Rmult_assoc, K. ring. }
  assert (G : a1 * a1 * d = 1 - c - a2 * a2 * d) by lra.
  veq.
  - transitivity (- (a1 * a2 * x) - a2 * a2 * y - c * c * y - c * y * (a1 * a1 * d) + a1 * a2 * x * (c * d)); [ring|]. rewrite G, E.
    transitivity (- (a1 * a2 * x * d) - a2 * a2 * y - c * y + y * a2 * a2 * (c * d)); [ring|]. rewrite E. ring.
  - transitivity (a1 * a1 * x + a1 * a2 * y + c * c * x - a2 * a1 * y * (c * d) + a2 * a2 * x * (c * d)); [ring|]. rewrite E.
    transitivity ((a1 * a1 + a2 * a2 + c * c) * x + a1 * a2 * y * d - a2 * a2 * d * x); [ring|]. rewrite Ha.
    transitivity (c * x + a1 * a2 * y * d + (1 - c - a2 * a2 * d) * x); [ring|]. rewrite <- G. ring.
  - transitivity (a1 * c * y - a2 * c * x + ((a1 * a1 + a2 * a2) * d) * (a1 * y - a2 * x)); [ring|]. rewrite F. ring.
Qed.
Lemma tilt_place (a : V) x y r z t o : (let '(a1, a2, c) := a in a1 * a1 + a2 * a2 + c * c = 1 /\ -1 < c <= 1) ->
  addR (tilt a (turn (x, y, 0) (z_point r z t))) o = cyl_place o a (tilt a (x, y, 0)) r z t.
Proof.
  intros H. unfold cyl_place. rewrite tilt_cross by exact H. destruct a as [[a1 a2] c], o as [[o1 o2] o3]. unfold z_point, turn, tilt, addR, scaleR.
  replace (t * 2 * PI) with (2 * PI * t) by ring. set (C := cos (2 * PI * t)). set (S0 := sin (2 * PI * t)). unfold Rdiv. set (d := / (1 + c)).
  veq; ring.
Qed.
