(** C44: which planes are boundaries, and the way they are moved. *)
From Coq Require Import Lia ZArith QArith Qabs Qfield Lqa.
From Verif Require Import PyBase PyLemmas PyStr PyStrLemmas PyText D1SProofs2 LibModel MatModel MatProofs MatProofs2 InpModel EliteModel EliteSpec EliteProofs2 EliteProofs3.
Open Scope nat_scope.

Lemma within a b tol : (Qle_bool (b - tol) a && Qle_bool a (b + tol) = true <-> Qabs (a - b) <= tol)%Q.
Proof. rewrite andb_true_iff, !Qle_bool_iff, Qabs_Qle_condition. split; intros [H1 H2]; split; lra. Qed.
Lemma check_near tol v w : check_tol tol (pairs v w) = true <-> near tol v w.
Proof.
  destruct v as [[a1 a2] a3], w as [[b1 b2] b3]. cbn [pairs near]. pose proof (within a1 b1 tol) as W1. pose proof (within a2 b2 tol) as W2. pose proof (within a3 b3 tol) as W3.
  unfold check_tol. cbn [forallb fst snd]. rewrite <- W1, <- W2, <- W3. clear.
  destruct (Qle_bool (b1 - tol) a1 && Qle_bool a1 (b1 + tol)), (Qle_bool (b2 - tol) a2 && Qle_bool a2 (b2 + tol)), (Qle_bool (b3 - tol) a3 && Qle_bool a3 (b3 + tol)); cbn; intuition discriminate.
Qed.
Lemma check_zero tol d : check_tol tol [(d, 0%Q)] = true <-> (Qabs d <= tol)%Q.
Proof. cbn [check_tol forallb fst snd]. rewrite andb_true_r, within. setoid_replace (d - 0)%Q with d by ring. reflexivity. Qed.
Lemma near_veq tol v v' w : veq v v' -> near tol v w -> near tol v' w.
Proof. destruct v as [[a1 a2] a3], v' as [[c1 c2] c3], w as [[b1 b2] b3]. cbn [veq near]. intros (E1 & E2 & E3) (H1 & H2 & H3). rewrite <- E1, <- E2, <- E3. auto. Qed.
Lemma veq_sym a b : veq a b -> veq b a.
Proof. destruct a as [[a1 a2] a3], b as [[b1 b2] b3]. cbn [veq]. intros (E1 & E2 & E3). repeat split; symmetry; assumption. Qed.
Lemma veq_trans a b c : veq a b -> veq b c -> veq a c.
Proof. destruct a as [[a1 a2] a3], b as [[b1 b2] b3], c as [[c1 c2] c3]. cbn [veq]. intros (E1 & E2 & E3) (F1 & F2 & F3). repeat split; etransitivity; eassumption. Qed.
Lemma veq_refl a : veq a a. Proof. destruct a as [[a1 a2] a3]. cbn [veq]. repeat split; reflexivity. Qed.

Section Trig.
  Variable sind cosd : Z -> Q.
  Variable cosq : Q -> Q.
  Variable norm : vec3 -> Q.

  Lemma plane_of_card s p d : plane_card s p d -> plane_of s = Ok (Some (p, d)).
  Proof. intros H. unfold plane_of. destruct H as [a b c d r T C|d r T C|d r T C|d r T C]; rewrite T, C; reflexivity. Qed.
  Lemma card_plane_of s p d : plane_of s = Ok (Some (p, d)) -> plane_card s p d.
  Proof.
    unfold plane_of. destruct (str_eqb (s_type s) (s2l "p")) eqn:E0.
    { apply str_eqb_eq in E0. destruct (s_coefs s) as [|a [|b [|c [|e r]]]] eqn:EC; cbn [firstn coef nth_error of_opt bind]; try discriminate. intros H. injection H as <- <-. eapply pc_p; eauto. }
    destruct (str_eqb (s_type s) (s2l "px")) eqn:E1. { apply str_eqb_eq in E1. destruct (s_coefs s) as [|a r] eqn:EC; cbn [coef nth_error of_opt bind]; try discriminate. intros H. injection H as <- <-. eapply pc_px; eauto. }
    destruct (str_eqb (s_type s) (s2l "py")) eqn:E2. { apply str_eqb_eq in E2. destruct (s_coefs s) as [|a r] eqn:EC; cbn [coef nth_error of_opt bind]; try discriminate. intros H. injection H as <- <-. eapply pc_py; eauto. }
    destruct (str_eqb (s_type s) (s2l "pz")) eqn:E3. { apply str_eqb_eq in E3. destruct (s_coefs s) as [|a r] eqn:EC; cbn [coef nth_error of_opt bind]; try discriminate. intros H. injection H as <- <-. eapply pc_pz; eauto. }
    discriminate.
  Qed.
  Lemma unit_ok p u : unit norm p = Some u -> unit_vector norm p u.
  Proof.
    unfold unit, unit_vector. destruct p as [[a b] c]. destruct (Qeq_bool (norm (a, b, c)) 0) eqn:E; [discriminate|]. intros H. injection H as <-. split; [intros C; apply Qeq_bool_iff in C; congruence|apply veq_refl].
  Qed.
  Lemma unit_of p u : unit_vector norm p u -> exists u', unit norm p = Some u' /\ veq u u'.
  Proof.
    unfold unit, unit_vector. destruct p as [[a b] c]. intros (N & V). destruct (Qeq_bool (norm (a, b, c)) 0) eqn:E; [apply Qeq_bool_iff in E; contradiction|]. eexists. split; [reflexivity|exact V].
  Qed.
  Lemma rotate_unfold t x y z p : axes cosq t = Some (x, y, z) ->
    rotate_plane cosq t p = if Qeq_bool (det3 x y z) 0 then Err OtherError else
      let '(a, b, c) := x in let '(d, e, f) := y in let '(g, h, i) := z in let '(p1, p2, p3) := p in let det := det3 x y z in
      Ok (((e * i - f * h) * p1 + (c * h - b * i) * p2 + (b * f - c * e) * p3) / det,
          ((f * g - d * i) * p1 + (a * i - c * g) * p2 + (c * d - a * f) * p3) / det,
          ((d * h - e * g) * p1 + (b * g - a * h) * p2 + (a * e - b * d) * p3) / det)%Q.
  Proof.
    unfold axes, rotate_plane, coef. generalize (if t_star t then map cosq (t_values t) else t_values t). intros l.
    destruct l as [|q0 [|q1 [|q2 [|q3 [|q4 [|q5 [|q6 [|q7 [|q8 [|q9 [|q10 [|q11 [|q12 l]]]]]]]]]]]]]; try discriminate.
    intros H. injection H as <- <- <-. cbn [nth_error of_opt bind]. destruct p as [[p1 p2] p3]. reflexivity.
  Qed.
  Lemma rotate_ok t x y z p : axes cosq t = Some (x, y, z) -> ~ (det3 x y z == 0)%Q ->
    exists v, rotate_plane cosq t p = Ok v /\ veq p (dot3 x v, dot3 y v, dot3 z v).
  Proof.
    intros A D. rewrite (rotate_unfold t x y z p A). destruct (Qeq_bool (det3 x y z) 0) eqn:E; [apply Qeq_bool_iff in E; contradiction|].
    destruct x as [[a b] c], y as [[d e] f], z as [[g h] i], p as [[p1 p2] p3]. cbv zeta iota. eexists. split; [reflexivity|].
    cbn [det3] in *. cbn [dot3 veq]. repeat split; field; exact D.
  Qed.
  Lemma rotate_unique t x y z p v w : axes cosq t = Some (x, y, z) -> ~ (det3 x y z == 0)%Q -> rotate_plane cosq t p = Ok v ->
    veq p (dot3 x w, dot3 y w, dot3 z w) -> veq v w.
  Proof.
    intros A D. rewrite (rotate_unfold t x y z p A). destruct (Qeq_bool (det3 x y z) 0) eqn:E; [discriminate|].
    destruct x as [[a b] c], y as [[d e] f], z as [[g h] i], p as [[p1 p2] p3], w as [[w1 w2] w3]. cbv zeta iota. intros H (E1 & E2 & E3). apply (f_equal (fun r => match r with Ok v => v | Err _ => (0,0,0)%Q end)) in H. cbn beta iota in H. subst v.
    cbn [det3 dot3] in *. cbn [veq]. repeat split; rewrite E1, E2, E3; field; exact D.
  Qed.
  Lemma rotate_err t p v : rotate_plane cosq t p = Ok v -> exists x y z, axes cosq t = Some (x, y, z) /\ ~ (det3 x y z == 0)%Q.
  Proof.
    intros H. destruct (axes cosq t) as [[[x y] z]|] eqn:A.
    - exists x, y, z. split; [reflexivity|]. rewrite (rotate_unfold t x y z p A) in H. destruct (Qeq_bool (det3 x y z) 0) eqn:E; [discriminate H|]. intros C. apply Qeq_bool_iff in C. congruence.
    - exfalso. unfold rotate_plane, axes, coef in *. revert H A. generalize (if t_star t then map cosq (t_values t) else t_values t). intros l.
      destruct l as [|q0 [|q1 [|q2 [|q3 [|q4 [|q5 [|q6 [|q7 [|q8 [|q9 [|q10 [|q11 [|q12 l]]]]]]]]]]]]]; cbn [nth_error of_opt bind]; discriminate.
  Qed.
  Lemma axes_long t x : axes cosq t = Some x -> length (t_values t) <? 12 = false.
  Proof.
    unfold axes. intros H. apply Nat.ltb_ge. assert (E : length (if t_star t then map cosq (t_values t) else t_values t) = length (t_values t)) by (destruct (t_star t); [apply map_length|reflexivity]). rewrite <- E. clear E. revert H. generalize (if t_star t then map cosq (t_values t) else t_values t). intros l.
    destruct l as [|q0 [|q1 [|q2 [|q3 [|q4 [|q5 [|q6 [|q7 [|q8 [|q9 [|q10 [|q11 [|q12 l]]]]]]]]]]]]]; try discriminate. intros _. cbn [length]. lia.
  Qed.

  Lemma boundary_true tol ts a s : is_boundary sind cosd cosq norm tol ts a s = Ok true <-> at_boundary sind cosd cosq norm tol ts a s.
  Proof.
    unfold is_boundary, at_boundary. split.
    - destruct (plane_of s) as [[[p d]|]|] eqn:EP; cbn [bind]; try discriminate. apply card_plane_of in EP. destruct (check_tol tol [(d, 0%Q)]) eqn:ED; [|discriminate]. apply check_zero in ED.
      unfold main_direction. destruct (s_tr s) as [n|].
      + destruct (dget str_eqb (s2l "TR" ++ str_of_Z n) ts) as [t|] eqn:ET; cbn [of_opt bind]; [|discriminate]. destruct (length (t_values t) <? 12); [discriminate|].
        destruct (unit norm p) as [u|] eqn:EU; [|destruct (rotate_plane cosq t p); discriminate]. destruct (rotate_plane cosq t u) as [v|] eqn:ER; cbn [bind]; [|discriminate]. intros H. injection H as H. apply check_near in H.
        destruct (rotate_err _ _ _ ER) as (x & y & z & A & D). destruct (rotate_ok t x y z u A D) as (v' & ER' & V). assert (v' = v) by congruence. subst v'.
        exists p, d, u, v. split; [exact EP|]. split; [exact ED|]. split; [apply unit_ok; exact EU|]. split; [|exact H]. exists t, x, y, z. auto.
      + destruct (unit norm p) as [u|] eqn:EU; [|discriminate]. intros H. injection H as H. apply check_near in H. exists p, d, u, u. split; [exact EP|]. split; [exact ED|]. split; [apply unit_ok; exact EU|]. split; [apply veq_refl|exact H].
    - intros (p & d & u & v & EP & ED & EU & EM & H). rewrite (plane_of_card _ _ _ EP). cbn [bind]. rewrite (proj2 (check_zero tol d) ED). unfold main_direction in EM. destruct (unit_of _ _ EU) as (u' & EU' & VU).
      destruct (s_tr s) as [n|].
      + destruct EM as (t & x & y & z & ET & A & D & V). rewrite ET. cbn [of_opt bind]. rewrite (axes_long _ _ A), EU'. destruct (rotate_ok t x y z u' A D) as (v' & ER & _). rewrite ER. cbn [bind]. f_equal. apply check_near.
        apply (near_veq tol v); [|exact H]. apply veq_sym. apply (rotate_unique t x y z u' v' v A D ER). apply veq_trans with u; [apply veq_sym; exact VU|exact V].
      + rewrite EU'. f_equal. apply check_near. apply (near_veq tol v); [|exact H]. apply veq_trans with u; [apply veq_sym; exact EM|exact VU].
  Qed.

  (** the sign of a translation *)
  Lemma dot_near tol a n : (tol < 1 # 4)%Q -> trig_at sind cosd tol a -> near tol n ((- sind a)%Q, cosd a, 0%Q) -> (0 < dot3 n (((- sind a)%Q, cosd a, 0%Q)))%Q.
  Proof.
    intros Ht T H. destruct n as [[n1 n2] n3]. cbn [near dot3] in *. destruct H as (H1 & H2 & _). destruct T as [S C O _ _].
    apply Qabs_Qle_condition in H1, H2, S, C. set (si := sind a) in *. set (co := cosd a) in *. clearbody si co.
    assert (A : (0 <= tol)%Q) by lra.
    setoid_replace (n1 * - si + n2 * co + n3 * 0)%Q with ((si * si + co * co) + (n1 - - si) * (- si) + (n2 - co) * co)%Q by ring.
    assert (B1 : (- tol <= (n1 - - si) * (- si))%Q) by nra. assert (B2 : (- tol <= (n2 - co) * co)%Q) by nra. lra.
  Qed.
  Lemma y_sign tol a n1 n2 n3 : (-270 < a < 450)%Z -> a <> 90%Z -> a <> 270%Z -> a <> (-90)%Z -> trig_at sind cosd tol a -> near tol (n1, n2, n3) ((- sind a)%Q, cosd a, 0%Q) ->
    (quadrant a = true /\ 0 < n2)%Q \/ (quadrant a = false /\ n2 < 0)%Q.
  Proof.
    intros Ha N1 N2 N3 T (_ & H & _). apply Qabs_Qle_condition in H. destruct T as [_ _ _ P N].
    assert (D : (-90 < a < 90 \/ 270 < a < 450)%Z \/ (90 < a < 270 \/ -270 < a < -90)%Z) by lia. destruct D as [D|D].
    - left. specialize (P D). split; [|lra]. unfold quadrant. destruct (Z.ltb_spec 90 a), (Z.ltb_spec a 270), (Z.ltb_spec (-270) a), (Z.ltb_spec a (-90)); cbn [andb orb negb]; try reflexivity; lia.
    - right. specialize (N D). split; [|lra]. unfold quadrant. destruct (Z.ltb_spec 90 a), (Z.ltb_spec a 270), (Z.ltb_spec (-270) a), (Z.ltb_spec a (-90)); cbn [andb orb negb]; try reflexivity; lia.
  Qed.
End Trig.
