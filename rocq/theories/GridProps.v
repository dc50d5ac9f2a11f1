(** Property C109: the grid of a weight window stands where the window says. *)
From Coq Require Import Lia ZArith Lqa Reals Qreals Lra.
From Verif Require Import PyBase B2Model WWModel WWSpec WWProofs5 GridModel GridSpec GridProofs GridProofs2.
Open Scope R_scope.

(** A window without directors: every point is its three coordinates, moved by the origin; the first index runs fastest. *)
Theorem C109_cartesian vi vj vk o : exists g, window_grid vi vj vk o None = Ok g
  /\ pg_dims g = (length vi, length vj, length vk) /\ length (pg_points g) = (length vk * length vj * length vi)%nat
  /\ forall i j k x y z, nth_error vi i = Some x -> nth_error vj j = Some y -> nth_error vk k = Some z ->
       nth_error (pg_points g) ((k * length vj + j) * length vi + i) = Some (addR (Q2R x, Q2R y, Q2R z) o).
Proof.
  eexists. split; [reflexivity|]. unfold cartesian_grid. cbn [pg_dims pg_points]. split; [reflexivity|].
  split; [exact (length_grid3 (fun x y z => addR (Q2R x, Q2R y, Q2R z) o) vi vj vk)|].
  intros i j k x y z Hi Hj Hk. exact (nth_grid3 (fun x y z => addR (Q2R x, Q2R y, Q2R z) o) vi vj vk k j i x y z Hk Hj Hi).
Qed.
Print Assumptions C109_cartesian.

(** The vectors of a rectangular window file start at the origin of the window, so its grid is moved by the origin twice. *)
Theorem C109_displaced_twice_refuted vi vj vk (x y z : Q) : ~ (x == 0)%Q \/ ~ (y == 0)%Q \/ ~ (z == 0)%Q ->
  exists g, window_grid (x :: vi) (y :: vj) (z :: vk) (toR (x, y, z)) None = Ok g
    /\ nth_error (pg_points g) 0 = Some (scaleR 2 (toR (x, y, z))) /\ scaleR 2 (toR (x, y, z)) <> toR (x, y, z).
Proof.
  intros N. eexists. split; [reflexivity|]. split; [cbn; apply f_equal, vec_eq; ring|]. cbn. intros E. injection E as E1 E2 E3.
  assert (F : forall q, 2 * Q2R q = Q2R q -> (q == 0)%Q) by (intros q Hq; apply eqR_Qeq; unfold Q2R at 2; cbn; lra).
  destruct N as [N|[N|N]]; apply N, F; assumption.
Qed.
Print Assumptions C109_displaced_twice_refuted.

(** A cylindrical window whose axis does not point down is drawn as a right-handed cylinder with its origin and its axis, starting from
    some unit vector perpendicular to the axis. *)
Theorem C109_cylinder vi vj vk o axis vec a u : (2 <= length vi)%nat -> (2 <= length vk)%nat -> direction axis a -> not_down axis -> direction vec u ->
  exists g w, window_grid vi vj vk o (Some (axis, vec)) = Ok g /\ dotR w w = 1 /\ dotR a w = 0 /\ Drawn o a w vi vj vk g.
Proof.
  intros Li Lk Da Na Du. destruct (grid_ok vi vj vk o axis vec a u Li Lk Da Na Du) as (g & E & D). exists g, (tilt a (start (fst (fst u)))). split; [exact E|].
  pose proof (unit_up axis a Da Na) as U. assert (Hu : dotR u u = 1) by (destruct Du as (? & ? & ? & ?); assumption).
  destruct (tilt_unit a (fst (fst u)) (sqrt (1 - (fst (fst u))²)) U) as [T1 T2]. rewrite start_unit in T2 by (apply unit_bound; exact Hu). auto.
Qed.
Print Assumptions C109_cylinder.

(** With the axis along z that vector is the window's, when it is horizontal and its y is not negative; *)
Theorem C109_upright_cylinder vi vj vk o h vec x y : (2 <= length vi)%nat -> (2 <= length vk)%nat -> 0 < h -> direction vec (x, y, 0) -> 0 <= y ->
  exists g, window_grid vi vj vk o (Some ((0, 0, h), vec)) = Ok g /\ Drawn o (0, 0, 1) (x, y, 0) vi vj vk g.
Proof.
  intros Li Lk Hh Du Hy. assert (Da : direction (0, 0, h) (0, 0, 1)) by (exists h; split; [exact Hh|]; split; [unfold scaleR; veq; ring|unfold dotR; ring]).
  destruct (grid_ok vi vj vk o _ vec _ _ Li Lk Da (or_intror (or_intror Hh)) Du) as (g & E & D). exists g. split; [exact E|].
  assert (Hu : x * x + y * y + 0 * 0 = 1) by (destruct Du as (? & ? & ? & H); exact H).
  replace (tilt (0, 0, 1) (start (fst (fst (x, y, 0))))) with (x, y, 0) in D; [exact D|]. unfold start, tilt. cbn [fst].
  replace (1 - x²) with (y * y) by (unfold Rsqr; lra). rewrite sqrt_square by exact Hy. veq; field.
Qed.
Print Assumptions C109_upright_cylinder.
(** and so it is for a vector along x with any axis perpendicular to it, and for a vector along y with the axis along x (the directors of
    the windows made from a mesh tally without a vector). *)
Theorem C109_default_vectors vi vj vk o b c h l : (2 <= length vi)%nat -> (2 <= length vk)%nat -> 0 < h -> 0 < l -> b * b + c * c = 1 -> c <> -1 ->
  (exists g, window_grid vi vj vk o (Some ((0, h * b, h * c), (l, 0, 0))) = Ok g /\ Drawn o (0, b, c) (1, 0, 0) vi vj vk g)
  /\ exists g, window_grid vi vj vk o (Some ((h, 0, 0), (0, l, 0))) = Ok g /\ Drawn o (1, 0, 0) (0, 1, 0) vi vj vk g.
Proof.
  intros Li Lk Hh Hl Hbc Hc. split.
  - assert (Da : direction (0, h * b, h * c) (0, b, c)) by (exists h; split; [exact Hh|]; split; [unfold scaleR; veq; ring|unfold dotR; lra]).
    assert (Du : direction (l, 0, 0) (1, 0, 0)) by (exists l; split; [exact Hl|]; split; [unfold scaleR; veq; ring|unfold dotR; lra]).
    assert (Na : not_down (0, h * b, h * c)). { unfold not_down. destruct (Req_dec b 0) as [->|Nb]; [|right; left; nra]. right. right. assert (c = 1) by nra. subst. lra. }
    destruct (grid_ok vi vj vk o _ _ _ _ Li Lk Da Na Du) as (g & E & D). exists g. split; [exact E|].
    pose proof (unit_up _ _ Da Na) as [_ Uc].
    replace (tilt (0, b, c) (start (fst (fst (1, 0, 0))))) with (1, 0, 0) in D; [exact D|]. unfold start, tilt. cbn [fst]. replace (1 - 1²) with 0 by (unfold Rsqr; ring). rewrite sqrt_0.
    assert (K : b * b / (1 + c) = 1 - c) by (replace (b * b) with ((1 - c) * (1 + c)) by lra; field; lra).
    veq; [|field; lra|ring]. transitivity (c + b * b / (1 + c)); [rewrite K; ring|field; lra].
  - assert (Da : direction (h, 0, 0) (1, 0, 0)) by (exists h; split; [exact Hh|]; split; [unfold scaleR; veq; ring|unfold dotR; lra]).
    assert (Du : direction (0, l, 0) (0, 1, 0)) by (exists l; split; [exact Hl|]; split; [unfold scaleR; veq; ring|unfold dotR; lra]).
    assert (Na : not_down (h, 0, 0)) by (left; lra). destruct (grid_ok vi vj vk o _ _ _ _ Li Lk Da Na Du) as (g & E & D). exists g. split; [exact E|].
    replace (tilt (1, 0, 0) (start (fst (fst (0, 1, 0))))) with (0, 1, 0) in D; [exact D|]. unfold start, tilt. cbn [fst]. replace (1 - 0²) with 1 by (unfold Rsqr; ring). rewrite sqrt_1. veq; field.
Qed.
Print Assumptions C109_default_vectors.

(** A vector with a negative y is drawn mirrored, *)
Theorem C109_mirrored_vector_refuted vi vj vk o h vec x y : (2 <= length vi)%nat -> (2 <= length vk)%nat -> 0 < h -> direction vec (x, y, 0) -> y < 0 ->
  exists g, window_grid vi vj vk o (Some ((0, 0, h), vec)) = Ok g /\ Drawn o (0, 0, 1) (x, - y, 0) vi vj vk g /\ (x, - y, 0) <> (x, y, 0).
Proof.
  intros Li Lk Hh Du Hy. assert (Da : direction (0, 0, h) (0, 0, 1)) by (exists h; split; [exact Hh|]; split; [unfold scaleR; veq; ring|unfold dotR; ring]).
  destruct (grid_ok vi vj vk o _ vec _ _ Li Lk Da (or_intror (or_intror Hh)) Du) as (g & E & D). exists g. split; [exact E|].
  assert (Hu : x * x + y * y + 0 * 0 = 1) by (destruct Du as (? & ? & ? & H); exact H). split; [|intros K; injection K as K; lra].
  replace (tilt (0, 0, 1) (start (fst (fst (x, y, 0))))) with (x, - y, 0) in D; [exact D|]. unfold start, tilt. cbn [fst].
  replace (1 - x²) with (- y * - y) by (unfold Rsqr; lra). rewrite sqrt_square by lra. veq; field.
Qed.
Print Assumptions C109_mirrored_vector_refuted.
(** the vector z of an axis along x is drawn as y, *)
Theorem C109_vector_along_z_refuted vi vj vk o h l : (2 <= length vi)%nat -> (2 <= length vk)%nat -> 0 < h -> 0 < l ->
  exists g, window_grid vi vj vk o (Some ((h, 0, 0), (0, 0, l))) = Ok g /\ Drawn o (1, 0, 0) (0, 1, 0) vi vj vk g.
Proof.
  intros Li Lk Hh Hl. assert (Da : direction (h, 0, 0) (1, 0, 0)) by (exists h; split; [exact Hh|]; split; [unfold scaleR; veq; ring|unfold dotR; lra]).
  assert (Du : direction (0, 0, l) (0, 0, 1)) by (exists l; split; [exact Hl|]; split; [unfold scaleR; veq; ring|unfold dotR; lra]).
  assert (Na : not_down (h, 0, 0)) by (left; lra). destruct (grid_ok vi vj vk o _ _ _ _ Li Lk Da Na Du) as (g & E & D). exists g. split; [exact E|].
  replace (tilt (1, 0, 0) (start (fst (fst (0, 0, 1))))) with (0, 1, 0) in D; [exact D|]. unfold start, tilt. cbn [fst]. replace (1 - 0²) with 1 by (unfold Rsqr; ring). rewrite sqrt_1. veq; field.
Qed.
Print Assumptions C109_vector_along_z_refuted.
(** an axis that points down is refused, *)
Theorem C109_downward_axis_refuted vi vj vk o h vec u : (2 <= length vi)%nat -> (2 <= length vk)%nat -> vj <> [] -> h < 0 -> direction vec u ->
  window_grid vi vj vk o (Some ((0, 0, h), vec)) = Err ValueError.
Proof.
  intros Li Lk Lj Hh Du. cbn [window_grid]. destruct (radii_ok vi Li) as (r & Er & Hr). destruct (angles_ok vk Lk) as (c & t & Ec & Et & Ht). unfold cylindrical_grid. rewrite Er, Ec. cbn [bind]. rewrite Et. cbn [bind].
  destruct vj as [|z vj]; [contradiction|]. destruct Hr as [Lr _]. destruct r as [|r0 r]; [cbn [length] in Lr; lia|].
  destruct Ht as (c' & _ & Lt & _). destruct t as [|t0 t]; [discriminate Lt|]. cbn [map concat app mapM].
  unfold place_point at 1. rewrite (to_vec vec u _ Du). cbn [bind]. rewrite down_axis; [reflexivity| |intros K; injection K; lra]. unfold not_down. intros [K|[K|K]]; lra.
Qed.
Print Assumptions C109_downward_axis_refuted.
(** and the directors of a window file, which MCNP reads as points, are taken as vectors: with the origin at (0, 0, h), the axis through
    (0, 0, z) and the angles from (x, 0, h), that is from the x direction, the grid is turned away from x unless h is zero. *)
Theorem C109_directors_are_points_refuted vi vj vk h x z : (2 <= length vi)%nat -> (2 <= length vk)%nat -> 0 < z -> 0 < x -> h <> 0 ->
  let n := sqrt (x * x + h * h) in
  exists g, window_grid vi vj vk (0, 0, h) (Some ((0, 0, z), (x, 0, h))) = Ok g /\ Drawn (0, 0, h) (0, 0, 1) (x / n, Rabs h / n, 0) vi vj vk g
    /\ direction (less (x, 0, h) (0, 0, h)) (1, 0, 0) /\ (x / n, Rabs h / n, 0) <> (1, 0, 0).
Proof.
  intros Li Lk Hz Hx Hh n. assert (Hh2 : 0 < h * h) by (pose proof (Rlt_0_sqr h Hh) as Q; exact Q). assert (Hn : 0 < n) by (apply sqrt_lt_R0; nra). assert (Nn : n * n = x * x + h * h) by (apply sqrt_sqrt; nra).
  assert (Da : direction (0, 0, z) (0, 0, 1)) by (exists z; split; [exact Hz|]; split; [unfold scaleR; veq; ring|unfold dotR; ring]).
  assert (Du : direction (x, 0, h) (x / n, 0, h / n)).
  { exists n. split; [exact Hn|]. split; [unfold scaleR; veq; field; lra|]. unfold dotR. replace (x / n * (x / n) + 0 * 0 + h / n * (h / n)) with ((x * x + h * h) / (n * n)) by (field; lra). rewrite Nn. field. nra. }
  destruct (grid_ok vi vj vk (0, 0, h) _ _ _ _ Li Lk Da (or_intror (or_intror Hz)) Du) as (g & E & D). exists g. split; [exact E|]. split; [|split].
  - replace (tilt (0, 0, 1) (start (fst (fst (x / n, 0, h / n))))) with (x / n, Rabs h / n, 0) in D; [exact D|]. unfold start, tilt. cbn [fst].
    replace (1 - (x / n)²) with (Rabs h / n * (Rabs h / n)).
    + rewrite sqrt_square; [veq; field; lra|]. apply Rmult_le_pos; [apply Rabs_pos|left; apply Rinv_0_lt_compat; exact Hn].
    + replace (Rabs h / n * (Rabs h / n)) with (Rabs h * Rabs h / (n * n)) by (field; lra). rewrite <- Rabs_mult, Rabs_right by lra. unfold Rsqr. replace (1 - x / n * (x / n)) with ((n * n - x * x) / (n * n)) by (field; lra). rewrite Nn. f_equal. ring.
  - exists x. split; [exact Hx|]. unfold less, addR, scaleR, dotR. split; [veq; ring|ring].
  - intros K. injection K as K1 K2. assert (0 < Rabs h) by (apply Rabs_pos_lt; exact Hh). assert (0 < Rabs h / n) by (apply Rmult_lt_0_compat; [assumption|apply Rinv_0_lt_compat; exact Hn]). lra.
Qed.
Print Assumptions C109_directors_are_points_refuted.

(** The cells of the grid are those of the window, each cut into [pieces] along the angle: this number is the one by which the values are
    repeated, and the cell between the angles k*m+s and k*m+s+1 shows the value of the window's interval k. *)
Theorem C109_cells_show_their_values vi vj vk o a w g (val : list (list (list Q))) : Drawn o a w vi vj vk g ->
  let ni := (length vi - 1)%nat in let nj := (length vj - 1)%nat in let nk := (length vk - 1)%nat in
  (0 < ni)%nat -> (0 < nj)%nat -> (0 < nk)%nat ->
  let m := (cells g / (ni * nj * nk))%nat in
  m = pieces nk
  /\ (rect nk nj ni val -> forall i j k s y, voxel val (k, j, i) = Some y -> (s < m)%nat ->
        nth_error (grid_array (Cylindrical m) val) ((j * (nk * m) + (k * m + s)) * ni + i) = Some y).
Proof.
  intros (r & t & Hr & (c & _ & Lt & _) & Ed & _) ni nj nk Pi Pj Pk m.
  assert (Em : m = pieces nk). { unfold m, cells. rewrite Ed, Lt. fold ni nj nk. replace (S (pieces nk * nk) - 1)%nat with (pieces nk * nk)%nat by lia.
    replace (ni * (pieces nk * nk) * nj)%nat with (pieces nk * (ni * nj * nk))%nat by lia. apply Nat.div_mul. nia. }
  split; [exact Em|]. intros Hv i j k s y Hy Hs. assert (0 < m)%nat by (rewrite Em; unfold pieces; destruct nk as [|[|[|]]]; lia).
  apply (grid_cell (Cylindrical m) nk nj ni val (k, j, i)); [exact Hv|exact Hy|]. exists s. auto.
Qed.
Print Assumptions C109_cells_show_their_values.

(** ** witnesses: the cylinder of tests/.../ww_simple_cyl has its directors as points; a window of three by one turn by two *)
Example C109_witness_direction : direction (0, 0, 11) (0, 0, 1) /\ not_down (0, 0, 11) /\ direction (3, 4, 0) (3 / 5, 4 / 5, 0) /\ 0 <= 4 / 5.
Proof.
  split; [exists 11; split; [lra|]; split; [unfold scaleR; veq; ring|unfold dotR; ring]|]. split; [right; right; lra|].
  split; [exists 5; split; [lra|]; split; [unfold scaleR; veq; field|unfold dotR; field]|lra].
Qed.
Example C109_witness_cylinder : exists g, window_grid [0; 1; 2]%Q [0; 10]%Q [0; 1]%Q (0, 0, -5) (Some ((0, 0, 11), (3, 4, 0))) = Ok g
  /\ Drawn (0, 0, -5) (0, 0, 1) (3 / 5, 4 / 5, 0) [0; 1; 2]%Q [0; 10]%Q [0; 1]%Q g /\ (cells g = 40)%nat.
Proof.
  destruct C109_witness_direction as (_ & _ & D & P).
  destruct (C109_upright_cylinder [0; 1; 2]%Q [0; 10]%Q [0; 1]%Q (0, 0, -5) 11 (3, 4, 0) (3 / 5) (4 / 5)) as (g & E & H); [cbn; lia|cbn; lia|lra|exact D|exact P|].
  exists g. split; [exact E|]. split; [exact H|]. destruct H as (r & t & _ & (c & _ & Lt & _) & Ed & _). unfold cells. rewrite Ed, Lt. reflexivity.
Qed.
Example C109_witness_rect : rect 1 1 2 [[[1; 2]]]%Q /\ voxel [[[1; 2]]]%Q (0, 0, 1)%nat = Some 2%Q.
Proof. split; [|reflexivity]. split; [reflexivity|]. repeat constructor. Qed.
Example C109_witness_origin : ~ (-15 == 0)%Q.
Proof. discriminate. Qed.
