(** C44: extracting sectors of E-Lite. *)
From Coq Require Import Lia ZArith QArith Qabs Reals Lqa.
From Verif Require Import PyBase PyLemmas PyStr PyStrLemmas PyText D1SProofs2 LibModel MatModel MatProofs MatProofs2 InpModel InpSpec InpGeomSpec InpProofs2 InpExamples InpGeomProofs2 InpGeomProofs3 InpGeomProps EliteModel EliteSpec EliteProofs EliteProofs2 EliteProofs3 EliteProofs4 EliteProofs5.
Open Scope nat_scope.

(** ** which planes cut *)
(** The model is cut where the first sector starts and where the last one ends. *)
Theorem C44_cutting_angles s l : Forall known (s :: l) ->
  exists a b, boundaries_angles (s :: l) = Ok [a; b] /\ starts_at s a /\ ends_at (last (s :: l) s) b.
Proof. intros K. destruct (angles_aux (s :: l) true K) as (r & E & a & b & S & F & ->). exists a, b. auto. Qed.
Print Assumptions C44_cutting_angles.

(** A sector that does not exist is refused, wherever it stands in the list. *)
Theorem C44_unknown_sector s l d rows : In s l -> ~ known s ->
  boundaries_angles l = Err KeyError /\ set_sdef l d = Err KeyError /\ requested rows l = Err KeyError.
Proof.
  intros H N. split; [exact (angles_unknown l s true H N)|]. unfold set_sdef, source_lines, requested. rewrite (mapM_unknown plasma_cells l s plasma_names H N). split; [reflexivity|].
  rewrite (mapM_unknown (sectors_cells rows) l s (sectors_cells_names rows) H N). reflexivity.
Qed.
Print Assumptions C44_unknown_sector.

(** For sectors listed one after the other counterclockwise, the angle between the two cuts is the sum of their widths. *)
Theorem C44_opening_is_the_sum_of_the_widths s l a b ws : contiguous (s :: l) -> boundaries_angles (s :: l) = Ok [a; b] -> Forall2 width_is (s :: l) ws ->
  ((b - a) mod 360 = fold_right Z.add 0 ws mod 360)%Z.
Proof.
  intros C E F. assert (K : Forall known (s :: l)).
  { clear E C. induction F as [|x w l' ws' (a1 & b1 & Hi & _) _ IH]; constructor; [|exact IH]. unfold known. rewrite <- angles_names. apply in_map_iff. exists (x, (a1, b1)). auto. }
  destruct (C44_cutting_angles s l K) as (a' & b' & E' & S & Q). rewrite E' in E. injection E as -> ->.
  rewrite (contiguous_opening (s :: l) C s l a b ws eq_refl S Q F). assert (Z : zsum ws = fold_right Z.add 0%Z ws) by (clear; induction ws as [|w ws IH]; [reflexivity|]; cbn [zsum fold_right]; rewrite IH; reflexivity). rewrite Z. reflexivity.
Qed.
Print Assumptions C44_opening_is_the_sum_of_the_widths.

(** A list with a gap is not refused (as the documentation warns): sectors 1 and 4 are cut out with 2 & 3 between them. *)
Theorem C44_gap_accepted_refuted : exists l a b, boundaries_angles l = Ok [a; b] /\ ~ contiguous l /\
  exists s a' b', ~ In s l /\ In (s, (a', b')) sector_angles /\ (a < a' < b' /\ b' < b)%Z.
Proof.
  exists [SNum 1; SNum 4], 10%Z, 170%Z. split; [reflexivity|]. split.
  - intros C. inversion C as [|? ? ? a He Hs _]; subst. destruct He as (x & He). destruct Hs as (y & Hs).
    pose proof (angles_unique (SNum 1) (x, a) (10, 50)%Z He ltac:(left; reflexivity)) as E1. pose proof (angles_unique (SNum 4) (a, y) (130, 170)%Z Hs ltac:(do 2 right; left; reflexivity)) as E2. congruence.
  - exists s23, 50%Z, 130%Z. split; [intros [H|[H|[]]]; discriminate|]. split; [right; left; reflexivity|lia].
Qed.
Print Assumptions C44_gap_accepted_refuted.

(** ** the outer cell and the graveyard *)
(** The new outer cell is the part of the old one between the cutting planes; everything on the other side of a cutting
    plane joins the graveyard: no point is lost, and the two cells do not overlap unless they did before. *)
Theorem C44_outer_and_graveyard s l b0 b1 gy out ng mg geog keyg lg gg no mo geoo keyo lo go :
  (exists x, In (s, (b0, x)) sector_boundaries) -> (exists x, In (last (s :: l) s, (x, b1)) sector_boundaries) ->
  ordinary gy ng mg geog keyg -> card_text gy = Ok lg -> region_of lg gg ->
  ordinary out no mo geoo keyo -> card_text out = Ok lo -> region_of lo go ->
  exists out' gy' lo' lg' go' gg', modify_graveyard (s :: l) gy out = Ok (out', gy') /\
    card_text out' = Ok lo' /\ region_of lo' go' /\ card_text gy' = Ok lg' /\ region_of lg' gg' /\ c_name out' = c_name out /\ c_name gy' = c_name gy /\
    forall side cell, (inside side cell go' = true <-> inside side cell go = true /\ sense side b0 = true /\ sense side b1 = true)
      /\ (inside side cell gg' = true <-> inside side cell gg = true \/ sense side b0 = false \/ sense side b1 = false)
      /\ (inside side cell go = true -> inside side cell go' = true \/ inside side cell gg' = true)
      /\ (inside side cell go' = true -> inside side cell gg' = true -> inside side cell gg = true /\ inside side cell go = true).
Proof.
  intros H0 H1 Og Tg Rg Oo To Ro. rewrite (graveyard_cut s l gy out b0 b1 H0 H1). unfold cut.
  destruct (add_two gy ng mg geog keyg lg gg Union (- b0) (- b1) Og Tg Rg) as (g1 & g2 & lg2 & gg2 & E1 & E2 & T2 & R2 & I2 & N2).
  destruct (add_two out no mo geoo keyo lo go Intersect b0 b1 Oo To Ro) as (o1 & o2 & lo2 & go2 & E3 & E4 & T4 & R4 & I4 & N4).
  rewrite E1. cbn [bind]. rewrite E3. cbn [bind]. rewrite E2. cbn [bind]. rewrite E4. cbn [bind].
  exists o2, g2, lo2, lg2, go2, gg2. split; [reflexivity|]. repeat (split; [assumption|]). intros side cell. rewrite I2, I4. unfold edit_value.
  assert (Z0 : b0 <> 0%Z) by (destruct H0 as (x & H0); intros ->; cbn in H0; repeat (destruct H0 as [H0|H0]; [discriminate H0|]); exact H0).
  assert (Z1 : b1 <> 0%Z) by (destruct H1 as (x & H1); intros ->; cbn [sector_boundaries In] in H1; repeat (destruct H1 as [H1|H1]; [discriminate H1|]); exact H1).
  rewrite !sense_neg by assumption. destruct (inside side cell go), (inside side cell gg), (sense side b0), (sense side b1); cbn; intuition discriminate.
Qed.
Print Assumptions C44_outer_and_graveyard.

(** If the planes of the table are where the table of angles says, an opening of at most half a turn cuts out exactly the
    requested directions ... *)
Theorem C44_region_is_the_wedge side b0 b1 a b w (t : R) : (w = (b - a) mod 360)%Z -> (w <= 180)%Z -> (IZR a <= t < IZR a + 360)%R ->
  left_of side b0 a t -> right_of side b1 b t ->
  (sense side b0 = true /\ sense side b1 = true <-> between a w t).
Proof. intros Ew Hw Ht L R. rewrite <- (between_planes a b w t Ew Hw Ht). unfold left_of, right_of in *. tauto. Qed.
Print Assumptions C44_region_is_the_wedge.
(** ... but beyond half a turn the first (w - 180) degrees of the requested sectors are given to the graveyard. *)
Theorem C44_more_than_half_a_turn_refuted side b1 a b w (t : R) : (w = (b - a) mod 360)%Z -> (180 < w)%Z ->
  (IZR a < t < IZR a + (IZR w - 180))%R -> right_of side b1 b t -> between a w t /\ sense side b1 = false.
Proof.
  intros Ew Hw Ht R. split; [unfold between; split; [apply Ht|]|].
  - destruct Ht as [_ H]. eapply Rlt_trans; [exact H|]. apply Rplus_lt_compat_l. rewrite <- (Rminus_0_r (IZR w)) at 2. apply Rplus_lt_compat_l. apply Ropp_lt_contravar. apply IZR_lt. reflexivity.
  - pose proof (lost_directions a b w t Ew Hw Ht) as N. unfold right_of in R. destruct (sense side b1); [exfalso; apply N, R; reflexivity|reflexivity].
Qed.
Print Assumptions C44_more_than_half_a_turn_refuted.
(** Such lists exist: 1, 2 & 3, 4, 5 open 200 degrees. *)
Example C44_more_than_half_witness : boundaries_angles [SNum 1; s23; SNum 4; SNum 5] = Ok [10; -150]%Z /\ ((-150 - 10) mod 360 = 200)%Z /\ contiguous [SNum 1; s23; SNum 4; SNum 5].
Proof.
  split; [reflexivity|]. split; [reflexivity|]. apply (ct_cons _ _ _ 50); [exists 10%Z; left; reflexivity|exists 130%Z; right; left; reflexivity|].
  apply (ct_cons _ _ _ 130); [exists 50%Z; right; left; reflexivity|exists 170%Z; do 2 right; left; reflexivity|].
  apply (ct_cons _ _ _ 170); [exists 130%Z; do 2 right; left; reflexivity|exists (-150)%Z; do 3 right; left; reflexivity|]. apply ct_one.
Qed.

(** ** cells and source *)
(** The cells asked from the extraction are those of the sectors in the Excel table, the outer cell and the graveyard. *)
Theorem C44_requested_cells rows l : Forall known l -> exists zs, requested rows l = Ok zs /\
  forall z, In z zs <-> (exists s, In s l /\ In (s, z) rows) \/ z = 800%Z \/ z = 801%Z.
Proof.
  intros K. unfold requested. destruct (mapM_lookup (sectors_cells rows) l (sectors_cells_names rows) K) as (xs & E & F). rewrite E. cbn [bind]. eexists. split; [reflexivity|].
  assert (F2 : Forall2 (fun s x => forall z, In z x <-> In (s, z) rows) l xs).
  { clear E K. induction F as [|s x l xs Hi _ IH]; constructor; [|exact IH]. unfold sectors_cells in Hi. apply in_map_iff in Hi. destruct Hi as (s' & E & _). injection E as -> <-. intros z. rewrite in_map_iff. split.
    - intros ((s1 & z1) & E & H). apply filter_In in H. destruct H as [H1 H2]. cbn [fst snd] in *. apply sector_eqb_eq in H2. subst. exact H1.
    - intros H. exists (s, z). split; [reflexivity|]. apply filter_In. split; [exact H|]. cbn [fst]. apply sector_eqb_eq. reflexivity. }
  intros z. rewrite in_app_iff. cbn [In]. assert (G : In z (concat xs) <-> exists s, In s l /\ In (s, z) rows).
  { clear E F K. induction F2 as [|s x l xs Hx _ IH]; cbn [concat In]; [split; [intros []|intros (s & [] & _)]|]. rewrite in_app_iff, Hx, IH. split.
    - intros [H|(s' & H1 & H2)]; [exists s; auto|exists s'; auto].
    - intros (s' & [->|H1] & H2); [left; exact H2|right; exists s'; auto]. }
  rewrite G. intuition congruence.
Qed.
Print Assumptions C44_requested_cells.

(** The tables of the sectors: plasma cells, and the two planes of a single sector (numbered likewise). *)
Theorem C44_tables : (forall s z, In (s, z) plasma_cells <-> plasma_of s z) /\
  (forall n, (n = 1 \/ 4 <= n <= 9)%Z -> forall a b, In (SNum n, (a, b)) sector_boundaries <-> (a = 419024 + 8000 * n /\ b = 419016 + 8000 * n)%Z) /\
  (forall s n, place s n -> forall a b, In (s, (a, b)) sector_angles <->
     ((a - (40 * n - 30)) mod 360 = 0 /\ (b - a) mod 360 = (if (n =? 2) then 80 else 40) /\ -150 <= a <= 170 /\ -150 <= b <= 170)%Z).
Proof.
  split; [|split].
  - exact plasma_table.
  - intros n H a b. assert (E : (n = 1 \/ n = 4 \/ n = 5 \/ n = 6 \/ n = 7 \/ n = 8 \/ n = 9)%Z) by lia. unfold sector_boundaries.
    destruct E as [-> | [-> | [-> | [-> | [-> | [-> | ->]]]]]]; (split; [intros X; repeat (destruct X as [X|X]; [first [discriminate X|injection X as <- <-; split; reflexivity]|]); destruct X|intros [-> ->]; cbn; tauto]).
  - intros s n P a b. assert (E : (s = s23 /\ n = 2 \/ s = SNum n /\ (n = 1 \/ n = 4 \/ n = 5 \/ n = 6 \/ n = 7 \/ n = 8 \/ n = 9))%Z) by (destruct P as [[-> H]|[-> ->]]; [right; split; [reflexivity|lia]|left; auto]).
    unfold sector_angles. destruct E as [[-> ->]|[-> [-> | [-> | [-> | [-> | [-> | [-> | ->]]]]]]]]; cbn [Z.eqb Pos.eqb];
      (split; [intros X; repeat (destruct X as [X|X]; [first [discriminate X|injection X as <- <-; repeat split; first [reflexivity|lia]]|]); destruct X|]);
      intros (A & B & C & D);
      first [assert (E : (a = 10 /\ b = 50)%Z) by (Z.to_euclidean_division_equations; lia)|assert (E : (a = 50 /\ b = 130)%Z) by (Z.to_euclidean_division_equations; lia)|assert (E : (a = 130 /\ b = 170)%Z) by (Z.to_euclidean_division_equations; lia)|assert (E : (a = 170 /\ b = -150)%Z) by (Z.to_euclidean_division_equations; lia)|assert (E : (a = -150 /\ b = -110)%Z) by (Z.to_euclidean_division_equations; lia)|assert (E : (a = -110 /\ b = -70)%Z) by (Z.to_euclidean_division_equations; lia)|assert (E : (a = -70 /\ b = -30)%Z) by (Z.to_euclidean_division_equations; lia)|assert (E : (a = -30 /\ b = 10)%Z) by (Z.to_euclidean_division_equations; lia)]; destruct E as [-> ->]; cbn; tauto.
Qed.
Print Assumptions C44_tables.

(** The half plane opposite to a boundary is half a turn away, and the comment lines of a surface card, those that start with c
    or C, are not part of its entries. *)
Theorem C44_opposite_and_comments : (forall a, -180 <= a <= 360 -> (opposite a - a) mod 360 = 180 /\ 0 <= opposite a <= 360)%Z
  /\ (forall l, not_comment l = false <-> exists r, l = "c"%char :: r \/ l = "C"%char :: r).
Proof.
  split.
  - intros a H. unfold opposite. destruct (Z.ltb_spec 180 a); (split; [|lia]); Z.to_euclidean_division_equations; lia.
  - intros [|c l]; cbn [not_comment]; [split; [discriminate|intros (r & [X|X]); discriminate X]|]. unfold is_c. split.
    + intros H. exists l. destruct (Ascii.eqb_spec c "C"%char) as [->|_]; [auto|]. destruct (Ascii.eqb_spec c "c"%char) as [->|_]; [auto|discriminate H].
    + intros (r & [X|X]); injection X as -> _; reflexivity.
Qed.
Print Assumptions C44_opposite_and_comments.

(** The source is moved to the plasma cells of the sectors, in their order, a double sector counting twice; the other
    data cards stay. *)
Theorem C44_source l d : Forall known l -> In (s2l "SI70") (dkeys d) -> In (s2l "SP70") (dkeys d) ->
  exists d' si spp cs, set_sdef l d = Ok d' /\ dget str_eqb (s2l "SI70") d' = Some [si] /\ dget str_eqb (s2l "SP70") d' = Some [spp] /\
    Forall2 plasma_of l cs /\
    split si = s2l "SI70" :: s2l "L" :: map str_of_Z cs /\
    split spp = s2l "SP70" :: map (fun s => if sector_eqb s s23 then s2l "2" else s2l "1") l /\
    forall k, k <> s2l "SI70" -> k <> s2l "SP70" -> dget str_eqb k d' = dget str_eqb k d.
Proof.
  intros K H1 H2. destruct (mapM_lookup plasma_cells l plasma_names K) as (cs & E & F). unfold set_sdef, source_lines. rewrite E. cbn [bind].
  destruct (dget str_eqb (s2l "SI70") d) as [v1|] eqn:D1; [|apply (dget_none_iff str_eqb str_eqb_eq) in D1; contradiction]. cbn [of_opt bind].
  rewrite (dget_dset_other str_eqb str_eqb_eq) by discriminate.
  match goal with |- context [of_opt KeyError ?x] => destruct x as [v2|] eqn:D2 end; [|apply (dget_none_iff str_eqb str_eqb_eq) in D2; contradiction]. cbn [of_opt bind].
  do 4 eexists. split; [reflexivity|]. split; [rewrite (dget_dset_other str_eqb str_eqb_eq) by discriminate; apply (dget_dset_same str_eqb str_eqb_eq)|].
  split; [apply (dget_dset_same str_eqb str_eqb_eq)|]. split; [exact (plasma_all _ _ F)|]. split; [|split].
  - change (s2l "SI70 L " ++ ?x) with (s2l "SI70" ++ sp :: s2l "L" ++ sp :: x). rewrite !split_app_ws by reflexivity. change (split (s2l "SI70")) with [s2l "SI70"]. change (split (s2l "L")) with [s2l "L"]. cbn [app]. do 2 f_equal.
    rewrite <- (map_map str_of_Z (fun w => w ++ [sp])). apply split_spaced. clear. apply Forall_map, Forall_forall. intros z _. destruct (str_of_Z_no_ws z) as [A B]. split; assumption.
  - change (s2l "SP70 " ++ ?x) with (s2l "SP70" ++ sp :: x). rewrite split_app_ws by reflexivity. change (split (s2l "SP70")) with [s2l "SP70"]. cbn [app]. f_equal.
    transitivity (split (concat (map (fun w => w ++ [sp]) (map (fun s => if sector_eqb s s23 then s2l "2" else s2l "1") l)))).
    + f_equal. f_equal. rewrite map_map. apply map_ext. intros s. destruct (sector_eqb s s23); reflexivity.
    + apply split_spaced. apply Forall_map, Forall_forall. intros s _. destruct (sector_eqb s s23); (split; [discriminate|repeat constructor]).
  - intros k N1 N2. rewrite !(dget_dset_other str_eqb str_eqb_eq) by congruence. reflexivity.
Qed.
Print Assumptions C44_source.
(** Without these two cards nothing is extracted. *)
Theorem C44_no_source_card l d : Forall known l -> ~ In (s2l "SI70") (dkeys d) \/ ~ In (s2l "SP70") (dkeys d) -> set_sdef l d = Err KeyError.
Proof.
  intros K H. destruct (mapM_lookup plasma_cells l plasma_names K) as (cs & E & F). unfold set_sdef, source_lines. rewrite E. cbn [bind].
  destruct (dget str_eqb (s2l "SI70") d) as [v1|] eqn:D1; [|reflexivity]. cbn [of_opt bind]. rewrite (dget_dset_other str_eqb str_eqb_eq) by discriminate.
  match goal with |- context [of_opt KeyError ?x] => destruct x as [v2|] eqn:D2 end; [|reflexivity]. exfalso.
  destruct H as [H|H]; apply (dget_none_iff str_eqb str_eqb_eq) in H; [discriminate (eq_trans (eq_sym D1) H)|discriminate (eq_trans (eq_sym D2) H)].
Qed.
Print Assumptions C44_no_source_card.

(** ** the surfaces *)
Section Surfaces.
  Variable sind cosd : Z -> Q.
  Variable cosq : Q -> Q.
  Variable norm : vec3 -> Q.
  Notation atb := (at_boundary sind cosd cosq norm).
  Definition places (a0 a1 : Z) : list (nat * Z) := [(0, a0); (1, opposite a0); (2, a1); (3, opposite a1)].

  (** Every surface is treated by itself.  One that is no boundary plane is left alone; one that is, for exactly one of
      the four directions, is starred when a cell of the sectors uses it, otherwise translated. *)
  Theorem C44_each_surface a0 a1 tol l0 ts ss ss' : set_boundaries sind cosd cosq norm [a0; a1] tol l0 ts ss = Ok ss' ->
    Forall2 (fun s t =>
      ((forall k a, In (k, a) (places a0 a1) -> ~ atb tol ts a s) -> t = s) /\
      forall k a, In (k, a) (places a0 a1) -> atb tol ts a s -> (forall k' a', In (k', a') (places a0 a1) -> atb tol ts a' s -> (k', a') = (k, a)) ->
        (In (s_num s) l0 -> starred s t) /\
        (~ In (s_num s) l0 -> forall y ws w d, nth_error (s_coefs s) 1 = Some y -> card_words s = ws ++ [w] -> parse_float w = Ok d ->
           match ws with x :: _ => not_comment x = true | [] => False end ->
           moved_by (sgn (1 <? k) * sgn (quadrant a) * sgn (negb (Qle_bool y 0)) * 2 * tol)%Q s t)) ss ss'.
  Proof.
    unfold set_boundaries. rewrite boundary_list. fold (places a0 a1). intros H. apply (mapM_foldM (fun la s => visit sind cosd cosq norm tol l0 ts la s)) in H.
    assert (ND : NoDup (places a0 a1)) by exact (boundary_nodup a0 a1).
    induction H as [|s t ss ss' R _ IH]; constructor; [|exact IH]. split.
    - intros N. apply (run_same sind cosd cosq norm tol ts l0 _ s t R). intros [k a] Hi. exact (N k a Hi).
    - intros k a Hi Ha U. assert (M : modify_boundary (zmem (s_num s) l0) a k tol s = Ok t).
      { apply (run_hit sind cosd cosq norm tol ts l0 _ s t k a R ND Hi Ha). intros [k' a'] Hl C. exact (U k' a' Hl C). }
      split.
      + intros Hin. apply InpProofs3.zmem_in in Hin. rewrite Hin in M. unfold modify_boundary in M. destruct (s_text s) as [|x r] eqn:ET; [discriminate M|]. injection M as <-. exists x, r. auto.
      + intros Hn y ws w d Hy Hw Hd Hc. destruct (zmem (s_num s) l0) eqn:Z; [apply InpProofs3.zmem_in in Z; contradiction|]. cbn [modify_boundary] in M.
        destruct (translate_ok a k tol s y ws w d Hy Hw Hd Hc) as (t' & E & Hm). rewrite E in M. injection M as <-. exact Hm.
  Qed.

  (** Planes without transformation whose normal is that of the boundary itself are moved away from the sectors ... *)
  Definition wayout (a0 a1 : Z) (k : nat) : vec3 :=
    match k with
    | 0 | 1 => neg3 ((- sind a0)%Q, cosd a0, 0%Q)
    | _ => ((- sind a1)%Q, cosd a1, 0%Q)
    end.
  Definition regular (a : Z) : Prop := (-270 < a < 450 /\ a <> 90 /\ a <> 270 /\ a <> -90)%Z.
  Theorem C44_planes_move_outwards a0 a1 tol ts s k a c1 c2 c3 d r n1 n2 n3 : (0 < tol)%Q -> (tol < 1 # 4)%Q -> (k = 0 /\ a = a0) \/ (k = 2 /\ a = a1) -> regular a -> trig_at sind cosd tol a ->
    s_type s = s2l "p" -> s_coefs s = c1 :: c2 :: c3 :: d :: r -> s_tr s = None -> (0 < norm (c1, c2, c3))%Q -> unit_vector norm (c1, c2, c3) (n1, n2, n3) -> atb tol ts a s ->
    let e := (sgn (1 <? k) * sgn (quadrant a) * sgn (negb (Qle_bool c2 0)) * 2 * tol)%Q in
    (Qabs e == 2 * tol)%Q /\ goes e (n1, n2, n3) (wayout a0 a1 k).
  Proof.
    intros Ht0 Ht Hk Hr T Hty Hc Htr Hn (_ & U) (p & d' & u & v & P & _ & (_ & Uu) & M & Nv) e.
    unfold main_direction in M. rewrite Htr in M. assert (p = (c1, c2, c3)) by (destruct P as [? ? ? ? ? TT CC|? ? TT|? ? TT|? ? TT]; rewrite Hty in TT; try discriminate TT; congruence). subst p.
    assert (V : veq v (n1, n2, n3)). { apply veq_trans with u; [apply veq_sym; exact M|]. apply veq_trans with (c1 / norm (c1, c2, c3), c2 / norm (c1, c2, c3), c3 / norm (c1, c2, c3))%Q; [exact Uu|apply veq_sym; exact U]. }
    pose proof (near_veq _ _ _ _ V Nv) as N. pose proof (dot_near sind cosd tol a (n1, n2, n3) Ht T N) as D. destruct Hr as (R1 & R2 & R3 & R4).
    pose proof (y_sign sind cosd tol a n1 n2 n3 R1 R2 R3 R4 T N) as Y. destruct U as (_ & U2 & _).
    assert (Y2 : (quadrant a = true /\ Qle_bool c2 0 = false) \/ (quadrant a = false /\ Qle_bool c2 0 = true)).
    { assert (X : (n2 * norm (c1, c2, c3) == c2)%Q) by (rewrite U2; field; lra). set (q := norm (c1, c2, c3)) in *. clearbody q.
      destruct Y as [[Y1 Y2]|[Y1 Y2]]; [left|right]; (split; [exact Y1|]).
      - destruct (Qle_bool c2 0) eqn:E; [|reflexivity]. apply Qle_bool_iff in E. exfalso. assert ((0 < n2 * q)%Q) by nra. lra.
      - apply Qle_bool_iff. assert ((0 < (- n2) * q)%Q) by nra. lra. }
    unfold goes, wayout, neg3, e. destruct Hk as [[-> ->]|[-> ->]]; cbn [Nat.ltb Nat.leb]; destruct Y2 as [[-> ->]|[-> ->]]; cbn [negb sgn dot3] in *;
      (split; [first [rewrite Qabs_pos by lra; lra|rewrite Qabs_neg by lra; lra]|nra]).
  Qed.
  (** ... but planes with the opposite normal are moved into them: in the direction opposite to the outward one. *)
  Theorem C44_reversed_planes_move_inwards_refuted a0 a1 tol ts s k a b c1 c2 c3 d r n1 n2 n3 : (0 < tol)%Q -> (tol < 1 # 4)%Q ->
    (k = 1 /\ b = a0) \/ (k = 3 /\ b = a1) -> a = opposite b -> (sind a == - sind b)%Q -> (cosd a == - cosd b)%Q -> regular a -> trig_at sind cosd tol a ->
    s_type s = s2l "p" -> s_coefs s = c1 :: c2 :: c3 :: d :: r -> s_tr s = None -> (0 < norm (c1, c2, c3))%Q -> unit_vector norm (c1, c2, c3) (n1, n2, n3) -> atb tol ts a s ->
    let e := (sgn (1 <? k) * sgn (quadrant a) * sgn (negb (Qle_bool c2 0)) * 2 * tol)%Q in
    goes e (n1, n2, n3) (neg3 (wayout a0 a1 k)).
  Proof.
    intros Ht0 Ht Hk -> Es Ec Hr T Hty Hc Htr Hn (_ & U) (p & d' & u & v & P & _ & (_ & Uu) & M & Nv) e.
    unfold main_direction in M. rewrite Htr in M. assert (p = (c1, c2, c3)) by (destruct P as [? ? ? ? ? TT CC|? ? TT|? ? TT|? ? TT]; rewrite Hty in TT; try discriminate TT; congruence). subst p.
    assert (V : veq v (n1, n2, n3)). { apply veq_trans with u; [apply veq_sym; exact M|]. apply veq_trans with (c1 / norm (c1, c2, c3), c2 / norm (c1, c2, c3), c3 / norm (c1, c2, c3))%Q; [exact Uu|apply veq_sym; exact U]. }
    pose proof (near_veq _ _ _ _ V Nv) as N. pose proof (dot_near sind cosd tol _ (n1, n2, n3) Ht T N) as D. destruct Hr as (R1 & R2 & R3 & R4).
    pose proof (y_sign sind cosd tol _ n1 n2 n3 R1 R2 R3 R4 T N) as Y. destruct U as (_ & U2 & _).
    assert (Y2 : (quadrant (opposite b) = true /\ Qle_bool c2 0 = false) \/ (quadrant (opposite b) = false /\ Qle_bool c2 0 = true)).
    { assert (X : (n2 * norm (c1, c2, c3) == c2)%Q) by (rewrite U2; field; lra). set (q := norm (c1, c2, c3)) in *. clearbody q.
      destruct Y as [[Y1 Y2]|[Y1 Y2]]; [left|right]; (split; [exact Y1|]).
      - destruct (Qle_bool c2 0) eqn:E; [|reflexivity]. apply Qle_bool_iff in E. exfalso. assert ((0 < n2 * q)%Q) by nra. lra.
      - apply Qle_bool_iff. assert ((0 < (- n2) * q)%Q) by nra. lra. }
    unfold goes, wayout, neg3, e. cbn [dot3] in D. rewrite Es, Ec in D.
    destruct Hk as [[-> ->]|[-> ->]]; cbn [Nat.ltb Nat.leb]; destruct Y2 as [[-> ->]|[-> ->]]; cbn [negb sgn dot3] in *; nra.
  Qed.

  (** Extracting the whole turn: both cuts are at the same angle and a boundary plane of the sectors is starred twice. *)
  Theorem C44_whole_turn_refuted a tol l0 ts ss ss' : set_boundaries sind cosd cosq norm [a; a] tol l0 ts ss = Ok ss' ->
    Forall2 (fun s t => atb tol ts a s -> ~ atb tol ts (opposite a) s -> In (s_num s) l0 -> exists x r, s_text s = x :: r /\ s_text t = ("*"%char :: "*"%char :: x) :: r) ss ss'.
  Proof.
    unfold set_boundaries. rewrite boundary_list. intros H. apply (mapM_foldM (fun la s => visit sind cosd cosq norm tol l0 ts la s)) in H.
    induction H as [|s t ss ss' R _ IH]; constructor; [|exact IH]. intros Ha Hn Hi. apply InpProofs3.zmem_in in Hi.
    assert (B : is_boundary sind cosd cosq norm tol ts a s = Ok true) by (apply boundary_true; exact Ha).
    cbn [foldM] in R. unfold visit at 1 in R. cbn [fst snd] in R. rewrite B in R. cbn [bind] in R. rewrite Hi in R. cbn [modify_boundary] in R. destruct (s_text s) as [|x r] eqn:ET; [discriminate R|]. cbn [bind] in R.
    set (s1 := mkSurf (s_num s) (s_type s) (s_coefs s) (s_tr s) (s_lines s) (("*"%char :: x) :: r)) in *.
    assert (S : forall b, is_boundary sind cosd cosq norm tol ts b s1 = is_boundary sind cosd cosq norm tol ts b s) by (intros b; apply isb_same; reflexivity).
    assert (O : is_boundary sind cosd cosq norm tol ts (opposite a) s <> Ok true) by (intros C; apply boundary_true in C; contradiction).
    unfold visit at 1 in R. cbn [fst snd] in R. rewrite S in R. destruct (is_boundary sind cosd cosq norm tol ts (opposite a) s) as [[]|] eqn:EO; [contradiction| |discriminate R]. cbn [bind] in R.
    unfold visit at 1 in R. cbn [fst snd] in R. rewrite S, B in R. cbn [bind] in R. change (s_num s1) with (s_num s) in R. rewrite Hi in R. cbn [modify_boundary s1 s_text s_num s_type s_coefs s_tr s_lines bind] in R.
    unfold visit at 1 in R. cbn [fst snd] in R. rewrite (isb_same sind cosd cosq norm tol ts (opposite a) s (mkSurf (s_num s) (s_type s) (s_coefs s) (s_tr s) (s_lines s) (("*"%char :: "*"%char :: x) :: r)) eq_refl eq_refl eq_refl), EO in R. cbn [bind] in R. injection R as <-. exists x, r. auto.
  Qed.

  (** A translated plane needs a coefficient of y and a number at the end of its text: a px, py or pz plane brought to the
      boundary by a rotation, or a card that ends with a comment, stops the whole extraction. *)
  Theorem C44_some_planes_stop_the_extraction_refuted a0 a1 tol l0 ts ss s k a : In s ss -> In (k, a) (places a0 a1) -> atb tol ts a s -> ~ In (s_num s) l0 ->
    length (s_coefs s) <= 1 \/ (exists ws w e, card_words s = ws ++ [w] /\ parse_float w = Err e) ->
    forall ss', set_boundaries sind cosd cosq norm [a0; a1] tol l0 ts ss <> Ok ss'.
  Proof.
    intros Hs Hi Ha Hn Hbad ss' H. unfold set_boundaries in H. rewrite boundary_list in H. fold (places a0 a1) in H. apply (mapM_foldM (fun la s => visit sind cosd cosq norm tol l0 ts la s)) in H.
    apply In_nth_error in Hs. destruct Hs as (i & Hs). assert (E : exists t, foldM (fun s la => visit sind cosd cosq norm tol l0 ts la s) s (places a0 a1) = Ok t).
    { clear - H Hs. revert i Hs. induction H as [|x y ss ss' E _ IH]; intros i Hs; [destruct i; discriminate Hs|]. destruct i as [|i]; [injection Hs as <-; eauto|eauto]. }
    destruct E as (t & E). destruct (run_needs sind cosd cosq norm tol ts l0 _ k a s Hi Ha t E) as (k' & a' & t' & _ & M).
    destruct (zmem (s_num s) l0) eqn:Z; [apply InpProofs3.zmem_in in Z; contradiction|]. cbn [modify_boundary] in M. unfold translate, coef in M. destruct Hbad as [L|(ws & w & e & Hw & Pw)].
    - rewrite (proj2 (nth_error_None (s_coefs s) 1) L) in M. discriminate M.
    - rewrite words_eq, Hw, rev_app_distr in M. destruct (nth_error (s_coefs s) 1); cbn [of_opt bind rev app hd_error] in M; [|discriminate M]. rewrite Pw in M. discriminate M.
  Qed.

  (** The displacement of a transformation is not looked at: a plane that it puts anywhere still counts as passing through the axis. *)
  Theorem C44_displacement_ignored_refuted tol ts a s n b q0 x y z x' y' z' cs : s_tr s = Some n ->
    dget str_eqb (s2l "TR" ++ str_of_Z n) ts = Some (mkTrans b (q0 :: x :: y :: z :: cs)) ->
    atb tol (dset str_eqb (s2l "TR" ++ str_of_Z n) (mkTrans b (q0 :: x' :: y' :: z' :: cs)) ts) a s <-> atb tol ts a s.
  Proof.
    intros Hs Ht. unfold at_boundary, main_direction. rewrite Hs, Ht, (dget_dset_same str_eqb str_eqb_eq).
    assert (A : axes cosq (mkTrans b (q0 :: x' :: y' :: z' :: cs)) = axes cosq (mkTrans b (q0 :: x :: y :: z :: cs))) by (unfold axes; cbn [t_star t_values]; destruct b; reflexivity).
    split; intros (p & d & u & v & P & D & U & (t & e1 & e2 & e3 & Et & At & M) & N); exists p, d, u, v; (split; [exact P|]); (split; [exact D|]); (split; [exact U|]); (split; [|exact N]);
      injection Et as <-; eexists; exists e1, e2, e3; (split; [reflexivity|]); (split; [|exact M]); congruence.
  Qed.
End Surfaces.
Print Assumptions C44_each_surface.
Print Assumptions C44_planes_move_outwards.
Print Assumptions C44_reversed_planes_move_inwards_refuted.
Print Assumptions C44_whole_turn_refuted.
Print Assumptions C44_some_planes_stop_the_extraction_refuted.
Print Assumptions C44_displacement_ignored_refuted.

(** Non-vacuity: sine and cosine of the boundaries of sector 1 to four digits; a plane of a sector cell at 50 degrees,
    planes of filler cells at 10 degrees, one of them reversed, and a cylinder *)
Definition c44_sin (a : Z) : Q := if (a =? 10)%Z then 1736 # 10000 else if (a =? 190)%Z then -1736 # 10000 else if (a =? 50)%Z then 7660 # 10000 else if (a =? 230)%Z then -7660 # 10000 else 0.
Definition c44_cos (a : Z) : Q := if (a =? 10)%Z then 9848 # 10000 else if (a =? 190)%Z then -9848 # 10000 else if (a =? 50)%Z then 6428 # 10000 else if (a =? 230)%Z then -6428 # 10000 else 0.
Definition c44_norm (_ : vec3) : Q := 1.
Definition c44_s7 : surf := mkSurf 7 (s2l "p") [-7660 # 10000; 6428 # 10000; 0; 0]%Q None [s2l "7 P -0.7660 0.6428 0.0 0.0"] [s2l "7 P -0.7660 0.6428 0.0 0.0"].
Definition c44_s105 : surf := mkSurf 105 (s2l "p") [-1736 # 10000; 9848 # 10000; 0; 0]%Q None [s2l "105 P -0.1736 0.9848 0.0 0.0"] [s2l "105 P -0.1736 0.9848 0.0 0.0"].
Definition c44_s106 : surf := mkSurf 106 (s2l "p") [1736 # 10000; -9848 # 10000; 0; 0]%Q None [s2l "106 P 0.1736 -0.9848 0.0 0.0"] [s2l "106 P 0.1736 -0.9848 0.0 0.0"].
Definition c44_s107 : surf := mkSurf 107 (s2l "cz") [300 # 1]%Q None [s2l "107 CZ 300"] [s2l "107 CZ 300"].
Example C44_witness_surfaces : boundaries_angles [SNum 1] = Ok [10; 50]%Z /\
  (exists ss', set_boundaries c44_sin c44_cos (fun q => q) c44_norm [10; 50]%Z (1 # 10000) [7%Z] [] [c44_s7; c44_s105; c44_s106; c44_s107] = Ok ss' /\
   map s_text ss' = [[s2l "*7 P -0.7660 0.6428 0.0 0.0"]; [s2l "105 P -0.1736 0.9848 0.0 -0.00020000" ++ [nl]]; [s2l "106 P 0.1736 -0.9848 0.0 -0.00020000" ++ [nl]]; [s2l "107 CZ 300"]]) /\
  trig_at c44_sin c44_cos (1 # 10000) 10 /\ trig_at c44_sin c44_cos (1 # 10000) 190 /\ regular 10 /\ regular 190 /\
  at_boundary c44_sin c44_cos (fun q => q) c44_norm (1 # 10000) [] 10 c44_s105 /\ at_boundary c44_sin c44_cos (fun q => q) c44_norm (1 # 10000) [] (opposite 10) c44_s106 /\
  unit_vector c44_norm (-1736 # 10000, 9848 # 10000, 0)%Q (-1736 # 10000, 9848 # 10000, 0)%Q.
Proof.
  split; [reflexivity|]. split; [eexists; split; vm_compute; reflexivity|].
  split; [constructor; try (vm_compute; congruence); intros [H|H]; try lia; vm_compute; reflexivity|].
  split; [constructor; try (vm_compute; congruence); intros [H|H]; try lia; vm_compute; reflexivity|].
  split; [unfold regular; lia|]. split; [unfold regular; lia|].
  split; [apply boundary_true; vm_compute; reflexivity|]. split; [apply boundary_true; vm_compute; reflexivity|]. apply unit_ok. vm_compute. reflexivity.
Qed.
Example C44_witness_cells : ordinary g_void 3 0 [tmpl "-@"] [] /\ (exists out gy, modify_graveyard [SNum 1; s23] g_c1 g_void = Ok (out, gy) /\
   card_text out = Ok [s2l "3 0 ( ( -10 ) 427024 ) 437543 "] /\ card_text gy = Ok [s2l "1 2 -7.8 ( ( -10 :11"; s2l "     -12 ) :-427024 ) :-437543  imp:n=1 u=5"]).
Proof.
  split; [|do 2 eexists; split; [vm_compute; reflexivity|split; vm_compute; reflexivity]]. constructor.
  - exists 1, 1. do 3 eexists. split; [reflexivity|]. split; vm_compute; reflexivity.
  - repeat constructor. intros Q; cbn in Q; intuition discriminate.
  - exact I.
  - exists [(10, Ksur)]%Z, []. split; [reflexivity|]. split; [reflexivity|]. split; [discriminate|]. split; [repeat constructor|constructor].
  - intros Q. now elim Q.
Qed.
