(** Proofs about grids (C57), conversion (C58) and collapsing (C59) *)
From Coq Require Import Lia ZArith Qabs Lqa.
From Verif Require Import PyBase PyLemmas PyStr PyStrLemmas D1SProofs2 LibModel LibProofs2 MeshModel MeshProofs FmeshModel FmeshSpec FmeshProofs FmeshProofs2.
Open Scope nat_scope.

Lemma nth_concat_any {A B} (g : B -> list A) w (bs : list B) : (forall x, length (g x) = w) ->
  forall a b x, nth_error bs a = Some x -> b < w -> nth_error (concat (map g bs)) (a * w + b) = nth_error (g x) b.
Proof.
  intros L. induction bs as [|y bs IH]; intros [|a] b x Ha Hb; try discriminate Ha.
  - injection Ha as ->. cbn [map concat]. rewrite nth_error_app1 by (rewrite L; lia). reflexivity.
  - cbn [map concat]. rewrite nth_error_app2 by (rewrite L; nia). rewrite L. replace (S a * w + b - w) with (a * w + b) by nia. apply IH; assumption.
Qed.
Lemma length_concat_any {A B} (g : B -> list A) w (bs : list B) : (forall x, length (g x) = w) -> length (concat (map g bs)) = length bs * w.
Proof. intros L. induction bs as [|y bs IH]; [reflexivity|]. cbn [map concat length]. rewrite app_length, L, IH. lia. Qed.
(* three nested lists of points *)
Lemma nth_grid (h : Q -> Q -> Q -> vec) l1 l2 l3 k j i a b c : nth_error l3 k = Some c -> nth_error l2 j = Some b -> nth_error l1 i = Some a ->
  nth_error (concat (map (fun x3 => concat (map (fun x2 => map (fun x1 => h x1 x2 x3) l1) l2)) l3)) ((k * length l2 + j) * length l1 + i) = Some (h a b c).
Proof.
  intros Hc Hb Ha. assert (Hj : j < length l2) by (apply nth_error_Some; congruence). assert (Hi : i < length l1) by (apply nth_error_Some; congruence).
  replace ((k * length l2 + j) * length l1 + i) with (k * (length l2 * length l1) + (j * length l1 + i)) by lia.
  rewrite (nth_concat_any (fun x3 => concat (map (fun x2 => map (fun x1 => h x1 x2 x3) l1) l2)) (length l2 * length l1) l3) with (x := c).
  - rewrite (nth_concat_any (fun x2 => map (fun x1 => h x1 x2 c) l1) (length l1) l2) with (x := b); [|intros; apply map_length|exact Hb|exact Hi].
    rewrite nth_error_map, Ha. reflexivity.
  - intros x. rewrite (length_concat_any _ (length l1)); [lia|]. intros y. apply map_length.
  - exact Hc.
  - nia.
Qed.
Lemma length_grid (h : Q -> Q -> Q -> vec) l1 l2 l3 :
  length (concat (map (fun x3 => concat (map (fun x2 => map (fun x1 => h x1 x2 x3) l1) l2)) l3)) = length l3 * (length l2 * length l1).
Proof. apply length_concat_any. intros x. rewrite (length_concat_any _ (length l1)); [lia|]. intros y. apply map_length. Qed.

Lemma cut_shaped m m' : Shaped m -> cut_turn m = Ok m' -> Shaped m'.
Proof.
  unfold cut_turn. intros HS H. destruct (md_cyl m); [|injection H as <-; exact HS].
  destruct (md_x3 m) as [|x [|y xs]] eqn:X; try discriminate H. destruct (Qle_bool y (1 # 2)); injection H as <-; [exact HS|].
  intros t e k j i. cbn [md_a]. rewrite (HS t e (pred k) j i). unfold nt, ne, nx1, nx2, nx3. cbn [md_x1 md_x2 md_x3 md_e md_t]. rewrite X. cbn [length]. split; intros (? & ? & ? & ? & ?); repeat split; lia || assumption.
Qed.
Lemma cut_sizes m m' : cut_turn m = Ok m' -> nt m' = nt m /\ ne m' = ne m /\ nx1 m' = nx1 m /\ nx2 m' = nx2 m /\ md_e m' = md_e m /\ md_t m' = md_t m /\ md_cyl m' = md_cyl m.
Proof.
  unfold cut_turn. intros H. destruct (md_cyl m) eqn:C; [|injection H as <-; rewrite C; repeat split].
  destruct (md_x3 m) as [|x [|y xs]] eqn:X; try discriminate H. destruct (Qle_bool y (1 # 2)); injection H as <-; [rewrite C; repeat split|]. repeat split.
Qed.
Section G.
  Context {R : Type} (sn cs : Q -> Q).
  Lemma create_form m (tr : trsf (R := R)) l m' g : create_grid sn cs m tr l = Ok (m', g) -> Unrelated (fst l) (snd l) ->
    (m' = m \/ cut_turn m = Ok m') /\ g_arrays g = concat (map (entries m' l) (bins (nt m') (ne m'))).
  Proof.
    intros H U. unfold create_grid in H. destruct (md_cyl m) eqn:C; [|destruct tr as [tr|]].
    - destruct (cut_turn m) as [m1|] eqn:E; [|discriminate H]. cbn [bind] in H. rewrite (arrays_ok m1 l U) in H. cbn [bind] in H.
      assert (H' : Ok (m1, mkGrid (points sn cs m1 tr) (concat (map (entries m1 l) (bins (nt m1) (ne m1))))) = Ok (m', g)) by (destruct tr; exact H).
      injection H' as <- <-. split; [right; reflexivity|reflexivity].
    - destruct (cut_turn m) as [m1|] eqn:E; [|discriminate H]. cbn [bind] in H. rewrite (arrays_ok m1 l U) in H. cbn [bind] in H.
      injection H as <- <-. split; [right; reflexivity|reflexivity].
    - rewrite (arrays_ok m l U) in H. cbn [bind] in H. injection H as <- <-. split; [left; reflexivity|reflexivity].
  Qed.
  Lemma create_sizes m (tr : trsf (R := R)) l m' g : create_grid sn cs m tr l = Ok (m', g) -> Unrelated (fst l) (snd l) ->
    nt m' = nt m /\ ne m' = ne m /\ nx1 m' = nx1 m /\ nx2 m' = nx2 m /\ md_e m' = md_e m /\ md_t m' = md_t m /\ md_cyl m' = md_cyl m.
  Proof. intros H U. destruct (create_form _ _ _ _ _ H U) as [[->|E] _]; [repeat split|exact (cut_sizes _ _ E)]. Qed.
  Lemma create_shaped m (tr : trsf (R := R)) l m' g : Shaped m -> create_grid sn cs m tr l = Ok (m', g) -> Unrelated (fst l) (snd l) -> Shaped m'.
  Proof. intros HS H U. destruct (create_form _ _ _ _ _ H U) as [[->|E] _]; [exact HS|exact (cut_shaped _ _ HS E)]. Qed.
  Lemma grid_arrays m (tr : trsf (R := R)) l m' g t e : create_grid sn cs m tr l = Ok (m', g) -> Unrelated (fst l) (snd l) -> t < nt m -> e < ne m ->
    exists v er, dget str_eqb (label (fst l) (nt m) (ne m) t e) (g_arrays g) = Some v /\ Listing m' t e fst v
              /\ dget str_eqb (label (snd l) (nt m) (ne m) t e) (g_arrays g) = Some er /\ Listing m' t e snd er.
  Proof.
    intros H U Ht He. destruct (create_form _ _ _ _ _ H U) as [_ Eg]. destruct (create_sizes _ _ _ _ _ H U) as (E1 & E2 & _).
    rewrite <- E1, <- E2 in *. pose proof (names_nodup m' l U) as ND. rewrite Eg.
    assert (Hin : In (entries m' l (t, e)) (map (entries m' l) (bins (nt m') (ne m')))) by (apply in_map, in_bins; auto).
    exists (ravel m' t e fst), (ravel m' t e snd). split; [|split; [apply ravel_ok|split; [|apply ravel_ok]]]; apply dget_in; auto; apply in_concat; exists (entries m' l (t, e)); (split; [exact Hin|]); [left|right; left]; reflexivity.
  Qed.
  Lemma grid_count m (tr : trsf (R := R)) l m' g : create_grid sn cs m tr l = Ok (m', g) -> Unrelated (fst l) (snd l) ->
    length (g_arrays g) = 2 * (nt m * ne m) /\ NoDup (map fst (g_arrays g)).
  Proof.
    intros H U. destruct (create_form _ _ _ _ _ H U) as [_ Eg]. destruct (create_sizes _ _ _ _ _ H U) as (E1 & E2 & _).
    rewrite Eg, <- E1, <- E2. split; [|apply names_nodup; exact U].
    rewrite (length_concat_any _ 2) by reflexivity. unfold bins. rewrite (length_concat_any _ (ne m')); [rewrite seq_length; lia|]. intros. rewrite map_length, seq_length. reflexivity.
  Qed.
  Lemma create_total m (tr : trsf (R := R)) l : Unrelated (fst l) (snd l) -> (md_cyl m = true -> 2 <= length (md_x3 m)) -> exists r, create_grid sn cs m tr l = Ok r.
  Proof.
    intros U H. assert (C : exists m', cut_turn m = Ok m').
    { unfold cut_turn. destruct (md_cyl m); [|eauto]. specialize (H eq_refl). destruct (md_x3 m) as [|x [|y xs]]; cbn [length] in H; try lia. destruct (Qle_bool y (1 # 2)); eauto. }
    destruct C as [m' E]. unfold create_grid. destruct (md_cyl m); [|destruct tr]; rewrite ?E; cbn [bind]; rewrite arrays_ok by exact U; cbn [bind]; eauto.
  Qed.
  Lemma grid_points m (tr : trsf (R := R)) l m' g k j i a b c : create_grid sn cs m tr l = Ok (m', g) ->
    nth_error (md_x3 m') k = Some c -> nth_error (md_x2 m') j = Some b -> nth_error (md_x1 m') i = Some a ->
    exists p, nth_error (g_points g) ((k * S (nx2 m') + j) * S (nx1 m') + i) = Some p /\ Veq p (place sn cs (md_cyl m) tr a b c).
  Proof.
    intros H Hc Hb Ha.
    assert (L2 : S (nx2 m') = length (md_x2 m')) by (unfold nx2; destruct (md_x2 m'); [destruct j; discriminate Hb|cbn [length]; lia]).
    assert (L1 : S (nx1 m') = length (md_x1 m')) by (unfold nx1; destruct (md_x1 m'); [destruct i; discriminate Ha|cbn [length]; lia]).
    rewrite L1, L2. unfold create_grid in H.
    destruct (md_cyl m) eqn:C; [|destruct tr as [[[[o1 o2] o3] r]|]].
    - destruct (cut_turn m) as [m1|] eqn:E; [|discriminate H]. cbn [bind] in H. destruct (bin_arrays m1 l) as [d|] eqn:D; [|destruct tr; discriminate H]. cbn [bind] in H.
      assert (H' : Ok (m1, mkGrid (points sn cs m1 tr) d) = Ok (m', g)) by (destruct tr; exact H). injection H' as <- <-.
      destruct (cut_sizes _ _ E) as (_ & _ & _ & _ & _ & _ & C'). unfold points, place. destruct (origin tr) as [[o1 o2] o3]. cbn [g_points]. rewrite C', C.
      eexists. split; [exact (nth_grid (fun x1 x2 x3 => (x1 * cs x3 + o1, x1 * sn x3 + o2, x2 + o3)%Q) _ _ _ k j i a b c Hc Hb Ha)|]. repeat split; reflexivity.
    - destruct (cut_turn m) as [m1|] eqn:E; [|discriminate H]. cbn [bind] in H. destruct (bin_arrays m1 l) as [d|] eqn:D; [|discriminate H]. cbn [bind] in H. injection H as <- <-.
      destruct (cut_sizes _ _ E) as (_ & _ & _ & _ & _ & _ & C'). unfold points, place. cbn [origin g_points]. rewrite C', C.
      eexists. split; [exact (nth_grid (fun x1 x2 x3 => (x1 + o1, x2 + o2, x3 + o3)%Q) _ _ _ k j i a b c Hc Hb Ha)|]. repeat split; reflexivity.
    - destruct (bin_arrays m l) as [d|] eqn:D; [|discriminate H]. cbn [bind] in H. injection H as <- <-. cbn [g_points]. unfold rect_points.
      eexists. split; [exact (nth_grid (fun x1 x2 x3 => (x1, x2, x3)) _ _ _ k j i a b c Hc Hb Ha)|]. unfold place. cbn [origin]. repeat split; ring.
  Qed.
  (* the rotation of the transformation is not used *)
  Lemma no_rotation m o (r r' : R) l : create_grid sn cs m (Some (o, r)) l = create_grid sn cs m (Some (o, r')) l.
  Proof. unfold create_grid. destruct (md_cyl m); reflexivity. Qed.

  (** ** conversion *)
  Lemma plain_labels : Unrelated (fst column_labels) (snd column_labels).
  Proof. split; intros s H; discriminate H. Qed.
  Lemma label_plain base : label base 1 1 0 0 = base.
  Proof. unfold label. rewrite !part_one by lia. apply app_nil_r. Qed.
  Lemma plain_arrays m (tr : trsf (R := R)) m' g : create_grid sn cs m tr column_labels = Ok (m', g) -> nt m = 1 -> ne m = 1 ->
    g_get g (fst column_labels) = Ok (ravel m' 0 0 fst) /\ g_get g (snd column_labels) = Ok (ravel m' 0 0 snd)
    /\ map fst (g_arrays g) = [fst column_labels; snd column_labels].
  Proof.
    intros H Nt Ne. destruct (create_form _ _ _ _ _ H plain_labels) as [_ Eg]. destruct (create_sizes _ _ _ _ _ H plain_labels) as (E1 & E2 & _).
    rewrite E1, E2, Nt, Ne in Eg. cbn [bins seq map concat app] in Eg. unfold entries in Eg. cbn [fst snd] in Eg. rewrite E1, E2, Nt, Ne in Eg. rewrite !label_plain in Eg. unfold g_get. rewrite Eg. repeat split.
  Qed.
  Lemma short_bins b : nbins b = 1%Z -> length (x_vals b) <= 2.
  Proof.
    unfold nbins, binbound, totalbin. destruct (x_tag b); intros H;
      try (destruct (Nat.eqb_spec (length (x_vals b)) 2) as [E|E]; cbn [negb] in H; lia);
      try (destruct (Nat.eqb_spec (length (x_vals b)) 1) as [E|E]; cbn [negb] in H; lia); lia.
  Qed.

  Lemma firstn_nth {A} n (l : list A) r : r < n -> nth_error (firstn n l) r = nth_error l r.
  Proof. revert l r. induction n as [|n IH]; intros [|x l] r H; try lia; [destruct r; reflexivity|]. destruct r; [reflexivity|]. cbn [firstn nth_error]. apply IH. lia. Qed.
  Lemma flat_rows m n (pos : nat -> nat * nat * nat * nat) : n <= nx3 m * nx2 m * nx1 m ->
    (forall r, r < n -> let '(en, k, j, i) := pos r in en = 0 /\ k < nx3 m /\ j < nx2 m /\ i < nx1 m /\ (k * nx2 m + j) * nx1 m + i = r) ->
    Rows m pos n (firstn n (ravel m 0 0 fst)) (firstn n (ravel m 0 0 snd)).
  Proof.
    intros Hn Hp. destruct (ravel_ok m 0 0 fst) as [L1 N1], (ravel_ok m 0 0 snd) as [L2 N2].
    split; [rewrite firstn_length, L1; lia|]. split; [rewrite firstn_length, L2; lia|]. intros r p Hr Hs.
    specialize (Hp r Hr). destruct (pos r) as [[[en k] j] i]. destruct Hp as (-> & Hk & Hj & Hi & <-).
    rewrite !firstn_nth by exact Hr. split; [apply N1|apply N2]; auto.
  Qed.
  Lemma make_inv m tally (tr : trsf (R := R)) l f : make_fmesh sn cs m tally tr l = Ok f ->
    exists m' g, create_grid sn cs m tr l = Ok (m', g) /\ f = mkF m' tally tr None g.
  Proof. unfold make_fmesh. destruct (create_grid sn cs m tr l) as [[m' g]|]; [|discriminate]. cbn [bind]. intros H. injection H as <-. eauto. Qed.
  Lemma tl_length {A} (l : list A) : length (tl l) = length l - 1.
  Proof. destruct l; cbn [tl length]; lia. Qed.
  Lemma convert_from m tally (tr : trsf (R := R)) m' g col n x z pos : create_grid sn cs m tr column_labels = Ok (m', g) -> nt m = 1 -> ne m = 1 ->
    parse_int tally = Ok z -> columns (mkF m' tally tr None g) = from_grid (mkF m' tally tr None g) col n x -> n = length x - 1 ->
    n <= nx3 m' * nx2 m' * nx1 m' ->
    (forall r, r < n -> let '(en, k, j, i) := pos r in en = 0 /\ k < nx3 m' /\ j < nx2 m' /\ i < nx1 m' /\ (k * nx2 m' + j) * nx1 m' + i = r) ->
    exists v e, convert2tally (mkF m' tally tr None g) = Ok (z, (s2l col, tl x, v, e), s2l "None") /\ Rows m' pos n v e.
  Proof.
    intros H Nt Ne Hz Hc Hn Hle Hp. destruct (plain_arrays _ _ _ _ H Nt Ne) as (G1 & G2 & _). pose proof (flat_rows m' n pos Hle Hp) as HR.
    exists (firstn n (ravel m' 0 0 fst)), (firstn n (ravel m' 0 0 snd)). split; [|exact HR]. destruct HR as (L1 & L2 & _).
    unfold convert2tally. rewrite Hc. unfold from_grid. cbn [f_grid]. rewrite G1, G2. cbn [bind]. rewrite L1, L2, tl_length, <- Hn, !Nat.eqb_refl. cbn [andb f_tally f_comments]. rewrite Hz. reflexivity.
  Qed.
  Lemma ne_short m : ne m = 1 -> (2 <? length (x_vals (md_e m))) = false.
  Proof. intros H. apply Nat.ltb_ge. apply short_bins. unfold ne in H. lia. Qed.
  Ltac sizes := repeat match goal with H : _ = 1 |- _ => rewrite H in * end.
  Lemma convert_z m tally (tr : trsf (R := R)) f z : make_fmesh sn cs m tally tr column_labels = Ok f -> nt m = 1 -> ne m = 1 -> parse_int tally = Ok z -> nx1 m = 1 -> nx2 m = 1 ->
    exists v e, convert2tally f = Ok (z, (s2l "Cor C", tl (md_x3 (f_mesh f)), v, e), s2l "None") /\ Rows (f_mesh f) (fun r => (0, r, 0, 0)) (nx3 (f_mesh f)) v e.
  Proof.
    intros H Nt Ne Hz X1 X2. destruct (make_inv _ _ _ _ _ H) as (m' & g & Hg & ->). destruct (create_sizes _ _ _ _ _ Hg plain_labels) as (E1 & E2 & E3 & E4 & E5 & E6 & E7).
    cbn [f_mesh]. rewrite Ne in E2. apply (convert_from m tally tr m' g "Cor C" (nx3 m') (md_x3 m') z); auto.
    - unfold columns. cbn [f_mesh]. rewrite E3, E4, X1, X2, (ne_short m' E2). reflexivity.
    - rewrite E3, E4, X1, X2. lia.
    - intros r Hr. rewrite E3, E4, X1, X2. lia.
  Qed.
  Lemma convert_y m tally (tr : trsf (R := R)) f z : make_fmesh sn cs m tally tr column_labels = Ok f -> nt m = 1 -> ne m = 1 -> parse_int tally = Ok z -> nx1 m = 1 -> nx2 m <> 1 ->
    (nx3 (f_mesh f) = 1 \/ md_cyl m = true /\ nx3 (f_mesh f) = 2) ->
    exists v e, convert2tally f = Ok (z, (s2l "Cor B", tl (md_x2 m), v, e), s2l "None") /\ Rows (f_mesh f) (fun r => (0, 0, r, 0)) (nx2 m) v e.
  Proof.
    intros H Nt Ne Hz X1 X2 X3. destruct (make_inv _ _ _ _ _ H) as (m' & g & Hg & ->). destruct (create_sizes _ _ _ _ _ Hg plain_labels) as (E1 & E2 & E3 & E4 & E5 & E6 & E7).
    assert (B : md_x2 m' = md_x2 m). { destruct (create_form _ _ _ _ _ Hg plain_labels) as [[->|C] _]; [reflexivity|]. unfold cut_turn in C. destruct (md_cyl m); [|injection C as <-; reflexivity].
      destruct (md_x3 m) as [|? [|y ?]]; try discriminate C. destruct (Qle_bool y (1 # 2)); injection C as <-; reflexivity. }
    cbn [f_mesh] in *. rewrite Ne in E2. rewrite <- B, <- E4. apply (convert_from m tally tr m' g "Cor B" (nx2 m') (md_x2 m') z); auto.
    - unfold columns. cbn [f_mesh]. rewrite E3, E4, E7, X1. destruct (Nat.eqb_spec (nx2 m) 1) as [E|_]; [contradiction|]. cbn [Nat.eqb andb].
      replace (1 =? nx2 m) with false by (symmetry; apply Nat.eqb_neq; auto). rewrite ?Bool.andb_false_r, ?Bool.andb_false_l. cbn [andb].
      destruct X3 as [->|[-> ->]]; [reflexivity|]. cbn [Nat.eqb andb]. rewrite ?Bool.andb_false_r. reflexivity.
    - rewrite E3, X1. destruct X3 as [->|[_ ->]]; lia.
    - intros r Hr. rewrite E3, X1. destruct X3 as [->|[_ ->]]; lia.
  Qed.
  Lemma convert_x m tally (tr : trsf (R := R)) f z : make_fmesh sn cs m tally tr column_labels = Ok f -> nt m = 1 -> ne m = 1 -> parse_int tally = Ok z -> nx2 m = 1 -> nx1 m <> 1 ->
    (nx3 (f_mesh f) = 1 \/ md_cyl m = true /\ nx3 (f_mesh f) = 2) ->
    exists v e, convert2tally f = Ok (z, (s2l "Cor A", tl (md_x1 m), v, e), s2l "None") /\ Rows (f_mesh f) (fun r => (0, 0, 0, r)) (nx1 m) v e.
  Proof.
    intros H Nt Ne Hz X2 X1 X3. destruct (make_inv _ _ _ _ _ H) as (m' & g & Hg & ->). destruct (create_sizes _ _ _ _ _ Hg plain_labels) as (E1 & E2 & E3 & E4 & E5 & E6 & E7).
    assert (B : md_x1 m' = md_x1 m). { destruct (create_form _ _ _ _ _ Hg plain_labels) as [[->|C] _]; [reflexivity|]. unfold cut_turn in C. destruct (md_cyl m); [|injection C as <-; reflexivity].
      destruct (md_x3 m) as [|? [|y ?]]; try discriminate C. destruct (Qle_bool y (1 # 2)); injection C as <-; reflexivity. }
    cbn [f_mesh] in *. rewrite Ne in E2. rewrite <- B, <- E3. apply (convert_from m tally tr m' g "Cor A" (nx1 m') (md_x1 m') z); auto.
    - unfold columns. cbn [f_mesh]. rewrite E3, E4, E7, X2. destruct (Nat.eqb_spec (nx1 m) 1) as [E|_]; [contradiction|]. cbn [Nat.eqb andb].
      destruct X3 as [->|[-> ->]]; cbn [Nat.eqb andb].
      + destruct (Nat.eqb_spec (nx1 m) 1) as [E|_]; [contradiction|]. reflexivity.
      + rewrite ?Bool.andb_false_r. reflexivity.
    - rewrite E4, X2. destruct X3 as [->|[_ ->]]; lia.
    - intros r Hr. rewrite E4, X2. destruct X3 as [->|[_ ->]]; lia.
  Qed.
  Lemma convert_e m tally (tr : trsf (R := R)) f z : Shaped m -> make_fmesh sn cs m tally tr column_labels = Ok f -> nt m <> 0 -> x_tag (md_e m) = Erg -> 2 < length (x_vals (md_e m)) ->
    parse_int tally = Ok z -> nx1 m = 1 -> nx2 m = 1 -> (nx3 (f_mesh f) = 1 \/ md_cyl m = true /\ nx3 (f_mesh f) = 2) ->
    exists v e, convert2tally f = Ok (z, (s2l "Energy", tl (x_vals (md_e m)), v, e), s2l "None")
      /\ Rows (f_mesh f) (fun r => (r, 0, 0, 0)) (ne m - 1) v e /\ length (x_vals (md_e m)) = ne m.
  Proof.
    intros HS H Nt T Hl Hz X1 X2 X3. destruct (make_inv _ _ _ _ _ H) as (m' & g & Hg & ->). destruct (create_sizes _ _ _ _ _ Hg plain_labels) as (E1 & E2 & E3 & E4 & E5 & E6 & E7).
    cbn [f_mesh] in *.
    assert (Ln : length (x_vals (md_e m)) = ne m).
    { unfold ne, nbins, binbound, totalbin. rewrite T. destruct (Nat.eqb_spec (length (x_vals (md_e m))) 2) as [E|E]; [lia|]. cbn [negb]. lia. }
    exists (map (fun e => fst (cell (md_a m') 0 e 0 0 0)) (seq 0 (ne m - 1))), (map (fun e => snd (cell (md_a m') 0 e 0 0 0)) (seq 0 (ne m - 1))).
    split; [|split; [|exact Ln]].
    - unfold convert2tally, columns. cbn [f_mesh f_tally f_comments]. rewrite E3, E4, E2, E5, E7, X1, X2. cbn [Nat.eqb andb]. destruct (Nat.ltb_spec 2 (length (x_vals (md_e m)))); [|lia].
      assert (C : (md_cyl m && (nx3 m' =? 2)) || (nx3 m' =? 1) = true) by (destruct X3 as [->|[-> ->]]; [apply Bool.orb_true_r|reflexivity]).
      rewrite C. cbn [bind]. rewrite !map_length, !seq_length, tl_length, Ln, !Nat.eqb_refl. cbn [andb]. rewrite Hz. reflexivity.
    - split; [rewrite map_length, seq_length; reflexivity|]. split; [rewrite map_length, seq_length; reflexivity|]. intros r p Hr Hp.
      rewrite !nth_error_map, !(nth_error_nth' (seq 0 (ne m - 1)) 0) by (rewrite seq_length; exact Hr). rewrite !seq_nth by exact Hr. cbn [option_map Nat.add]. unfold cell. rewrite Hp. auto.
  Qed.
  (* what is refused *)
  Lemma convert_unbound m tally (tr : trsf (R := R)) f : make_fmesh sn cs m tally tr column_labels = Ok f -> nx1 m = 1 -> nx2 m = 1 -> 2 < length (x_vals (md_e m)) ->
    md_cyl m = false -> nx3 m <> 1 -> convert2tally f = Err UnboundLocalError.
  Proof.
    intros H X1 X2 Hl C X3. destruct (make_inv _ _ _ _ _ H) as (m' & g & Hg & ->). destruct (create_sizes _ _ _ _ _ Hg plain_labels) as (E1 & E2 & E3 & E4 & E5 & E6 & E7).
    assert (E8 : m' = m). { destruct (create_form _ _ _ _ _ Hg plain_labels) as [[->|D] _]; [reflexivity|]. unfold cut_turn in D. rewrite C in D. injection D as ->. reflexivity. }
    subst m'. unfold convert2tally, columns. cbn [f_mesh]. rewrite X1, X2, C. destruct (Nat.ltb_spec 2 (length (x_vals (md_e m)))); [|lia]. destruct (Nat.eqb_spec (nx3 m) 1); [contradiction|]. reflexivity.
  Qed.
  Lemma binned_names m (tr : trsf (R := R)) m' g : create_grid sn cs m tr column_labels = Ok (m', g) -> 1 < ne m \/ 1 < nt m -> g_get g (fst column_labels) = Err KeyError.
  Proof.
    intros H Hb. destruct (create_form _ _ _ _ _ H plain_labels) as [_ Eg]. destruct (create_sizes _ _ _ _ _ H plain_labels) as (E1 & E2 & _).
    unfold g_get. rewrite dget_not; [reflexivity|]. rewrite Eg. intros Hin. apply in_map_iff in Hin as ([n v] & En & Hin). cbn [fst] in En. subst n.
    apply in_concat in Hin as (l & Hl & Hin). apply in_map_iff in Hl as ([t e] & <- & Hte). cbn [entries fst snd] in Hin.
    assert (Hp : part "_t" (nt m') t ++ part "_e" (ne m') e <> []).
    { rewrite E1, E2. destruct Hb as [Hb|Hb].
      - rewrite (part_code "_e") by exact Hb. intros X. apply app_eq_nil in X as [_ X]. discriminate X.
      - rewrite (part_code "_t") by exact Hb. intros X. discriminate X. }
    destruct Hin as [X|[X|[]]]; apply pair_equal_spec in X as [X _].
    - apply Hp. unfold label in X. apply (app_inv_head (fst column_labels)). rewrite app_nil_r. exact X.
    - discriminate X.
  Qed.
  Lemma convert_binned m tally (tr : trsf (R := R)) f : make_fmesh sn cs m tally tr column_labels = Ok f -> 1 < ne m \/ 1 < nt m -> nx3 m = 1 -> md_cyl m = false ->
    (nx1 m = 1 /\ nx2 m <> 1 \/ nx2 m = 1 /\ nx1 m <> 1) -> convert2tally f = Err KeyError.
  Proof.
    intros H Hb X3 C Hx. destruct (make_inv _ _ _ _ _ H) as (m' & g & Hg & ->).
    assert (E8 : m' = m). { destruct (create_form _ _ _ _ _ Hg plain_labels) as [[->|D] _]; [reflexivity|]. unfold cut_turn in D. rewrite C in D. injection D as ->. reflexivity. }
    subst m'. pose proof (binned_names _ _ _ _ Hg Hb) as G. unfold convert2tally, columns, from_grid. cbn [f_mesh f_grid]. rewrite X3, C, G. cbn [bind].
    destruct Hx as [[-> Hx]|[-> Hx]].
    - apply Nat.eqb_neq in Hx. rewrite (Nat.eqb_sym 1 (nx2 m)), Hx. reflexivity.
    - apply Nat.eqb_neq in Hx. rewrite Hx. reflexivity.
  Qed.
End G.
