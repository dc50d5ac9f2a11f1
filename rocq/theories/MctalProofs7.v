(** Proofs about tallies with a wrong number of values and about files that are refused. *)
From Coq Require Import Lia ZArith.
From Verif Require Import PyBase PyLemmas PyStr PyStrLemmas PyText D1SProofs2 MatProofs MatProofs2 MatProofs4 DataModel MeshModel MeshSpec MeshProofs MctalModel MctalSpec MctalProofs MctalProofs2 MctalProofs3 MctalProofs4.
Open Scope nat_scope.

Lemma ordinary_split junk t V ws ls rest : OrdinaryAny t V ls ->
  int_at 1 ws = Ok (t_number t) -> int_at 2 ws = Ok (t_type t) -> int_at 3 ws = Ok (t_detector t) ->
  exists x5 y5 lv, V x5 /\ Chart (t_jtf t) (t_dat t) y5 /\ parse_tally junk ws (ls ++ rest)
    = rest_parse junk (t_number t) (t_type t) (t_detector t) false (t_particles t) (t_comment t) (t_nCells t) 0 1 1 1 (t_cells t) (mkCors [] [] [] 0 0)
      (t_nDir t, t_usr t, t_seg t, t_mul t, t_cos t, t_erg t, t_tim t, lv, x5 ++ y5 ++ rest).
Proof.
  intros H E1 E2 E3.
  destruct H as (Hd & Hrad & Hmesh & Hmi & Ha & Hb & Hc & Hn & Hcells & Hcom & H).
  destruct H as (x0 & y0 & -> & Hp & H). destruct H as (x1 & y1 & -> & Hco & H). destruct H as (x2 & y2 & -> & (lf & -> & n & more & HS & Hnc) & H).
  destruct H as (x3 & y3 & -> & Hcl & H). destruct H as (x4 & y4 & -> & Hmid & H). destruct H as (x5 & y5 & -> & Hv & Hch).
  destruct (starts_f _ _ _ HS) as (r & Er). rewrite <- !app_assoc. cbn [app].
  destruct (head_ok _ _ _ _ lf (x3 ++ x4 ++ x5 ++ y5 ++ rest) r Hp Hco Er) as (l2 & f2 & P1 & P2).
  destruct (mid_ok t x4 (x5 ++ y5 ++ rest) Hmid Hcom) as (l5 & f5 & rd & lv & E5 & -> & Em).
  assert (Ed : (t_detector t <=? -1)%Z = false) by (apply Z.leb_gt; lia). rewrite Hrad in Em.
  exists x5, y5, lv. split; [exact Hv|]. split; [exact Hch|]. rewrite <- Ed.
  eapply parse_split; try eassumption; try lia.
  + rewrite Ed. destruct HS as [HS _]. unfold int_at, word. rewrite HS. cbn [nth_error of_opt bind]. rewrite Hnc. reflexivity.
  + rewrite Ed. cbn zeta. fold (is_detector t). rewrite E5.
    assert (Ecell : section "d" (cell_line (t_nCells t)) (if is_detector t then map (fun k => inject_Z (Z.of_nat k)) (seq 1 (Z.to_nat (t_nCells t))) else [])
               (hd [] (x3 ++ ("d"%char :: rd) :: f5)) (tl (x3 ++ ("d"%char :: rd) :: f5)) = Ok (t_cells t, "d"%char :: rd, f5)).
    { revert Hcl Hcells. destruct (is_detector t); intros Hcl Hcells.
      - unfold NoLine in Hcl. subst x3. apply (section_ok "d" _ ("d"%char :: rd) f5 "d"%char rd eq_refl eq_refl ltac:(discriminate) []); [constructor|]. rewrite Hcells. reflexivity.
      - destruct Hcl as (zs & Ez & Hcl). rewrite Ez, map_length in Hcells. destruct (cell_lines (t_nCells t) x3 zs ltac:(lia) Hcl) as [C1 C2].
        apply (section_ok "d" _ ("d"%char :: rd) f5 "d"%char rd eq_refl eq_refl ltac:(discriminate) x3); [exact C1|]. rewrite Ez. exact C2. }
    match goal with |- bind ?m _ = _ => replace m with (Ok (t_cells t, "d"%char :: rd, f5)) by (symmetry; exact Ecell) end. reflexivity.
Qed.

Lemma read_values_more vss ls rest n : Forall2 PairLine vss ls -> forall line,
  read_vals (length (concat vss) + n) line [] (ls ++ rest) = do '(xs, l, g) <- read_vals n (match ls with [] => line | _ => strip (last ls []) end) [] rest; Ok (map Some (concat vss) ++ xs, l, g).
Proof.
  intros HF. induction HF as [|vs l vss ls Hl HF IH]; intros line.
  - cbn [length concat app map Nat.add]. destruct (read_vals n line [] rest) as [[[? ?] ?]|]; reflexivity.
  - destruct (pairline_not_tfc _ _ Hl) as [Ht Hne]. destruct Hl as (ps & E & Hn & Hp).
    cbn [concat]. rewrite app_length, map_app, <- Nat.add_assoc.
    transitivity (read_vals (length vs + (length (concat vss) + n)) (strip l) (flat_map (fun ab => [fst ab; snd ab]) ps) (ls ++ rest)).
    + destruct vs as [|v vs]; [contradiction|]. cbn [length Nat.add read_vals app]. unfold readline. cbn [hd tl]. rewrite split_strip, E.
      inversion Hp; subst. cbn [flat_map app]. reflexivity.
    + rewrite (read_line _ _ _ _ _ Ht Hp Hn), IH.
      assert (EL : match ls with [] => strip l | _ => strip (last ls []) end = match l :: ls with [] => line | _ => strip (last (l :: ls) []) end) by (destruct ls; reflexivity).
      rewrite EL. destruct (read_vals n _ [] rest) as [[[xs l2] g]|]; [|reflexivity]. cbn [bind]. rewrite app_assoc. reflexivity.
Qed.
Lemma split_aux_head s : forall c cur w ws, split_aux (c :: cur) s = w :: ws -> exists r, rev (c :: cur) ++ s = w ++ r.
Proof.
  induction s as [|x s IH]; intros c cur w ws H; cbn [split_aux] in H.
  - injection H as <- _. exists []. reflexivity.
  - destruct (is_ws x).
    + injection H as <- _. exists (x :: s). reflexivity.
    + destruct (IH x (c :: cur) w ws H) as (r & E). exists r. rewrite <- E. cbn [rev]. rewrite <- !app_assoc. reflexivity.
Qed.
Lemma strip_first s w ws : split s = w :: ws -> exists r, strip s = w ++ r.
Proof.
  intros E. destruct (strip_decomp s) as (_ & _ & _ & _ & _ & H). rewrite <- split_strip in E. destruct (strip s) as [|c r]; [discriminate E|].
  unfold split in E. cbn [split_aux] in E. replace (is_ws c) with false in E by (symmetry; apply H). apply split_aux_head in E. exact E.
Qed.
Lemma vals_at_chart n line l f : (exists ws, split l = s2l "tfc" :: ws) -> read_vals (S n) line [] (l :: f) = Ok (repeat None (S n), strip l, f).
Proof.
  intros (ws & E).
  assert (T : is_tfc (strip l) = true).
  { destruct (strip_first _ _ _ E) as (r & ->). reflexivity. }
  cbn [read_vals]. unfold readline. cbn [hd tl]. rewrite T, split_strip, E.
  assert (G : forall m w, read_vals m (strip l) (w :: ws) f = Ok (repeat None m, strip l, f)).
  { induction m as [|m IH]; intros w; [reflexivity|]. cbn [read_vals]. rewrite T, IH. reflexivity. }
  rewrite G. reflexivity.
Qed.

Lemma no_chart_line l f : (forall ws, split l <> s2l "tfc" :: ws) -> exists e, read_tfc (l :: f) = Err e.
Proof.
  intros H. unfold read_tfc, readline. cbn [hd tl]. rewrite split_strip. unfold word. destruct (split l) as [|w ws]; cbn [nth_error of_opt bind]; [eexists; reflexivity|].
  destruct (str_eqb w (s2l "tfc")) eqn:E; [|eexists; reflexivity]. apply str_eqb_eq in E. subst. exfalso. eapply H. reflexivity.
Qed.
Lemma tfc_not_int : forall z, parse_int (s2l "tfc") <> Ok z. Proof. intros z H. vm_compute in H. discriminate H. Qed.
Lemma wrong_rest junk t ws ls rest : WrongCount t ls -> Follows rest ->
  int_at 1 ws = Ok (t_number t) -> int_at 2 ws = Ok (t_type t) -> int_at 3 ws = Ok (t_detector t) ->
  (forall l r ws, rest = l :: r -> split l <> s2l "tfc" :: ws) ->
  exists e, parse_tally junk ws (ls ++ rest) = Err e.
Proof.
  intros H Hr E1 E2 E3 Hnt. destruct (ordinary_split junk t _ ws ls rest H E1 E2 E3) as (x5 & y5 & lv & HV & Hch & ->).
  destruct H as (_ & _ & _ & Hmi & _ & _ & _ & Hn & _ & Hcom & _).
  assert (Hm : (let '(_, na, nb, nc) := t_meshInfo t in 0 <= na /\ 0 <= nb /\ 0 <= nc)%Z) by (rewrite Hmi; lia).
  pose proof (dims_ok t Hcom Hn Hm) as Hd. unfold shape in HV. rewrite Hmi in *. unfold rest_parse. rewrite Hd.
  set (N := length (cart _)). assert (EN : N = prod (map Z.to_nat [one1 (t_nCells t); one1 (t_nDir t); one1 (a_n (t_usr t)); one1 (a_n (t_seg t)); one1 (a_n (t_mul t)); one1 (a_n (t_cos t)); one1 (a_n (t_erg t)); one1 (a_n (t_tim t)); 1%Z; 1%Z; 1%Z])) by apply cart_length.
  rewrite <- EN in HV. clearbody N. clear EN Hd.
  destruct Hch as (yc & yd & -> & (lc & -> & wc & Ec & _) & Hdat).
  destruct HV as [(vs & (vss & HF & Ev) & Hl)|(vs & more & (a & b & -> & (vss & HF & Ev) & (mss & HM & Em)) & Hl & Hne)].
  - destruct (Nat.le_exists_sub (S (length vs)) N ltac:(lia)) as (k & EN & _).
    assert (EN2 : N = length (concat vss) + S k) by (rewrite Ev; lia). rewrite EN2, (read_values_more vss x5 _ (S k) HF). cbn [app].
    rewrite (vals_at_chart k _ lc (yd ++ rest) (ex_intro _ _ Ec)). cbn [bind].
    destruct yd as [|d yd].
    + cbn [app]. destruct rest as [|l r]; [eexists; reflexivity|]. destruct (no_chart_line l r) as (e & ->); [intros w X; exact (Hnt l r w eq_refl X)|]. eexists; reflexivity.
    + cbn [app]. destruct (no_chart_line d (yd ++ rest)) as (e & ->); [|eexists; reflexivity]. intros w X. inversion Hdat as [|? ? ? ? HC _]; subst.
      destruct HC as (n & w1 & w2 & mo & z & x & e & g & Es & _ & Hz & _). rewrite X in Es. injection Es as <- _. exact (tfc_not_int _ Hz).
  - rewrite <- Hl, <- Ev, <- app_assoc, (read_values _ _ _ HF). cbn [bind].
    destruct b as [|l b]; [inversion HM; subst; contradiction|]. cbn [app].
    destruct (no_chart_line l (b ++ [lc] ++ yd ++ rest)) as (e & X); [|]. 
    { intros w X. inversion HM as [|? ? ? ? HP _]; subst. destruct HP as (ps & Ep & Hp & HF2). inversion HF2 as [|ab v ps' vs' Hv _]; subst; [contradiction|].
      cbn [flat_map app] in Ep. rewrite X in Ep. injection Ep as Ep _. apply pair_head in Hv. rewrite <- Ep in Hv. apply Hv. reflexivity. }
    cbn [app] in X |- *. rewrite X. eexists; reflexivity.
Qed.

Lemma tally_line_not_tfc t ls l r : (TallyLine t ls /\ exists m, ls ++ m = l :: r) -> forall ws, split l <> s2l "tfc" :: ws.
Proof. intros [(x & -> & a & b & c & more & E & _) [m Hm]] ws H. cbn [app] in Hm. injection Hm as -> _. rewrite E in H. discriminate H. Qed.

Lemma head_read h x l0 l1 : HeadText h x -> (exists more, split l0 = s2l "tally" :: more) -> get_headers (x ++ l0 :: l1) = Ok (h, split l0, l1).
Proof.
  intros H Hl. destruct H as (x1 & y1 & -> & (l1' & -> & H1) & H). destruct H as (x2 & y2 & -> & (l2 & -> & H2) & H).
  destruct H as (x3 & y3 & -> & (l3 & -> & w & n & more & E3 & Hn & Hn0 & Hm) & H4 & H5).
  cbn [app]. unfold get_headers, readline. cbn [hd tl].
  assert (E1 : head_line (split l1') = Ok (h_id h, h_run h)).
  { destruct (h_id h) as [[[[k v] d] hr]|], (h_run h) as [[[a0 b0] c0]|]; try contradiction; destruct H1 as (u1 & u2 & u3 & -> & A & B & C);
    unfold head_line; rewrite A, B, C; reflexivity. }
  rewrite E1. cbn [bind]. unfold int_at, word. rewrite E3. cbn [nth_error of_opt bind]. rewrite Hn. cbn [bind].
  destruct (Z.eqb_spec (h_ntal h) 0); [contradiction|]. cbn [length].
  replace (S (S (length more)) =? 4) with false by (symmetry; apply Nat.eqb_neq; lia).
  rewrite (head_tallies_ok y3 (h_ntals h) l0 l1 H4 H5 Hl). cbn [bind].
  rewrite <- H2. destruct h; reflexivity.
Qed.

Theorem wrong_count junk info h ts t f : (HeadText h >> Series ts >> TallyLine t >> WrongCount t >> (fun rest => exists more, Tallies more rest)) f ->
  exists e, read_mctal junk info f = Err e.
Proof.
  intros (x & y & -> & HH & x1 & y1 & -> & HS & x2 & y2 & -> & HL & x3 & rest & -> & HW & more & HM).
  assert (Hf : Follows rest) by (eapply tallies_follow; exact HM).
  assert (Hnt : forall l r ws, rest = l :: r -> split l <> s2l "tfc" :: ws).
  { intros l r ws -> E. destruct more as [|[t2 v2] more]; cbn [Tallies] in HM; [rewrite E in HM; discriminate HM|].
    destruct HM as (p & q & Eq & HT & _). eapply (tally_line_not_tfc t2 p l r); [split; [exact HT|exists q; symmetry; exact Eq]|exact E]. }
  assert (G : forall junk ts x1, Series ts x1 -> exists l0 l1, x1 ++ x2 ++ x3 ++ rest = l0 :: l1 /\ (exists more, split l0 = s2l "tally" :: more)
     /\ forall fuel, length l1 < fuel -> exists e, get_tallies junk fuel (split l0) l1 = Err e).
  { clear HS x1 ts HH x junk. intros junk. induction ts as [|[t1 v1] ts IH]; intros x1 HS; cbn [Series] in HS.
    - subst x1. destruct HL as (l & -> & a & b & c & mo & E & P1 & P2 & P3). exists l, (x3 ++ rest). split; [reflexivity|]. split; [eauto|]. intros fuel Hl. destruct fuel as [|fuel]; [lia|].
      cbn [get_tallies]. destruct (wrong_rest junk t (split l) x3 rest HW Hf) as (e & ->); try assumption; try (unfold int_at, word; rewrite E; cbn [nth_error of_opt bind]; assumption). eexists; reflexivity.
    - destruct HS as (p & q & -> & HL1 & q1 & q2 & -> & HT1 & HS). destruct (IH q2 HS) as (l0 & l1 & E0 & (mo0 & Em0) & IHf).
      destruct HL1 as (l & -> & a & b & c & mo & E & P1 & P2 & P3). exists l, (q1 ++ l0 :: l1). cbn [app]. rewrite <- !app_assoc, E0. split; [reflexivity|]. split; [eauto|].
      intros fuel Hl. destruct fuel as [|fuel]; [lia|]. cbn [get_tallies].
      assert (Hst : stops (strip l0) = true).
      { unfold stops, has_tally. replace (has "tally" (strip l0)) with true; [reflexivity|]. symmetry. apply has_iff. apply in_split_in. rewrite split_strip, Em0. left. reflexivity. }
      destruct (tally_ok junk t1 v1 (split l) q1 (l0 :: l1) HT1) as (t' & -> & _); try (unfold int_at, word; rewrite E; cbn [nth_error of_opt bind]; assumption); [exact Hst|].
      cbn [bind tl]. unfold next_of. destruct (strip l0) as [|c0 s0] eqn:Es; [apply strip_nil in Es; rewrite Es in Em0; discriminate Em0|].
      destruct (IHf fuel) as (e & ->); [rewrite app_length in Hl; cbn [length] in Hl; lia|]. eexists; reflexivity. }
  destruct (G junk ts x1 HS) as (l0 & l1 & E0 & Hm & Hg). rewrite E0.
  pose proof (head_read h x l0 l1 HH Hm) as Eh. unfold read_mctal. rewrite Eh. cbn [bind].
  destruct (Hg (S (length l1)) ltac:(lia)) as (e & ->). eexists; reflexivity.
Qed.
