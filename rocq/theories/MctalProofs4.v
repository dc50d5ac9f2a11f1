(** Proofs about reading a mctal file: a tally and a whole file, continued. *)
From Coq Require Import Lia ZArith.
From Verif Require Import PyBase PyLemmas PyStr PyStrLemmas PyText D1SProofs2 MatProofs MatProofs2 DataModel MeshModel MeshSpec MeshProofs MctalModel MctalSpec MctalProofs MctalProofs2 MctalProofs3.
Open Scope nat_scope.

Lemma axis_eta a : mkAxis (a_n a) (a_tc a) (a_flag a) (a_bins a) = a. Proof. destruct a; reflexivity. Qed.
Lemma plain_eta a : Plain a -> mkAxis (a_n a) (a_tc a) 0 (a_bins a) = a. Proof. destruct a; cbn. intros <-. reflexivity. Qed.
Lemma skip_here stop c r f : lower c = stop -> skip_to stop ((c :: r) :: f) = Ok (c :: r, f).
Proof. intros <-. cbn [skip_to]. rewrite Ascii.eqb_refl. reflexivity. Qed.
Lemma cut3_firstn (l : list Q) : removelast (removelast (removelast l)) = firstn (length l - 3) l.
Proof.
  assert (R : forall l : list Q, removelast l = firstn (length l - 1) l).
  { clear. intros l. induction l as [|x l IH]; [reflexivity|]. destruct l as [|y l]; [reflexivity|].
    change (removelast (x :: y :: l)) with (x :: removelast (y :: l)). rewrite IH. cbn [length]. replace (S (S (length l)) - 1) with (S (S (length l) - 1)) by lia. reflexivity. }
  rewrite (R l), (R (firstn _ l)), (R (firstn _ (firstn _ l))), !firstn_firstn, !firstn_length. f_equal. lia.
Qed.
Lemma picture_ok t a e ls : PictureBins t a ls -> (Z.of_nat (length (a_bins a)) <= a_n a)%Z ->
  exists xs, Forall (fun l => exists r, l = sp :: r) ls
    /\ foldM (insert_line (if t_radiograph t then a_n a + 1 else a_n a)%Z e) [] ls = Ok xs /\ cut3 (t_radiograph t) xs = a_bins a.
Proof.
  unfold PictureBins, cut3. destruct (t_radiograph t).
  - intros (xs & H & Hl & E) _. destruct (insert_lines (a_n a + 1) e ls xs ltac:(lia) H) as [H1 H2]. exists xs. split; [exact H1|]. split; [exact H2|].
    rewrite cut3_firstn. symmetry. exact E.
  - intros H Hl. destruct (insert_lines (a_n a) e ls (a_bins a) ltac:(lia) H) as [H1 H2]. eauto.
Qed.
Lemma mid_ok t ls rest : Middle t ls -> common t ->
  exists l5 f5 r lv, ls ++ rest = l5 :: f5 /\ l5 = "d"%char :: r
    /\ mid_parse (t_radiograph t) l5 f5 = Ok (t_nDir t, t_usr t, t_seg t, t_mul t, t_cos t, t_erg t, t_tim t, lv, rest).
Proof.
  intros (x0 & y0 & -> & (ld & -> & n & more & [Hs (rd & ->)] & Hn) & H)
         (_ & _ & Pu & Ps & Pm & [Fu _] & [Fs _] & _ & [Fc _] & [Fe _] & [Ft _] & Bm).
  destruct H as (x1 & y1 & -> & Hu & H). destruct (plain_ok _ _ _ Hu Pu) as (lu & cu & ru & -> & -> & Cu & Eu).
  destruct H as (x2 & y2 & -> & Bu & H). destruct H as (x3 & y3 & -> & Hseg & H). destruct (plain_ok _ _ _ Hseg Ps) as (ls & cs & rs & -> & -> & Cs & Es).
  destruct H as (x4 & y4 & -> & Bs & H). destruct H as (x5 & y5 & -> & Hm & H). destruct (plain_ok _ _ _ Hm Pm) as (lm & cm & rm & -> & -> & Cm & Em).
  destruct H as (x6 & y6 & -> & Hc & H). destruct (axis_ok _ _ _ Hc) as (lc & cc & rc & -> & -> & Cc & Ec).
  destruct H as (x7 & y7 & -> & Bc & H). destruct H as (x8 & y8 & -> & He & H). destruct (axis_ok _ _ _ He) as (le & ce & re & -> & -> & Ce & Ee).
  destruct H as (x9 & y9 & -> & Be & H). destruct H as (x10 & y10 & -> & Ht & H). destruct (axis_ok _ _ _ Ht) as (lt & ct & rt & -> & -> & Ct & Et).
  destruct H as (x11 & y11 & -> & [_ Bt] & (lv & -> & Hv)).
  destruct (insert_lines (a_n (t_usr t)) OtherError x2 (a_bins (t_usr t)) ltac:(lia) Bu) as [U1 U2].
  destruct (picture_ok t (t_seg t) OtherError x4 Bs Fs) as (xss & S1 & S2 & S3).
  destruct (picture_ok t (t_cos t) (if t_radiograph t then ValueError else OtherError) x7 Bc Fc) as (xsc & C1 & C2 & C3).
  destruct (insert_lines (a_n (t_erg t)) OtherError x9 (a_bins (t_erg t)) ltac:(lia) Be) as [E1 E2].
  exists (s2l "d" ++ rd). eexists. exists rd, lv. split; [rewrite <- !app_assoc; cbn [app]; reflexivity|]. split; [reflexivity|].
  unfold mid_parse, int_at, word. rewrite Hs. cbn [nth_error of_opt bind]. rewrite Hn. cbn [bind].
  rewrite (skip_here "u" cu ru _ Cu). cbn [bind]. rewrite Eu. cbn [bind]. unfold readline.
  rewrite <- ?app_assoc. cbn [app].
  rewrite (section_ok "s" _ (cs :: rs) _ cs rs eq_refl Cs ltac:(discriminate) x2 [] _ U1 U2). cbn [bind]. rewrite Es. cbn [bind].
  rewrite <- ?app_assoc. cbn [app].
  rewrite (section_ok "m" _ (cm :: rm) _ cm rm eq_refl Cm ltac:(discriminate) x4 [] _ S1 S2). cbn [bind]. rewrite Em. cbn [bind].
  rewrite (skip_here "c" cc rc _ Cc). cbn [bind]. rewrite Ec. cbn [bind]. rewrite <- ?app_assoc. cbn [app].
  rewrite (section_ok "e" _ (ce :: re) _ ce re eq_refl Ce ltac:(discriminate) x7 [] _ C1 C2). cbn [bind]. rewrite Ee. cbn [bind].
  rewrite <- ?app_assoc. cbn [app].
  rewrite (section_ok "t" _ (ct :: rt) _ ct rt eq_refl Ct ltac:(discriminate) x9 [] _ E1 E2). cbn [bind]. rewrite Et. cbn [bind].
  rewrite <- ?app_assoc. cbn [app]. rewrite (time_ok (a_n (t_tim t)) lv rest Hv x11 [] _ Bt) by (cbn [length]; lia). cbn [bind app].
  rewrite S3, C3, <- Bm, (plain_eta _ Pu), (plain_eta _ Ps), (plain_eta _ Pm), !axis_eta. reflexivity.
Qed.

Lemma one1_pos z : (0 <= z)%Z -> (0 <= one1 z)%Z.
Proof. unfold one1. destruct (z =? 0)%Z; lia. Qed.
Lemma dims_ok t : common t -> (0 <= t_nCells t)%Z -> (let '(_, na, nb, nc) := t_meshInfo t in 0 <= na /\ 0 <= nb /\ 0 <= nc)%Z ->
  let '(_, na, nb, nc) := t_meshInfo t in
  existsb (fun z => z <? 0)%Z [one1 (t_nCells t); one1 (t_nDir t); one1 (a_n (t_usr t)); one1 (a_n (t_seg t)); one1 (a_n (t_mul t)); one1 (a_n (t_cos t)); one1 (a_n (t_erg t)); one1 (a_n (t_tim t)); nc; nb; na] = false.
Proof.
  intros (_ & Hd & _ & _ & _ & [_ Fu] & [_ Fs] & [_ Fm] & [_ Fc] & [_ Fe] & [_ Ft] & _) Hn. destruct (t_meshInfo t) as [[[mi na] nb] nc]. intros (Ha & Hb & Hc).
  pose proof (one1_pos _ Hn). pose proof (one1_pos _ Hd). pose proof (one1_pos _ Fu). pose proof (one1_pos _ Fs). pose proof (one1_pos _ Fm).
  pose proof (one1_pos _ Fc). pose proof (one1_pos _ Fe). pose proof (one1_pos _ Ft).
  cbn [existsb]. repeat (rewrite (proj2 (Z.ltb_ge _ _)) by assumption). reflexivity.
Qed.

(* a line of the next tally, the end *)
Definition next_of (rest : file) : option (list str) :=
  match rest with [] => None | l :: _ => match strip l with [] => None | _ => Some (split l) end end.
Lemma rest_ok junk t vs lv ls tail rest : common t -> (0 <= t_nCells t)%Z -> t_radiograph t = (3 <=? t_detector t)%Z ->
  (let '(_, na, nb, nc) := t_meshInfo t in 0 <= na /\ 0 <= nb /\ 0 <= nc)%Z ->
  length vs = prod (shape t) -> ValueLines vs ls -> Follows rest ->
  (if t_mesh t then t_jtf t = [] /\ t_dat t = [] /\ ls <> [] /\ Forall (fun l => ~ mentions "tally" l) ls
                    /\ Forall (fun l => split l <> [] /\ ~ mentions "tally" l) tail
   else Chart (t_jtf t) (t_dat t) tail) ->
  forall cs, removelast (c_a cs) = t_cora t -> removelast (c_b cs) = t_corb t -> removelast (c_c cs) = t_corc t ->
  exists t', (let '(mi, na, nb, nc) := t_meshInfo t in
    rest_parse junk (t_number t) (t_type t) (t_detector t) (t_mesh t) (t_particles t) (t_comment t) (t_nCells t) mi na nb nc (t_cells t) cs
      (t_nDir t, t_usr t, t_seg t, t_mul t, t_cos t, t_erg t, t_tim t, lv, ls ++ tail ++ rest)) = Ok (t', next_of rest, tl rest)
    /\ Reads t vs t'.
Proof.
  intros Hc Hn Hrad Hm Hl (vss & HF & Ev) Hr Htail cs Ea Eb Ec.
  pose proof (dims_ok t Hc Hn Hm) as Hd. assert (Hv0 : t_vals t = []) by apply Hc.
  unfold Reads. unfold shape in *. destruct (t_meshInfo t) as [[[mi na] nb] nc] eqn:Emi. unfold rest_parse. rewrite Hd.
  rewrite cart_length, <- Hl, <- Ev, (read_values _ _ _ HF). cbn [bind].
  assert (Etail : (if t_mesh t then let (l, g) := skip_mesh (match ls with [] => lv | _ => strip (last ls []) end) (tail ++ rest) in Ok ([], [], l, g) else read_tfc (tail ++ rest))
                  = Ok (t_jtf t, t_dat t, strip (hd [] rest), tl rest)).
  { destruct (t_mesh t).
    - destruct Htail as (-> & -> & Hne & Hnt & Htl). destruct ls as [|l ls]; [contradiction|].
      rewrite (skip_mesh_ok _ _ Htl Hr); [reflexivity|].
      assert (Hin : In (last (l :: ls) []) (l :: ls)).
      { clear. revert l. induction ls as [|l2 ls IH]; intros l; [left; reflexivity|]. right. apply (IH l2). }
      apply stops_false; [|rewrite Forall_forall in Hnt; apply Hnt; exact Hin].
      destruct (Forall2_in_r _ _ _ _ HF Hin) as (ps & _ & Hp). destruct Hp as (qs & -> & Hq & _). destruct qs; [contradiction|discriminate].
    - apply tfc_ok; assumption. }
  rewrite Etail. cbn [bind]. eexists. split.
  - assert (En : match strip (hd [] rest) with [] => None | _ => Some (split (strip (hd [] rest))) end = next_of rest).
    { unfold next_of. destruct rest as [|l rest]; [reflexivity|]. cbn [hd]. rewrite split_strip. reflexivity. }
    rewrite En. reflexivity.
  - split.
    + unfold without_values. cbn [t_number t_type t_detector t_radiograph t_mesh t_particles t_comment t_nCells t_meshInfo t_cells t_cora t_corb t_corc t_nDir t_usr t_seg t_mul t_cos t_erg t_tim t_jtf t_dat].
      rewrite Ea, Eb, Ec, <- Hrad, <- Emi, <- Hv0. destruct t; reflexivity.
    + intros idx Hi. unfold get_value. cbn [t_vals]. rewrite map_map, map_id.
      destruct (array_ok _ (concat vss) idx ltac:(rewrite Ev; exact Hl) Hi) as (v & H1 & H2). exists v. split; [exact H1|]. rewrite H2. reflexivity.
Qed.

Lemma starts_f n more l : Starts (s2l "f") (n :: more) l -> exists r, l = "f"%char :: r.
Proof. intros [_ (r & ->)]. exists r. reflexivity. Qed.
Lemma head_ok ps cs x y (lf : str) (rest : list str) (r : str) : ParticleLine ps x -> CommentLines cs y -> lf = "f"%char :: r ->
  exists l2 f2, particles (hd [] (x ++ y ++ lf :: rest)) (tl (x ++ y ++ lf :: rest)) = Ok (ps, l2, f2) /\ comments l2 f2 = (cs, lf, rest).
Proof.
  intros Hp Hc Hf. destruct (y ++ lf :: rest) as [|l1 f1] eqn:E; [destruct y; discriminate E|].
  exists l1, f1. split.
  - apply particles_ok; [exact Hp|reflexivity|]. destruct y as [|l y].
    + cbn [app] in E. injection E as <- _. rewrite Hf. destruct r; [discriminate|left; discriminate].
    + cbn [app] in E. injection E as <- _. inversion Hc as [|? ? ? ? [-> _] _]; subst. right. reflexivity.
  - pose proof (comments_ok cs y lf rest Hc ltac:(rewrite Hf; reflexivity)) as G. rewrite E in G. exact G.
Qed.

Lemma tally_ok junk t vs ws ls rest : TallyText t vs ls -> Follows rest ->
  int_at 1 ws = Ok (t_number t) -> int_at 2 ws = Ok (t_type t) -> int_at 3 ws = Ok (t_detector t) ->
  exists t', parse_tally junk ws (ls ++ rest) = Ok (t', next_of rest, tl rest) /\ Reads t vs t'.
Proof.
  intros [H|H] Hr E1 E2 E3.
  - destruct H as (Hl & Hd & Hrad & Hmesh & Hmi & Ha & Hb & Hc & Hn & Hcells & Hcom & H).
    destruct H as (x0 & y0 & -> & Hp & H). destruct H as (x1 & y1 & -> & Hco & H). destruct H as (x2 & y2 & -> & (lf & -> & n & more & HS & Hnc) & H).
    destruct H as (x3 & y3 & -> & Hcl & H). destruct H as (x4 & y4 & -> & Hmid & H). destruct H as (x5 & y5 & -> & Hv & Hch).
    destruct (starts_f _ _ _ HS) as (r & Er). rewrite <- !app_assoc. cbn [app].
    destruct (head_ok _ _ _ _ lf (x3 ++ x4 ++ x5 ++ y5 ++ rest) r Hp Hco Er) as (l2 & f2 & P1 & P2).
    destruct (mid_ok t x4 (x5 ++ y5 ++ rest) Hmid Hcom) as (l5 & f5 & rd & lv & E5 & -> & Em).
    assert (Ed : (t_detector t <=? -1)%Z = false) by (apply Z.leb_gt; lia). rewrite Hrad in Em.
    destruct (rest_ok junk t vs lv x5 y5 rest Hcom Hn Hrad) with (cs := mkCors [] [] [] 0 0) as (t' & Et & HR); auto.
    { rewrite Hmi. lia. } { rewrite Hmesh. exact Hch. }
    exists t'. split; [|exact HR]. rewrite Hmi, Hmesh in Et.
    rewrite <- Et, <- Ed. eapply parse_split; try eassumption; try lia.
    + rewrite Ed. destruct HS as [HS _]. unfold int_at, word. rewrite HS. cbn [nth_error of_opt bind]. rewrite Hnc. reflexivity.
    + rewrite Ed. cbn zeta. fold (is_detector t). rewrite E5.
      assert (Ecell : section "d" (cell_line (t_nCells t)) (if is_detector t then map (fun k => inject_Z (Z.of_nat k)) (seq 1 (Z.to_nat (t_nCells t))) else [])
                 (hd [] (x3 ++ ("d"%char :: rd) :: f5)) (tl (x3 ++ ("d"%char :: rd) :: f5)) = Ok (t_cells t, "d"%char :: rd, f5)).
      { revert Hcl Hcells. destruct (is_detector t); intros Hcl Hcells.
        - unfold NoLine in Hcl. subst x3. apply (section_ok "d" _ ("d"%char :: rd) f5 "d"%char rd eq_refl eq_refl ltac:(discriminate) []); [constructor|]. rewrite Hcells. reflexivity.
        - destruct Hcl as (zs & Ez & Hcl). rewrite Ez, map_length in Hcells. destruct (cell_lines (t_nCells t) x3 zs ltac:(lia) Hcl) as [C1 C2].
          apply (section_ok "d" _ ("d"%char :: rd) f5 "d"%char rd eq_refl eq_refl ltac:(discriminate) x3); [exact C1|]. rewrite Ez. exact C2. }
      match goal with |- bind ?m _ = _ => replace m with (Ok (t_cells t, "d"%char :: rd, f5)) by (symmetry; exact Ecell) end. reflexivity.
  - destruct H as (Hd & Hrad & Hmesh & Hn & Hcells & Hj & Hdat & Hmi & Hcom & Hl & H).
    destruct H as (x0 & y0 & -> & Hp & H). destruct H as (x1 & y1 & -> & Hco & H). destruct H as (x2 & y2 & -> & (lf & -> & w1 & w2 & w3 & w4 & w5 & more & HS & Hw) & H).
    destruct H as (x3 & y3 & -> & (ca & cb & cc & Hcl) & H). destruct H as (x4 & y4 & -> & Hmid & H). destruct H as (x5 & y5 & -> & [Hv Hnt] & Htl).
    destruct (starts_f _ _ _ HS) as (r & Er). rewrite <- !app_assoc. cbn [app].
    destruct (head_ok _ _ _ _ lf (x3 ++ x4 ++ x5 ++ y5 ++ rest) r Hp Hco Er) as (l2 & f2 & P1 & P2).
    destruct (mid_ok t x4 (x5 ++ y5 ++ rest) Hmid Hcom) as (l5 & f5 & rd & lv & E5 & -> & Em).
    assert (Ed : (t_detector t <=? -1)%Z = true) by (apply Z.leb_le; lia).
    assert (Hrad' : t_radiograph t = (3 <=? t_detector t)%Z) by (rewrite Hrad; symmetry; apply Z.leb_gt; lia). rewrite Hrad' in Em.
    destruct (rest_ok junk t vs lv x5 y5 rest Hcom ltac:(lia) Hrad') with (cs := mkCors (t_cora t ++ [ca]) (t_corb t ++ [cb]) (t_corc t ++ [cc]) 0 3) as (t' & Et & HR);
      cbn [c_a c_b c_c]; try apply removelast_last; auto.
    { destruct (t_meshInfo t) as [[[mi na] nb] nc]. lia. }
    { rewrite Hmesh. split; [exact Hj|]. split; [exact Hdat|]. split; [|split; [exact Hnt|exact Htl]].
      intros ->. destruct Hv as (vss & HF & Ev). inversion HF; subst. cbn in Hl. symmetry in Hl. unfold shape in Hl. destruct (t_meshInfo t) as [[[mi na] nb] nc].
      destruct Hcom as (_ & Hdir & _ & _ & _ & [_ Fu] & [_ Fs] & [_ Fm] & [_ Fc] & [_ Fe] & [_ Ft] & _).
      assert (P : forall z, (0 <= z)%Z -> Z.to_nat (one1 z) <> 0) by (intros z Hz; unfold one1; destruct (Z.eqb_spec z 0); lia).
      cbn [map prod] in Hl. repeat (apply Nat.eq_mul_0 in Hl as [Hl|Hl]; [try (apply P in Hl; [exact Hl|lia]); lia|]). discriminate Hl. }
    exists t'. split; [|exact HR]. revert Et Hw Hmi. destruct (t_meshInfo t) as [[[mi na] nb] nc]. intros Et (W2 & W3 & W4 & W5) (Na & Nb & Nc & La & Lb & Lc). rewrite Hmesh in Et.
    rewrite <- Et, <- Ed. eapply parse_split; try eassumption; try lia.
    + rewrite Ed. destruct HS as [HS _]. unfold int_at, word. rewrite HS. cbn [nth_error of_opt bind]. rewrite W2, W3, W4, W5, Hn. reflexivity.
    + rewrite Ed. cbn zeta. fold (is_detector t). rewrite E5.
      destruct (cor_lines na nb nc (t_cora t ++ [ca]) (t_corb t ++ [cb]) (t_corc t ++ [cc]) x3) as [C1 C2]; try lia; try (rewrite app_length; cbn [length]; lia); [exact Hcl|].
      match goal with |- bind ?m _ = _ => replace m with (Ok (mkCors (t_cora t ++ [ca]) (t_corb t ++ [cb]) (t_corc t ++ [cc]) 0 3, "d"%char :: rd, f5))
        by (symmetry; exact (section_ok "d" _ ("d"%char :: rd) f5 "d"%char rd eq_refl eq_refl ltac:(discriminate) x3 _ _ C1 C2)) end. cbn [bind].
      rewrite Hcells, Hn. destruct (is_detector t); reflexivity.
Qed.

Lemma tallyline_follows t ls : TallyLine t ls -> exists l, ls = [l] /\ stops (strip l) = true /\ strip l <> [].
Proof.
  intros (l & -> & a & b & c & more & E & _). exists l. split; [reflexivity|].
  assert (N : strip l <> []) by (intros X; apply strip_nil in X; rewrite X in E; discriminate E). split; [|exact N].
  unfold stops, has_tally. replace (has "tally" (strip l)) with true; [reflexivity|]. symmetry. apply has_iff.
  apply in_split_in. rewrite split_strip, E. left. reflexivity.
Qed.
Lemma tallies_follow ts ls : Tallies ts ls -> Follows ls.
Proof.
  destruct ts as [|[t vs] ts]; cbn [Tallies].
  - unfold Follows. destruct ls as [|l ls]; [auto|]. intros H. apply strip_nil in H. rewrite H. reflexivity.
  - intros (a & b & -> & H & _). destruct (tallyline_follows _ _ H) as (l & -> & H2 & _). exact H2.
Qed.
Lemma get_tallies_ok junk ts : forall t vs ws lines rest fuel, TallyText t vs lines -> Tallies ts rest ->
  int_at 1 ws = Ok (t_number t) -> int_at 2 ws = Ok (t_type t) -> int_at 3 ws = Ok (t_detector t) -> length (lines ++ rest) < fuel ->
  exists rs, get_tallies junk fuel ws (lines ++ rest) = Ok rs /\ Forall2 (fun tv r => Reads (fst tv) (snd tv) r) ((t, vs) :: ts) rs.
Proof.
  induction ts as [|[t2 vs2] ts IH]; intros t vs ws lines rest fuel HT Hrest E1 E2 E3 Hf; (destruct fuel as [|fuel]; [lia|]);
  destruct (tally_ok junk t vs ws lines rest HT (tallies_follow _ _ Hrest) E1 E2 E3) as (t' & Ep & HR); cbn [get_tallies]; rewrite Ep; cbn [bind].
  - assert (En : next_of rest = None).
    { cbn [Tallies] in Hrest. unfold next_of. destruct rest as [|l rest]; [reflexivity|]. apply strip_nil in Hrest. rewrite Hrest. reflexivity. }
    rewrite En. exists [t']. split; [reflexivity|]. constructor; [exact HR|constructor].
  - cbn [Tallies] in Hrest. destruct Hrest as (a & b & -> & HL & H2). destruct (tallyline_follows _ _ HL) as (l & -> & _ & Hn).
    destruct H2 as (lines2 & rest2 & -> & HT2 & Hr2). destruct HL as (l' & El & x & y & z & more & Es & X1 & X2 & X3). injection El as <-.
    cbn [app next_of tl]. unfold next_of. destruct (strip l) as [|c s]; [contradiction|].
    destruct (IH t2 vs2 (split l) lines2 rest2 fuel HT2 Hr2) as (rs & Eg & HF).
    { unfold int_at, word. rewrite Es. exact X1. } { unfold int_at, word. rewrite Es. exact X2. } { unfold int_at, word. rewrite Es. exact X3. }
    { rewrite app_length in Hf. cbn [app length] in Hf. lia. }
    rewrite Eg. exists (t' :: rs). split; [reflexivity|]. constructor; [exact HR|exact HF].
Qed.

Lemma head_tallies_ok ls zs l rest : Forall (fun l => split l <> []) ls -> Forall2 integer (concat (map split ls)) zs ->
  (exists more, split l = s2l "tally" :: more) -> head_tallies (ls ++ l :: rest) = Ok (zs, split l, rest).
Proof.
  intros Hn HF (more & El). revert zs HF. induction ls as [|x ls IH]; intros zs HF.
  - inversion HF; subst. cbn [app head_tallies]. rewrite El. unfold word. cbn [nth_error of_opt bind]. reflexivity.
  - inversion Hn as [|? ? Hx Hn']; subst. cbn [map concat] in HF. apply Forall2_app_inv_l in HF as (z1 & z2 & H1 & H2 & ->).
    cbn [app head_tallies]. destruct (split x) as [|w ws] eqn:Ex; [contradiction|]. unfold word. cbn [nth_error of_opt bind].
    assert (N : str_eqb (map lower w) (s2l "tally") = false).
    { destruct (str_eqb (map lower w) (s2l "tally")) eqn:X; [|reflexivity]. apply str_eqb_eq in X. exfalso. inversion H1 as [|? ? ? ? Hw _]; subst.
      destruct w as [|c w]; [discriminate X|]. cbn [map s2l list_ascii_of_string] in X. injection X as X _.
      assert (Y : c = "t"%char \/ c = "T"%char) by (destruct c as [[] [] [] [] [] [] [] []]; try discriminate X; auto).
      unfold integer in Hw. destruct Y as [-> | ->]; discriminate Hw. }
    rewrite N. assert (Em : forall vs zz, Forall2 integer vs zz -> mapM parse_int vs = Ok zz).
    { clear. intros vs zz H1. induction H1 as [|w z ws zs H HF IH]; [reflexivity|]. cbn [mapM]. rewrite H. cbn [bind]. rewrite IH. reflexivity. }
    rewrite (Em _ _ H1). cbn [bind]. rewrite (IH Hn' z2 H2). reflexivity.
Qed.
Lemma header_ok h t vs ts f : MctalText h ((t, vs) :: ts) f ->
  exists l lines rest, get_headers f = Ok (h, split l, lines ++ rest) /\ TallyText t vs lines /\ Tallies ts rest
    /\ int_at 1 (split l) = Ok (t_number t) /\ int_at 2 (split l) = Ok (t_type t) /\ int_at 3 (split l) = Ok (t_detector t).
Proof.
  intros (x & y & -> & H & HT). destruct H as (x1 & y1 & -> & (l1 & -> & H1) & H). destruct H as (x2 & y2 & -> & (l2 & -> & H2) & H).
  destruct H as (x3 & y3 & -> & (l3 & -> & w & n & more & E3 & Hn & Hn0 & Hm) & H4 & H5).
  cbn [Tallies] in HT. destruct HT as (a & b & -> & (l & -> & p & q & r & mo & El & P1 & P2 & P3) & lines & rest & -> & HT & Hr).
  exists l, lines, rest. split; [|split; [exact HT|split; [exact Hr|]]].
  - cbn [app]. unfold get_headers, readline. cbn [hd tl].
    assert (E1 : head_line (split l1) = Ok (h_id h, h_run h)).
    { destruct (h_id h) as [[[[k v] d] hr]|], (h_run h) as [[[a0 b0] c0]|]; try contradiction; destruct H1 as (u1 & u2 & u3 & -> & A & B & C);
      unfold head_line; rewrite A, B, C; reflexivity. }
    rewrite E1. cbn [bind]. unfold int_at, word. rewrite E3. cbn [nth_error of_opt bind]. rewrite Hn. cbn [bind].
    destruct (Z.eqb_spec (h_ntal h) 0); [contradiction|]. cbn [length].
    replace (S (S (length more)) =? 4) with false by (symmetry; apply Nat.eqb_neq; lia).
    rewrite (head_tallies_ok y3 (h_ntals h) l (lines ++ rest) H4 H5) by (exists (p :: q :: r :: mo); exact El). cbn [bind].
    rewrite <- H2. destruct h; reflexivity.
  - unfold int_at, word. rewrite El. cbn [nth_error of_opt bind]. auto.
Qed.
Lemma read_ok junk info h ts f : MctalText h ts f -> ts <> [] ->
  exists rs, Forall2 (fun tv r => Reads (fst tv) (snd tv) r) ts rs
    /\ read_mctal junk info f = (if info && existsb has_nans rs then Err TypeError else Ok (h, rs)).
Proof.
  intros HF Hne. destruct ts as [|[t vs] ts]; [contradiction|]. destruct (header_ok _ _ _ _ _ HF) as (l & lines & rest & Eh & HT & Hr & E1 & E2 & E3).
  destruct (get_tallies_ok junk ts t vs (split l) lines rest (S (length (lines ++ rest))) HT Hr E1 E2 E3 ltac:(lia)) as (rs & Eg & HR).
  exists rs. split; [exact HR|]. unfold read_mctal. rewrite Eh. cbn [bind]. rewrite Eg. reflexivity.
Qed.
