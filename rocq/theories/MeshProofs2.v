(** Proofs about scanning a whole meshtal file (C53) *)
From Coq Require Import Lia ZArith.
From Verif Require Import PyBase PyLemmas PyStr PyStrLemmas PyText D1SModel D1SProofs2 DataModel DataProofs2 LibProofs2 InpProofs2 MatProofs2 MeshModel MeshSpec MeshProofs.
Open Scope nat_scope.

Lemma lstrip_sp_spec s : exists n, s = repeat sp n ++ lstrip_sp s /\ match lstrip_sp s with c :: _ => c <> sp | [] => True end.
Proof.
  induction s as [|c s (n & E & H)]; [exists 0; split; reflexivity|].
  cbn [lstrip_sp]. destruct (Ascii.eqb c sp) eqn:Ec.
  - apply Ascii.eqb_eq in Ec. subst c. exists (S n). split; [cbn [repeat app]; congruence|exact H].
  - exists 0. split; [reflexivity|]. intros ->. rewrite Ascii.eqb_refl in Ec. discriminate.
Qed.
Lemma rev_repeat {A} (x : A) n : rev (repeat x n) = repeat x n.
Proof.
  induction n; [reflexivity|]. cbn [repeat rev]. rewrite IHn. clear. induction n; [reflexivity|]. cbn [repeat app]. now rewrite IHn.
Qed.
Lemma lstrip_sp_repeat n s : lstrip_sp (repeat sp n ++ s) = lstrip_sp s.
Proof. induction n; [reflexivity|]. cbn [repeat app lstrip_sp]. rewrite Ascii.eqb_refl. exact IHn. Qed.
Lemma blank_iff l : blank l = true <-> empty_line l.
Proof.
  unfold blank. rewrite str_eqb_eq. split.
  - intros H. destruct (lstrip_sp_spec l) as (n & E & _). destruct (lstrip_sp_spec (rev (lstrip_sp l))) as (m & E2 & _).
    apply (f_equal (@rev ascii)) in H. rewrite rev_involutive in H. rewrite H in E2.
    apply (f_equal (@rev ascii)) in E2. rewrite rev_involutive, rev_app_distr, rev_repeat in E2. cbn [rev app] in E2.
    exists n, m. rewrite E2 in E. exact E.
  - intros (n & m & ->). rewrite lstrip_sp_repeat. cbn [lstrip_sp].
    assert (Hn : Ascii.eqb nl sp = false) by reflexivity. rewrite Hn.
    cbn [rev]. rewrite rev_repeat, lstrip_sp_repeat. cbn [lstrip_sp]. rewrite Hn. reflexivity.
Qed.
Lemma blank_false l : ~ empty_line l -> blank l = false.
Proof. intros H. destruct (blank l) eqn:E; [apply blank_iff in E; contradiction|reflexivity]. Qed.

Lemma after_blank_skip a b r : Forall (fun l => ~ empty_line l) a -> empty_line b -> after_blank (a ++ b :: r) = Ok r.
Proof.
  intros H Hb. induction H as [|x a Hx H IH]; cbn [app after_blank].
  - apply blank_iff in Hb. rewrite Hb. reflexivity.
  - rewrite (blank_false _ Hx). exact IH.
Qed.

Lemma firstn_firstn_18 (l : str) : firstn 18 (firstn 30 l) = firstn 18 l.
Proof. rewrite firstn_firstn. reflexivity. Qed.
Lemma mesh_line_iff l : is_mesh_line l = true <-> starts_tally l.
Proof.
  unfold is_mesh_line. rewrite firstn_firstn_18, str_eqb_eq. split.
  - intros H. exists (skipn 18 l). rewrite <- H. symmetry. apply firstn_skipn.
  - intros (r & ->). reflexivity.
Qed.
Lemma mesh_line_false l : ~ starts_tally l -> is_mesh_line l = false.
Proof. intros H. destruct (is_mesh_line l) eqn:E; [apply mesh_line_iff in E; contradiction|reflexivity]. Qed.

Lemma lstrip_nows c s : is_ws c = false -> lstrip (c :: s) = c :: s.
Proof. intros H. cbn [lstrip]. rewrite H. reflexivity. Qed.
Lemma lstrip_spaces n s : lstrip (repeat sp n ++ s) = lstrip s.
Proof. induction n; [reflexivity|]. exact IHn. Qed.
Definition nows (s : str) : Prop := s <> [] /\ Forall (fun c => is_ws c = false) s.
Lemma lstrip_nows' s r : nows s -> lstrip (s ++ r) = s ++ r.
Proof. intros [Hn Hf]. destruct s as [|c s]; [contradiction|]. cbn [app]. apply lstrip_nows. inversion Hf; assumption. Qed.
Lemma nows_rev s : nows s -> nows (rev s).
Proof.
  intros [Hn Hf]. split; [|apply Forall_rev; exact Hf].
  intros E. apply (f_equal (@rev ascii)) in E. rewrite rev_involutive in E. contradiction.
Qed.
Lemma strip_mid n s : nows s -> strip (repeat sp n ++ s) = s /\ strip (repeat sp n ++ s ++ [nl]) = s.
Proof.
  intros H. unfold strip. rewrite !lstrip_spaces. split.
  - rewrite <- (app_nil_r s) at 1. rewrite (lstrip_nows' s [] H), app_nil_r.
    rewrite <- (app_nil_r (rev s)), (lstrip_nows' (rev s) [] (nows_rev s H)), app_nil_r. apply rev_involutive.
  - rewrite (lstrip_nows' s [nl] H), rev_app_distr. cbn [rev app lstrip].
    change (is_ws nl) with true. cbn match.
    rewrite <- (app_nil_r (rev s)), (lstrip_nows' (rev s) [] (nows_rev s H)), app_nil_r. apply rev_involutive.
Qed.
Lemma Z_nows z : nows (str_of_Z z).
Proof. destruct (str_of_Z_no_ws z) as [H1 H2]. split; assumption. Qed.
Lemma tnum_ok m z : m + length (str_of_Z z) <= 12 ->
  strip (skipn 18 (firstn 30 (s2l " Mesh Tally Number" ++ repeat sp m ++ str_of_Z z ++ [nl]))) = str_of_Z z.
Proof.
  intros H.
  change (firstn 30 (s2l " Mesh Tally Number" ++ repeat sp m ++ str_of_Z z ++ [nl])) with (s2l " Mesh Tally Number" ++ firstn 12 (repeat sp m ++ str_of_Z z ++ [nl])).
  change (skipn 18 (s2l " Mesh Tally Number" ++ firstn 12 (repeat sp m ++ str_of_Z z ++ [nl]))) with (firstn 12 (repeat sp m ++ str_of_Z z ++ [nl])).
  assert (L : length (repeat sp m ++ str_of_Z z) <= 12) by (rewrite app_length, repeat_length; lia).
  rewrite app_assoc, firstn_app. rewrite (firstn_all2 _ L).
  destruct (strip_mid m (str_of_Z z) (Z_nows z)) as [H1 H2].
  destruct (12 - length (repeat sp m ++ str_of_Z z)) as [|k]; cbn [firstn].
  - rewrite app_nil_r. exact H1.
  - rewrite firstn_nil, <- app_assoc. exact H2.
Qed.

(** ** scan *)
Definition pos_of {T} (s : tally_text T) (p : pos) : Prop :=
  exists h hd0 tb b1 b2 rest,
    p = (h :: hd0 ++ t_comments s ++ [t_part s] ++ t_more s ++ [b1; tb] ++ t_btext s ++ [b2] ++ t_dtext s ++ rest,
         tb :: t_btext s ++ [b2] ++ t_dtext s ++ rest, t_dtext s ++ rest) /\ empty_line b2 /\ hd0 = @nil str.

Lemma scan_skip pre : forall fuel f d, Forall (fun l => ~ starts_tally l) pre -> scan (length pre + fuel) (pre ++ f) d = scan fuel f d.
Proof.
  induction pre as [|l pre IH]; intros fuel f d H; [reflexivity|]. inversion H; subst.
  cbn [length Nat.add scan app]. rewrite (mesh_line_false l) by assumption. apply IH. assumption.
Qed.

Section S.
  Context {T : Type} (trsf : str -> res (option T)).
  Definition seen (s : tally_text T) (kv : str * pos) : Prop := fst kv = str_of_Z (t_num s) /\ pos_of s (snd kv).
  Lemma scan_one s txt rest d fuel : TallyText trsf s txt ->
    length txt + length rest <= fuel -> exists fuel' p, length rest <= fuel' /\ pos_of s p /\
      scan fuel (txt ++ rest) d = scan fuel' rest (dset str_eqb (str_of_Z (t_num s)) p d).
  Proof.
    intros (m & b1 & tb & b2 & -> & Hm & Hc & Hp & _ & Hmo & Hb1 & Htb & Hbt & Hb2 & _ & _ & _ & _ & Hd & _) Hf.
    set (h := s2l " Mesh Tally Number" ++ repeat sp m ++ str_of_Z (t_num s) ++ [nl]) in *.
    destruct fuel as [|fuel]; [cbn [length app] in Hf; lia|].
    cbn [app scan]. cbn [app] in Hf.
    assert (Eh : is_mesh_line h = true) by (apply mesh_line_iff; exists (repeat sp m ++ str_of_Z (t_num s) ++ [nl]); reflexivity).
    rewrite Eh. unfold mesh_block.
    set (D := t_dtext s ++ rest).
    assert (E1 : after_blank ((t_comments s ++ t_part s :: t_more s ++ b1 :: tb :: t_btext s ++ b2 :: t_dtext s) ++ rest)
                 = Ok (tb :: t_btext s ++ b2 :: D)).
    { replace ((t_comments s ++ t_part s :: t_more s ++ b1 :: tb :: t_btext s ++ b2 :: t_dtext s) ++ rest)
        with ((t_comments s ++ t_part s :: t_more s) ++ b1 :: (tb :: t_btext s ++ b2 :: D))
        by (unfold D; repeat (rewrite <- app_assoc; cbn [app]); reflexivity).
      apply after_blank_skip; [|exact Hb1]. apply Forall_app. split; [|constructor; [exact Hp|exact Hmo]].
      revert Hc. apply Forall_impl. tauto. }
    assert (E2 : after_blank (tb :: t_btext s ++ b2 :: D) = Ok D).
    { apply (after_blank_skip (tb :: t_btext s) b2 D); [constructor; assumption|exact Hb2]. }
    rewrite E1. cbn [bind]. rewrite E2. cbn [bind].
    pose proof (tnum_ok m (t_num s) Hm) as Et. fold h in Et. rewrite Et.
    assert (Lf : length (t_dtext s) + length rest <= fuel).
    { cbn [length] in Hf. repeat (rewrite app_length in Hf; cbn [length] in Hf). lia. }
    exists (fuel - length (t_dtext s)). eexists. split; [lia|]. split; cycle 1.
    - unfold D. replace fuel with (length (t_dtext s) + (fuel - length (t_dtext s))) at 1 by lia.
      rewrite scan_skip by exact Hd. reflexivity.
    - exists h, [], tb, b1, b2, rest. split; [|auto]. unfold D. cbn [app].
      f_equal. repeat (rewrite <- app_assoc; cbn [app]). reflexivity.
  Qed.

  Lemma Z_str_inj a b : str_of_Z a = str_of_Z b -> a = b.
  Proof. apply str_of_Z_inj. Qed.

  Lemma scan_all ss : forall texts fuel d done, Forall2 (TallyText trsf) ss texts -> NoDup (map t_num (done ++ ss)) ->
    Forall2 seen done d -> length (concat texts) <= fuel ->
    exists d', scan fuel (concat texts) d = Ok d' /\ Forall2 seen (done ++ ss) d'.
  Proof.
    induction ss as [|s ss IH]; intros texts fuel d done H Hnd Hd Hf; inversion H; subst.
    - cbn [concat]. exists d. split; [destruct fuel; reflexivity|]. rewrite app_nil_r. exact Hd.
    - cbn [concat] in *. rewrite app_length in Hf.
      destruct (scan_one s y (concat l') d fuel H2 ltac:(lia)) as (fuel' & p & Hl & Hp & ->).
      assert (K : ~ In (str_of_Z (t_num s)) (dkeys d)).
      { intros Hin. unfold dkeys in Hin. apply in_map_iff in Hin as ((k & v) & Ek & Hin). cbn [fst] in Ek. subst k.
        destruct (Forall2_in_r _ _ _ _ Hd Hin) as (s' & Hs' & E & _). cbn [fst] in E. apply Z_str_inj in E.
        rewrite map_app in Hnd. cbn [map] in Hnd. apply NoDup_remove_2 in Hnd. apply Hnd. apply in_or_app. left. rewrite E.
        apply in_map. exact Hs'. }
      rewrite (dset_new str_eqb) by (apply (dget_none_iff str_eqb str_eqb_eq); exact K).
      replace (done ++ s :: ss) with ((done ++ [s]) ++ ss) in * by (rewrite <- app_assoc; reflexivity).
      apply IH; try assumption.
      apply Forall2_app; [exact Hd|]. constructor; [|constructor]. split; [reflexivity|exact Hp].
  Qed.

  Lemma scan_file ss f : FileText trsf ss f -> exists d, scan_meshfile f = Ok d /\ Forall2 seen ss d.
  Proof.
    intros (pre & texts & -> & Hp & H & Hnd). unfold scan_meshfile. rewrite app_length.
    replace (S (length pre + length (concat texts))) with (length pre + S (length (concat texts))) by lia.
    rewrite scan_skip by exact Hp. apply (scan_all ss texts _ [] [] H); [exact Hnd|constructor|lia].
  Qed.

  (** ** header *)
  Lemma header_skip cs : forall acc l r, Forall (fun l => ~ mentions "mesh tally." l) cs -> mentions "mesh tally." l ->
    header_lines acc (cs ++ l :: r) = Some (acc ++ concat cs, l).
  Proof.
    induction cs as [|c cs IH]; intros acc l r H Hl; cbn [app header_lines].
    - apply has_iff in Hl. rewrite Hl. cbn [concat]. rewrite app_nil_r. reflexivity.
    - inversion H; subst. rewrite (has_not _ _ H2), IH by assumption. cbn [concat]. rewrite app_assoc. reflexivity.
  Qed.
  Lemma particle_ok l : names_particle l (particle_of l).
  Proof.
    unfold particle_of, names_particle.
    assert (G : forall ps, (exists n a b, ps = a ++ n :: b /\ find (fun p => has p l) ps = Some n /\ mentions n l /\ Forall (fun x => ~ mentions x l) a)
             \/ find (fun p => has p l) ps = None /\ Forall (fun x => ~ mentions x l) ps).
    { induction ps as [|p ps IH]; [right; auto|]. cbn [find]. destruct (has p l) eqn:E.
      - left. exists p, [], ps. apply has_iff in E. auto.
      - assert (N : ~ mentions p l) by (intros H; apply has_iff in H; congruence).
        destruct IH as [(n & a & b & -> & Ef & Hm & Ha)|[Ef Ha]]; [left; exists n, (p :: a), b; repeat split; auto|right; auto]. }
    destruct (G particles) as [(n & a & b & E & Ef & Hm & Ha)|[Ef Ha]]; rewrite Ef; [left; exists n, a, b; auto|right; auto].
  Qed.

  (** ** boundaries *)
  Lemma cut_colon_ok a txt : ~ In ":"%char a -> cut_colon (a ++ ":"%char :: txt) = Some (a ++ [":"%char], txt).
  Proof.
    induction a as [|c a IH]; intros H; [reflexivity|]. cbn [app cut_colon].
    destruct (Ascii.eqb c ":"%char) eqn:E; [apply Ascii.eqb_eq in E; subst c; destruct H; left; reflexivity|].
    rewrite IH; [reflexivity|]. intros Hin. apply H. right. exact Hin.
  Qed.
  Lemma mapM_F2 ws qs : Forall2 numeral ws qs -> mapM parse_float ws = Ok qs.
  Proof. induction 1 as [|w q ws qs Hw H IH]; [reflexivity|]. cbn [mapM]. rewrite Hw, IH. reflexivity. Qed.
  Lemma read_bins_ok l lab qs : BinLine l lab qs -> read_bins l = Ok (lab, qs).
  Proof.
    intros (a & txt & -> & Ha & -> & H). unfold read_bins. rewrite <- app_assoc. cbn [app].
    rewrite (cut_colon_ok a txt Ha), (mapM_F2 _ _ H). reflexivity.
  Qed.
  Lemma tag_ok lab t : tells lab t -> etbin_tag lab = Some t.
  Proof.
    intros H. unfold etbin_tag. destruct t; cbn [tells] in H.
    - apply has_iff in H. rewrite H. reflexivity.
    - destruct H as (H & H1 & H2). apply has_iff in H. rewrite (has_not _ _ H1), (has_not _ _ H2), H. reflexivity.
    - destruct H as (H & H1). apply has_iff in H. rewrite (has_not _ _ H1), H. reflexivity.
    - destruct H as (H & H1 & H2 & H3). apply has_iff in H. rewrite (has_not _ _ H1), (has_not _ _ H2), (has_not _ _ H3), H. reflexivity.
    - destruct H as (H & H1 & H2 & H3 & H4). apply has_iff in H. rewrite (has_not _ _ H1), (has_not _ _ H2), (has_not _ _ H3), (has_not _ _ H4), H. reflexivity.
    - contradiction.
  Qed.
  Lemma read_xbin_ok l t qs : ExtraLine l t qs -> read_xbin l = Ok (mkBin qs t true).
  Proof. intros (lab & H & Ht). unfold read_xbin. rewrite (read_bins_ok _ _ _ H). cbn [bind]. rewrite (tag_ok _ _ Ht). reflexivity. Qed.

  Lemma bounds_ok b ls b2 rest : BoundsText trsf b ls -> Forall (fun l => ~ empty_line l) ls -> empty_line b2 ->
    get_boundaries trsf (ls ++ b2 :: rest) = Ok b.
  Proof.
    intros (org & l1 & l2 & l3 & num & tim & le & a1 & a2 & a3 & te & qe & -> & Ho & H1 & H2 & H3 & Hn & He & Eb & Ht) Hf Hb2.
    assert (Hle : ~ empty_line le).
    { rewrite Forall_forall in Hf. apply Hf. repeat (apply in_or_app; right). left. reflexivity. }
    assert (Tail : forall num tim, (num = [] /\ ~ mentions "number:" (hd le tim) \/ (exists l, num = [l] /\ mentions "number:" l)) ->
       (tim = [] /\ bd_t b = implicit_time \/ exists lt tt qt, tim = [lt] /\ ExtraLine lt tt qt /\ bd_t b = mkBin qt tt true) ->
       (let (l4, f5) := readline (num ++ tim ++ le :: b2 :: rest) in
        let (l5, f6) := if has "number:" l4 then readline f5 else (l4, f5) in
        do tmp <- read_xbin l5;
        let (l6, _) := readline f6 in
        if blank l6 then Ok (mkBounds (bd_cyl b) (bd_trsf b) (bd_x1 b) (bd_x2 b) (bd_x3 b) tmp implicit_time)
        else do eb <- read_xbin l6; Ok (mkBounds (bd_cyl b) (bd_trsf b) (bd_x1 b) (bd_x2 b) (bd_x3 b) eb tmp)) = Ok b).
    { clear Hn Ht Hf num tim. intros num tim Hn Ht.
      assert (K : (let (l4, f5) := readline (num ++ tim ++ le :: b2 :: rest) in
        if has "number:" l4 then readline f5 else (l4, f5)) = readline (tim ++ le :: b2 :: rest)).
      { destruct Hn as [[-> Hn]|(l & -> & Hl)].
        - cbn [app]. unfold readline. destruct tim as [|x tim]; cbn [app hd tl] in *; rewrite (has_not _ _ Hn); reflexivity.
        - unfold readline at 1. cbn [app hd tl]. apply has_iff in Hl. rewrite Hl. reflexivity. }
      destruct (readline (num ++ tim ++ le :: b2 :: rest)) as [l4 f5]. rewrite K.
      destruct b as [cyl tr x1 x2 x3 eb tb]. cbn [bd_cyl bd_trsf bd_x1 bd_x2 bd_x3 bd_e bd_t] in *.
      destruct Ht as [[-> Et]|(lt & tt & qt & -> & Hlt & Et)]; unfold readline; cbn [app hd tl].
      - rewrite (read_xbin_ok _ _ _ He). cbn [bind]. rewrite (proj2 (blank_iff b2) Hb2). congruence.
      - rewrite (read_xbin_ok _ _ _ Hlt). cbn [bind]. rewrite (blank_false _ Hle), (read_xbin_ok _ _ _ He). cbn [bind]. congruence. }
    specialize (Tail num tim Hn Ht).
    unfold get_boundaries.
    destruct (bd_cyl b) eqn:Ec.
    - destruct Ho as (l0 & -> & Hm & Htr). cbn [app]. unfold readline at 1. cbn [hd tl].
      apply has_iff in Hm. rewrite Hm, Htr. cbn [bind]. unfold readline at 1. cbn [hd tl bind].
      rewrite (read_bins_ok _ _ _ H1). cbn [bind]. unfold readline at 1. cbn [hd tl].
      rewrite (read_bins_ok _ _ _ H2). cbn [bind]. unfold readline at 1. cbn [hd tl].
      rewrite (read_bins_ok _ _ _ H3). cbn [bind]. repeat rewrite <- app_assoc. cbn [app].
      exact Tail.
    - destruct Ho as (-> & Hm & Htr). cbn [app]. unfold readline at 1. cbn [hd tl].
      rewrite (has_not _ _ Hm). cbn [bind]. rewrite (read_bins_ok _ _ _ H1). cbn [bind]. unfold readline at 1. cbn [hd tl].
      rewrite (read_bins_ok _ _ _ H2). cbn [bind]. unfold readline at 1. cbn [hd tl].
      rewrite (read_bins_ok _ _ _ H3). cbn [bind]. repeat rewrite <- app_assoc. cbn [app].
      rewrite Htr in Tail. exact Tail.
  Qed.

  (** ** one mesh *)
  Lemma nbins_ok b : dimz (nbins b) = Ok (bins_of b).
  Proof.
    unfold nbins, dimz, bins_of, binbound, totalbin. destruct b as [vs t ex]. cbn [x_vals x_tag].
    destruct t; try (destruct (length vs =? 2) eqn:E; [apply Nat.eqb_eq in E; rewrite E; reflexivity|]);
      try (destruct (length vs =? 1) eqn:E1; [apply Nat.eqb_eq in E1; rewrite E1; reflexivity|]); cbn [negb];
      match goal with |- (if (?z <? 0)%Z then _ else _) = _ => destruct (Z.ltb_spec z 0); [lia|f_equal; lia] end.
  Qed.
  Lemma dim_ok x : x <> [] -> dim x = Ok (intervals x).
  Proof. destruct x; [contradiction|]. intros _. unfold dim, intervals. cbn [length]. f_equal. lia. Qed.

  Lemma one_mesh old s txt p d : TallyText trsf s txt -> pos_of s p -> dget str_eqb (str_of_Z (t_num s)) d = Some p ->
    exists m, get_fmesh trsf old (str_of_Z (t_num s)) d = Some (Ok m) /\ MeshOf s m.
  Proof.
    intros (m & b1' & tb' & b2' & _ & _ & Hc & _ & Hpm & _ & _ & _ & Hbt & _ & Hb & Hx1 & Hx2 & Hx3 & _ & dd & tail & Hdd & Ha & Hv)
      (h & hd0 & tb & b1 & b2 & rest & -> & Hb2 & ->) Hg.
    unfold get_fmesh. rewrite Hg. cbn [skipline skipn].
    cbn [app].
    rewrite (bounds_ok _ _ _ _ Hb Hbt Hb2). cbn [bind].
    rewrite (dim_ok _ Hx1), (dim_ok _ Hx2), (dim_ok _ Hx3), !nbins_ok. cbn [bind].
    rewrite Hdd, <- app_assoc.
    assert (Ht : x_explicit (bd_t (t_bounds s)) = false -> bins_of (bd_t (t_bounds s)) = 1).
    { destruct Hb as (? & ? & ? & ? & ? & ? & ? & ? & ? & ? & ? & ? & _ & _ & _ & _ & _ & _ & _ & _ & [[_ ->]|(? & ? & ? & _ & _ & ->)]); [reflexivity|discriminate]. }
    unfold ValuesOf in Hv.
    destruct (mesh_data_ok old _ _ _ _ _ _ _ _ _ _ (tail ++ rest) Ht Ha Hv) as (a & Ea & HV).
    rewrite Ea. cbn [bind]. unfold get_header. cbn [skipline skipn app].
    rewrite header_skip; [|revert Hc; apply Forall_impl; tauto|exact Hpm].
    eexists. split; [reflexivity|]. repeat split; cbn [fm_tally fm_bounds fm_data fm_particle fm_comments].
    - apply particle_ok.
    - cbn [app]. destruct (concat (t_comments s)); reflexivity.
    - exact HV.
  Qed.

  (** ** readMesh *)
  Lemma seen_get ss d s : Forall2 seen ss d -> NoDup (map t_num ss) -> In s ss ->
    exists p, dget str_eqb (str_of_Z (t_num s)) d = Some p /\ pos_of s p.
  Proof.
    intros F. induction F as [|s0 kv ss d [Ek Hp] F IH]; intros Hnd Hin; [contradiction|].
    cbn [map] in Hnd. inversion Hnd as [|? ? Hnot Hnd']; subst. destruct kv as [k p]. cbn [fst snd] in *. subst k. cbn [dget].
    destruct (str_eqb (str_of_Z (t_num s)) (str_of_Z (t_num s0))) eqn:E.
    - apply str_eqb_eq, Z_str_inj in E. destruct Hin as [->|Hin]; [exists p; auto|].
      exfalso. apply Hnot. rewrite <- E. apply in_map. exact Hin.
    - destruct Hin as [->|Hin]; [rewrite (proj2 (str_eqb_eq _ _) eq_refl) in E; discriminate|]. apply IH; assumption.
  Qed.
  Lemma seen_keys ss d : Forall2 seen ss d -> dkeys d = map (fun s => str_of_Z (t_num s)) ss.
  Proof. induction 1 as [|s kv ss d [Ek _] F IH]; [reflexivity|]. unfold dkeys in *. cbn [map]. rewrite Ek, IH. reflexivity. Qed.

  Lemma read_list_ok old ss d texts : Forall2 (TallyText trsf) ss texts -> NoDup (map t_num ss) -> Forall2 seen ss d ->
    forall sel acc, (forall s, In s sel -> In s ss) ->
    exists r, read_list trsf old (map (fun s => (str_of_Z (t_num s), Ok (t_num s))) sel) d acc = Some (Ok r)
      /\ (forall s, In s sel -> exists m, dget Z.eqb (t_num s) r = Some m /\ MeshOf s m)
      /\ (forall n, ~ In n (map t_num sel) -> dget Z.eqb n r = dget Z.eqb n acc)
      /\ (forall n, In n (dkeys r) <-> In n (dkeys acc) \/ In n (map t_num sel)).
  Proof.
    intros HT Hnd HS. induction sel as [|s sel IH]; intros acc Hsel.
    - exists acc. cbn [map read_list]. split; [reflexivity|]. split; [intros ? []|]. split; [reflexivity|]. intros n. cbn [In]. tauto.
    - cbn [map read_list].
      assert (Hs := Hsel s (or_introl eq_refl)).
      destruct (seen_get ss d s HS Hnd Hs) as (p & Ep & Hp).
      assert (HTs : exists txt, TallyText trsf s txt).
      { clear - HT Hs. induction HT; [contradiction|]. destruct Hs as [->|Hs]; [eauto|auto]. }
      destruct HTs as (txt & Htxt).
      destruct (one_mesh old s txt p d Htxt Hp Ep) as (m & Em & Hm). rewrite Em.
      destruct (IH (dset Z.eqb (t_num s) m acc)) as (r & Er & H1 & H2 & H3). { intros s' H'. apply Hsel. right. exact H'. }
      exists r. split; [exact Er|]. split; [|split].
      + intros s' [<-|Hin]; [|auto].
        destruct (in_dec Z.eq_dec (t_num s) (map t_num sel)) as [Hi|Hi].
        * apply in_map_iff in Hi as (s2 & E2 & Hi).
          assert (s2 = s).
          { clear - E2 Hi Hs Hsel Hnd. assert (Hi' := Hsel s2 (or_intror Hi)).
            revert Hnd Hi' Hs E2. clear. induction ss as [|x l IHl]; intros Hnd Hi Hs E; [contradiction|].
            cbn [map] in Hnd. inversion Hnd as [|? ? Hn Hnd']; subst. destruct Hi as [->|Hi], Hs as [->|Hs]; auto.
            - exfalso. apply Hn. rewrite E. apply in_map. exact Hs.
            - exfalso. apply Hn. rewrite <- E. apply in_map. exact Hi. }
          subst s2. apply H1. exact Hi.
        * exists m. split; [|exact Hm]. rewrite (H2 _ Hi). apply (dget_dset_same Z.eqb Z.eqb_eq).
      + intros n Hn. cbn [map In] in Hn. rewrite H2 by tauto. apply (dget_dset_other Z.eqb Z.eqb_eq). intros E. apply Hn. left. congruence.
      + intros n. rewrite H3, (dset_keys Z.eqb Z.eqb_eq). cbn [map In]. split; intros; intuition.
  Qed.

  Lemma sel_of ss (zs : list Z) : (forall z, In z zs -> In z (map t_num ss)) -> exists sel : list (tally_text T), map t_num sel = zs /\ forall s, In s sel -> In s ss.
  Proof.
    induction zs as [|z zs IH]; intros H; [exists []; split; [reflexivity|intros ? []]|].
    destruct IH as (sel & E & Hs); [intros; apply H; right; assumption|].
    assert (Hz := H z (or_introl eq_refl)). apply in_map_iff in Hz as (s & Es & Hin).
    exists (s :: sel). cbn [map]. rewrite Es, E. split; [reflexivity|]. intros s' [<-|H']; auto.
  Qed.
  Lemma keys_sel ss (ks : list str) : (forall k, In k ks -> In k (map (fun s : tally_text T => str_of_Z (t_num s)) ss)) ->
    exists sel : list (tally_text T), map (fun s => str_of_Z (t_num s)) sel = ks /\ forall s, In s sel -> In s ss.
  Proof.
    induction ks as [|k ks IH]; intros H; [exists []; split; [reflexivity|intros ? []]|].
    destruct IH as (sel & E & Hs); [intros; apply H; right; assumption|].
    assert (Hz := H k (or_introl eq_refl)). apply in_map_iff in Hz as (s & Es & Hin).
    exists (s :: sel). cbn [map]. rewrite Es, E. split; [reflexivity|]. intros s' [<-|H']; auto.
  Qed.
  Lemma parse_Z z : parse_int (str_of_Z z) = Ok z.
  Proof. apply parse_str_of_Z. Qed.

  Lemma keep_in ss d sel : Forall2 seen ss d -> NoDup (map t_num ss) -> map (fun s => str_of_Z (t_num s)) sel = sorted_strs (dkeys d) ->
    (forall s, In s sel -> In s ss) -> forall s, In s ss -> In s sel.
  Proof.
    intros HS Hnd E Hsel s Hs.
    assert (K : In (str_of_Z (t_num s)) (map (fun s => str_of_Z (t_num s)) sel)).
    { rewrite E, sorted_in, (seen_keys _ _ HS). apply in_map_iff. exists s. auto. }
    apply in_map_iff in K as (s2 & E2 & H2). apply Z_str_inj in E2.
    assert (Hi' := Hsel s2 H2).
    assert (s2 = s); [|congruence].
    revert Hnd Hi' Hs E2. clear. induction ss as [|x l IHl]; intros Hnd Hi Hs E; [contradiction|].
    cbn [map] in Hnd. inversion Hnd as [|? ? Hn Hnd']; subst. destruct Hi as [->|Hi], Hs as [->|Hs]; auto.
    - exfalso. apply Hn. rewrite E. apply in_map. exact Hs.
    - exfalso. apply Hn. rewrite <- E. apply in_map. exact Hi.
  Qed.
End S.

Section R.
  Context {T : Type} (trsf : str -> res (option T)).
  Lemma read_every old ss f d : FileText trsf ss f -> scan_meshfile f = Ok d ->
    exists r, read_mesh trsf old Every d = Some (Ok r)
      /\ (forall s, In s ss -> exists m, dget Z.eqb (t_num s) r = Some m /\ MeshOf s m)
      /\ (forall n, In n (dkeys r) <-> In n (map t_num ss)).
  Proof.
    intros HF Hd. destruct (scan_file trsf ss f HF) as (d' & Ed & HS). rewrite Hd in Ed. injection Ed as <-.
    destruct HF as (pre & texts & _ & _ & HT & Hnd).
    destruct (keys_sel ss (sorted_strs (dkeys d))) as (sel & E & Hsel).
    { intros k Hk. rewrite sorted_in, (seen_keys _ _ HS) in Hk. exact Hk. }
    unfold read_mesh. rewrite <- E, map_map.
    rewrite (map_ext _ (fun s => (str_of_Z (t_num s), Ok (t_num s)))) by (intros s; rewrite parse_Z; reflexivity).
    destruct (read_list_ok trsf old ss d texts HT Hnd HS sel [] Hsel) as (r & Er & H1 & _ & H3).
    exists r. split; [exact Er|]. split.
    - intros s Hs. apply H1. exact (keep_in ss d sel HS Hnd E Hsel s Hs).
    - intros n. rewrite H3. cbn [dkeys map In]. split.
      + intros [[]|H]. apply in_map_iff in H as (s & <- & Hs). apply in_map. auto.
      + intros H. right. apply in_map_iff in H as (s & <- & Hs). apply in_map. exact (keep_in ss d sel HS Hnd E Hsel s Hs).
  Qed.
  Lemma read_some old ss f d zs : FileText trsf ss f -> scan_meshfile f = Ok d -> (forall z, In z zs -> In z (map t_num ss)) -> zs <> [] ->
    exists r, read_mesh trsf old (Many zs) d = Some (Ok r)
      /\ (forall s, In s ss -> In (t_num s) zs -> exists m, dget Z.eqb (t_num s) r = Some m /\ MeshOf s m)
      /\ (forall n, In n (dkeys r) <-> In n zs).
  Proof.
    intros HF Hd Hz Hne. destruct (scan_file trsf ss f HF) as (d' & Ed & HS). rewrite Hd in Ed. injection Ed as <-.
    destruct HF as (pre & texts & _ & _ & HT & Hnd).
    destruct (sel_of ss zs Hz) as (sel & E & Hsel).
    destruct (read_list_ok trsf old ss d texts HT Hnd HS sel [] Hsel) as (r & Er & H1 & _ & H3).
    exists r. unfold read_mesh. split; [|split].
    - destruct zs; [contradiction|]. rewrite <- E, map_map. exact Er.
    - intros s Hs Hin. rewrite <- E in Hin. apply in_map_iff in Hin as (s2 & E2 & H2).
      destruct (H1 s2 H2) as (m & Em & Hm). rewrite E2 in Em. exists m. split; [exact Em|].
      assert (s2 = s); [|congruence]. assert (Hi' := Hsel s2 H2).
      revert Hnd Hi' Hs E2. clear. induction ss as [|x l IHl]; intros Hnd Hi Hs E; [contradiction|].
      cbn [map] in Hnd. inversion Hnd as [|? ? Hn Hnd']; subst. destruct Hi as [->|Hi], Hs as [->|Hs]; auto.
      + exfalso. apply Hn. rewrite E. apply in_map. exact Hs.
      + exfalso. apply Hn. rewrite <- E. apply in_map. exact Hi.
    - intros n. rewrite H3, E. cbn [dkeys map In]. tauto.
  Qed.
  Lemma read_absent old ss f d z : FileText trsf ss f -> scan_meshfile f = Ok d -> ~ In z (map t_num ss) -> z <> 0%Z ->
    read_mesh trsf old (One z) d = Some (Err KeyError).
  Proof.
    intros HF Hd Hz Hne. destruct (scan_file trsf ss f HF) as (d' & Ed & HS). rewrite Hd in Ed. injection Ed as <-.
    unfold read_mesh. destruct (Z.eqb_spec z 0); [contradiction|]. cbn [read_list]. unfold get_fmesh.
    assert (E : dget str_eqb (str_of_Z z) d = None).
    { apply (dget_none_iff str_eqb str_eqb_eq). rewrite (seen_keys _ _ HS). intros Hin. apply in_map_iff in Hin as (s & Es & Hs).
      apply Z_str_inj in Es. apply Hz. rewrite <- Es. apply in_map. exact Hs. }
    rewrite E. reflexivity.
  Qed.
End R.

(** column files with volumes *)
Lemma each_impl n (P R : nat -> Txt) : (forall i p, P i p -> R i p) -> forall ls, Each n P ls -> Each n R ls.
Proof. intros H ls (ps & E & L & Hp). exists ps. repeat split; auto. Qed.
Lemma last4_last2 x vol prod ls : Last4 x vol prod ls -> Last2 (vol, prod) ls.
Proof. intros (l & pre & v & e & w & p & -> & Hs & _ & _ & Hw & Hp). exists l, (pre ++ [v; e]), w, p. rewrite <- app_assoc. auto. Qed.
Lemma cf_ok old cyl times nt ne nz ny nx V W f rest : announces cyl times LCol f ->
  ColData nt ne nz ny nx (fun t e k j i => Last4 (V t e k j i) (fst (W t e k j i)) (snd (W t e k j i))) f ->
  exists a, get_mesh_data old cyl times nt ne nz ny nx (f ++ rest) = Ok a
    /\ Holds nt ne nz ny nx W a.
Proof.
  intros Ha (a & b & -> & Hla & Hb). unfold get_mesh_data. rewrite (type_ok cyl times LCol _ (announces_app _ _ _ _ rest Ha)). cbn [layout_of].
  apply col_ok. exists a, b. split; [reflexivity|]. split; [exact Hla|].
  revert Hb. apply each_impl. intros e p. apply each_impl. intros t q. apply each_impl. intros i r. apply each_impl. intros j u.
  apply each_impl. intros k w H. apply last4_last2 in H. destruct (W t e k j i). exact H.
Qed.
