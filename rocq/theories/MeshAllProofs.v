(** Proofs of C135. *)
From Coq Require Import Lia ZArith Lqa Qabs.
From Verif Require Import PyBase PyStr PyText DataModel MeshModel MeshSpec MeshProofs MeshProofs2 FmeshModel FmeshSpec FmeshProofs FmeshProofs2 FmeshProofs3 FmeshProps MeshProps TrsfModel GvrModel GvrSpec GvrProofs GvrProofs2 MeshAllSpec.
Open Scope nat_scope.

Section Chain.
  Context (sn cs : Q -> Q) (old : nat -> nat -> nat -> nat -> nat -> file -> res arr).
  Notation FM := (FmeshModel.fmesh (R := placement)).

  Lemma listed (M : mdata) tally (tr : option (vec * placement)) (x : FM) nt' ne' V : make_fmesh sn cs M tally tr column_labels = Ok x -> nt M = nt' -> ne M = ne' ->
    (forall t e k j i, t < nt' -> e < ne' -> k < nx3 (f_mesh x) -> j < nx2 (f_mesh x) -> i < nx1 (f_mesh x) -> md_a (f_mesh x) t e k j i = Some (V t e k j i)) ->
    GridShows (f_grid x) nt' ne' (nx3 (f_mesh x)) (nx2 (f_mesh x)) (nx1 (f_mesh x)) V.
  Proof.
    intros H <- <- HV. destruct (C57_arrays sn cs M tally tr column_labels x H cols_unrelated) as (A & B & C). split; [|split; [exact B|exact C]].
    intros t e Ht He. destruct (A t e Ht He) as (v & er & Ev & [Lv Hv] & Ee & [Le Hr]). exists v, er. split; [exact Ev|]. split; [exact Lv|]. split; [exact Ee|]. split; [exact Le|].
    intros k j i Hk Hj Hi. pose proof (HV t e k j i Ht He Hk Hj Hi) as E. split; [exact (Hv k j i _ Hk Hj Hi E)|exact (Hr k j i _ Hk Hj Hi E)].
  Qed.
  Lemma slices_lt cyl x y sl : Slices cyl x y sl -> forall k, k < intervals y -> 2 <= length x -> sl k < intervals x.
  Proof. unfold intervals. intros [x0 _|a b x0 _ _] k Hk L; [exact Hk|]. cbn [length] in *. lia. Qed.
  Lemma slices_short cyl x y sl : Slices cyl x y sl -> length x < 2 -> intervals y = 0.
  Proof. unfold intervals. intros [x0 _|a b x0 _ _] L; cbn [length] in *; lia. Qed.
  Lemma slices_in cyl x y sl : Slices cyl x y sl -> forall k, k < intervals y -> sl k < intervals x.
  Proof.
    intros H k Hk. destruct (Nat.lt_ge_cases (length x) 2) as [L|L]; [rewrite (slices_short _ _ _ _ H L) in Hk; lia|exact (slices_lt _ _ _ _ H k Hk L)].
  Qed.

  Section One.
    Variables (ss : list (tally_text placement)) (f : file) (s : tally_text placement).
    Hypothesis HF : FileText (get_transformation true) ss f.
    Hypothesis Hs : In s ss.
    Lemma made_inv x : Made sn cs old f s x -> exists m, MeshOf s m /\ fmesh_of sn cs m = Ok x.
    Proof using HF Hs.
      intros (d & r & m & Ed & Er & Em & Ex). destruct (C53_every_tally_is_read_from_its_own_text (get_transformation true) old ss f HF) as (d' & r' & Ed' & Er' & H & _).
      rewrite Ed in Ed'. injection Ed' as <-. rewrite Er in Er'. injection Er' as <-. destruct (H s Hs) as (m' & Em' & Hm). rewrite Em in Em'. injection Em' as <-. eauto.
    Qed.
    Lemma made_one : (bd_cyl (t_bounds s) = true -> 2 <= length (bd_x3 (t_bounds s))) -> exists x, Made sn cs old f s x.
    Proof using HF Hs.
      intros L. destruct (C53_every_tally_is_read_from_its_own_text (get_transformation true) old ss f HF) as (d & r & Ed & Er & H & _).
      destruct (H s Hs) as (m & Em & Hm). pose proof Hm as (_ & Eb & _). destruct (fmesh_form sn cs m) as (x & sl & Ex & _); [rewrite Eb; exact L|]. exists x, d, r, m. auto.
    Qed.
    (* what fmesh_form says of it *)
    Lemma made_form x : Made sn cs old f s x -> exists m sl, MeshOf s m /\ make_fmesh sn cs (data_of m) (fm_tally m) (trsf_of m) column_labels = Ok x
      /\ md_cyl (f_mesh x) = bd_cyl (t_bounds s) /\ md_x1 (f_mesh x) = bd_x1 (t_bounds s) /\ md_x2 (f_mesh x) = bd_x2 (t_bounds s)
      /\ md_e (f_mesh x) = bd_e (t_bounds s) /\ md_t (f_mesh x) = bd_t (t_bounds s)
      /\ Slices (bd_cyl (t_bounds s)) (bd_x3 (t_bounds s)) (md_x3 (f_mesh x)) sl
      /\ forall t e k j i, t < bins_of (bd_t (t_bounds s)) -> e < bins_of (bd_e (t_bounds s)) -> k < nx3 (f_mesh x) -> j < nx2 (f_mesh x) -> i < nx1 (f_mesh x) ->
           md_a (f_mesh x) t e k j i = Some (t_values s t e (sl k) j i).
    Proof using HF Hs.
      intros HM. destruct (made_inv x HM) as (m & Hm & Ex). pose proof Hm as (_ & Eb & _ & _ & HV).
      assert (L : bd_cyl (fm_bounds m) = true -> 2 <= length (bd_x3 (fm_bounds m))).
      { intros C. unfold fmesh_of, make_fmesh in Ex. destruct (create_grid sn cs (data_of m) (trsf_of m) column_labels) as [[m' g]|] eqn:E; [|discriminate Ex].
        unfold create_grid in E. cbn [data_of md_cyl] in E. rewrite C in E. unfold cut_turn in E. cbn [data_of md_cyl md_x3] in E. rewrite C in E.
        destruct (bd_x3 (fm_bounds m)) as [|a [|b xs]]; [discriminate E|discriminate E|cbn [length]; lia]. }
      destruct (fmesh_form sn cs m L) as (x' & sl & Ex' & Et & C & X1 & X2 & Xe & Xt & S & A). rewrite Ex in Ex'. injection Ex' as <-. rewrite Eb in *.
      exists m, sl. split; [exact Hm|]. split; [exact Ex|]. repeat (split; [assumption|]). intros t e k j i Ht He Hk Hj Hi. rewrite A. unfold ValuesOf in HV.
      apply HV; [exact Ht|exact He|exact (slices_in _ _ _ _ S k Hk)|unfold nx2 in Hj; rewrite X2 in Hj; exact Hj|unfold nx1 in Hi; rewrite X1 in Hi; exact Hi].
    Qed.
    Theorem made_shows x : Made sn cs old f s x -> exists sl, Slices (bd_cyl (t_bounds s)) (bd_x3 (t_bounds s)) (md_x3 (f_mesh x)) sl
      /\ GridShows (f_grid x) (bins_of (bd_t (t_bounds s))) (bins_of (bd_e (t_bounds s))) (intervals (md_x3 (f_mesh x))) (intervals (bd_x2 (t_bounds s))) (intervals (bd_x1 (t_bounds s)))
           (fun t e k j i => t_values s t e (sl k) j i)
      /\ forall k j i a b c, nth_error (md_x3 (f_mesh x)) k = Some c -> nth_error (bd_x2 (t_bounds s)) j = Some b -> nth_error (bd_x1 (t_bounds s)) i = Some a ->
           exists p, nth_error (g_points (f_grid x)) ((k * length (bd_x2 (t_bounds s)) + j) * length (bd_x1 (t_bounds s)) + i) = Some p
             /\ Veq p (place sn cs (bd_cyl (t_bounds s)) (option_map (fun p => (pl_origin p, p)) (bd_trsf (t_bounds s))) a b c).
    Proof using HF Hs.
      intros HM. destruct (made_form x HM) as (m & sl & Hm & Ex & C & X1 & X2 & Xe & Xt & S & A). pose proof Hm as (_ & Eb & _). exists sl. split; [exact S|]. split.
      - assert (E1 : nx1 (f_mesh x) = intervals (bd_x1 (t_bounds s))) by (unfold nx1; rewrite X1; reflexivity).
        assert (E2 : nx2 (f_mesh x) = intervals (bd_x2 (t_bounds s))) by (unfold nx2; rewrite X2; reflexivity).
        rewrite <- E1, <- E2. change (intervals (md_x3 (f_mesh x))) with (nx3 (f_mesh x)).
        apply (listed (data_of m) (fm_tally m) (trsf_of m) x _ _ _ Ex); [unfold nt; cbn [data_of md_t]; rewrite Eb; apply nbins_nat|unfold ne; cbn [data_of md_e]; rewrite Eb; apply nbins_nat|exact A].
      - intros k j i a b c Hc Hb Ha. rewrite <- X1 in Ha. rewrite <- X2 in Hb.
        destruct (C57_points sn cs (data_of m) (fm_tally m) (trsf_of m) column_labels x k j i a b c Ex Hc Hb Ha) as (p & Ep & Hp). exists p.
        cbn [data_of md_cyl] in Hp. unfold trsf_of in Hp. rewrite Eb in Hp. split; [|exact Hp].
        assert (L2 : Datatypes.S (nx2 (f_mesh x)) = length (bd_x2 (t_bounds s))) by (rewrite <- X2; unfold nx2; destruct (md_x2 (f_mesh x)); [destruct j; discriminate Hb|cbn [length]; lia]).
        assert (L1 : Datatypes.S (nx1 (f_mesh x)) = length (bd_x1 (t_bounds s))) by (rewrite <- X1; unfold nx1; destruct (md_x1 (f_mesh x)); [destruct i; discriminate Ha|cbn [length]; lia]).
        rewrite L1, L2 in Ep. exact Ep.
    Qed.
    Lemma cut_again x y sl cyl (m : mdata) m' : Slices cyl x y sl -> md_cyl m = cyl -> md_x3 m = y -> cut_turn m = Ok m' -> m' = m.
    Proof.
      intros S C X H. unfold cut_turn in H. rewrite C, X in H. destruct cyl; [|injection H as <-; reflexivity].
      destruct S as [x0 U|a b x0 _ _].
      - destruct x0 as [|p [|q r]]; [discriminate H|discriminate H|]. pose proof (U eq_refl q eq_refl) as Lq. apply Qle_bool_iff in Lq. rewrite Lq in H. injection H as <-. reflexivity.
      - change (Qle_bool (1 # 2) (1 # 2)) with true in H. cbv iota in H. injection H as <-. reflexivity.
    Qed.
    Lemma sel_lt (b b' : xbin) sel n oe : Selects b sel b' oe -> n < Z.to_nat (nbins b') -> oe n < bins_of b.
    Proof.
      rewrite <- nbins_nat. destruct sel as [i|]; cbn [Selects].
      - intros ([Hn _] & _ & _ & H1) Hlt. rewrite H1 in Hlt. change (Z.to_nat 1) with 1 in Hlt. assert (n = 0) by lia. subst n. lia.
      - intros [-> H] Hlt. rewrite H. exact Hlt.
    Qed.
    Theorem made_filtered x d id es ts : Made sn cs old f s x -> dget Z.eqb id d = Some x -> InRange (bd_e (t_bounds s)) es -> InRange (bd_t (t_bounds s)) ts ->
      exists x' oe ot sl, create_filtered_mesh sn cs d id column_labels es ts = Ok x'
        /\ Selects (bd_e (t_bounds s)) es (md_e (f_mesh x')) oe /\ Selects (bd_t (t_bounds s)) ts (md_t (f_mesh x')) ot
        /\ Slices (bd_cyl (t_bounds s)) (bd_x3 (t_bounds s)) (md_x3 (f_mesh x')) sl
        /\ GridShows (f_grid x') (bins_of (md_t (f_mesh x'))) (bins_of (md_e (f_mesh x'))) (intervals (md_x3 (f_mesh x'))) (intervals (bd_x2 (t_bounds s))) (intervals (bd_x1 (t_bounds s)))
             (fun t e k j i => t_values s (ot t) (oe e) (sl k) j i).
    Proof using HF Hs.
      intros HM Ed He Ht. destruct (made_form x HM) as (m & sl & Hm & Ex & C & X1 & X2 & Xe & Xt & S & A).
      rewrite <- Xe in He. rewrite <- Xt in Ht. destruct (etbin_total (f_mesh x) es ts He Ht) as (M & EM).
      destruct (etbin_ok _ _ _ _ EM) as ((Hc & H1 & H2 & H3) & oe & ot & Se & St & Ha). rewrite Xe in Se. rewrite Xt in St.
      assert (Nx : nx1 M = nx1 (f_mesh x) /\ nx2 M = nx2 (f_mesh x) /\ nx3 M = nx3 (f_mesh x)) by (unfold nx1, nx2, nx3; rewrite H1, H2, H3; auto).
      destruct (C57_grid_exists sn cs M (str_of_Z id) (None : option (vec * placement)) column_labels cols_unrelated) as (x' & Ex').
      { rewrite Hc, H3, C. intros Cy. rewrite Cy in S. destruct (make_inv sn cs _ _ _ _ _ Ex) as (m' & g & Hg & _).
        unfold create_grid in Hg. cbn [data_of md_cyl] in Hg. pose proof Hm as (_ & Eb & _). rewrite Eb, Cy in Hg. unfold cut_turn in Hg. cbn [data_of md_cyl md_x3] in Hg. rewrite Eb, Cy in Hg.
        destruct (bd_x3 (t_bounds s)) as [|p [|q r]]; [discriminate Hg|discriminate Hg|]. inversion S; subst; cbn [length]; lia. }
      destruct (make_inv sn cs _ _ _ _ _ Ex') as (m' & g & Hg & Eq). assert (Em : m' = M).
      { destruct (create_form sn cs _ _ _ _ _ Hg cols_unrelated) as [[->|D] _]; [reflexivity|]. apply (cut_again _ _ _ _ M m' S); [rewrite Hc; exact C|exact H3|exact D]. }
      subst m'. exists x', oe, ot, sl. assert (EF : f_mesh x' = M) by (rewrite Eq; reflexivity). rewrite !EF.
      split; [unfold create_filtered_mesh; rewrite Ed, EM; exact Ex'|]. split; [exact Se|]. split; [exact St|]. rewrite H3. split; [exact S|].
      assert (E1 : nx1 (f_mesh x') = intervals (bd_x1 (t_bounds s))) by (rewrite EF; unfold nx1; rewrite H1, X1; reflexivity).
      assert (E2 : nx2 (f_mesh x') = intervals (bd_x2 (t_bounds s))) by (rewrite EF; unfold nx2; rewrite H2, X2; reflexivity).
      assert (E3 : nx3 (f_mesh x') = intervals (md_x3 (f_mesh x))) by (rewrite EF; unfold nx3; rewrite H3; reflexivity).
      rewrite <- E1, <- E2, <- E3. apply (listed M (str_of_Z id) None x' _ _ _ Ex'); [unfold nt; apply nbins_nat|unfold ne; apply nbins_nat|].
      intros t e k j i Lt Le Lk Lj Li. rewrite EF in *. destruct Nx as (N1 & N2 & N3). rewrite N1 in Li. rewrite N2 in Lj. rewrite N3 in Lk.
      rewrite <- nbins_nat in Lt, Le. rewrite (Ha t e k j i Lt Le). apply A; try assumption; [exact (sel_lt _ _ _ _ _ St Lt)|exact (sel_lt _ _ _ _ _ Se Le)].
    Qed.
  End One.
End Chain.

(** A grid that shows some values is written with each of them on its own line. *)
Lemma cloud_of_shown g nt ne nz ny nx V pts t e : GridShows g nt ne nz ny nx V -> t < nt -> e < ne -> length pts = nz * ny * nx ->
  exists rows, cloud_file g pts (label (s2l "Value - Total") nt ne t e) = Ok (concat (map (fun r => r ++ [nl]) (s2l "x, y, z, value" :: rows)))
    /\ length rows = nz * ny * nx
    /\ forall k j i, k < nz -> j < ny -> i < nx -> exists r x y z ws, nth_error pts ((k * ny + j) * nx + i) = Some (x, y, z) /\ nth_error rows ((k * ny + j) * nx + i) = Some r
         /\ Forall2 Field ws [x; y; z; fst (V t e k j i)] /\ r = joined_by (s2l ",") ws.
Proof.
  intros (A & _ & _) Ht He L. destruct (A t e Ht He) as (v & er & Ev & Lv & _ & _ & H).
  destruct (C61_point_cloud g pts (label (s2l "Value - Total") nt ne t e)) as (rows & E & Lr & R).
  { intros a [<-|[]]. exists v. split; [exact Ev|]. rewrite Lv, L. apply le_n. }
  exists rows. split; [exact E|]. split; [rewrite Lr; exact L|]. intros k j i Hk Hj Hi. destruct (H k j i Hk Hj Hi) as [Hv _].
  assert (In : (k * ny + j) * nx + i < length pts).
  { rewrite <- Lv in L. rewrite L. apply nth_error_Some. congruence. }
  apply nth_error_Some in In. destruct (nth_error pts ((k * ny + j) * nx + i)) as [[[x y] z]|] eqn:Ep; [|congruence].
  destruct (R _ _ _ _ Ep) as (r & q & ws & Hr & (l & El & Eq) & F & ->). rewrite Ev in El. injection El as <-. rewrite Hv in Eq. injection Eq as <-.
  exists (joined_by (s2l ",") ws), x, y, z, ws. auto.
Qed.
