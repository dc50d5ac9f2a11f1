(** Proofs about the placement of meshes, continued, and about CDGS files *)
From Coq Require Import Lia Lqa Qabs Permutation.
From Verif Require Import PyBase PyLemmas PyStr PyStrLemmas PyText D1SProofs2 D1SModel MatProofs InpProofs2 DataModel DataProofs DataProofs2 WWTextProofs MeshModel MeshSpec MeshProofs MeshCuvModel MeshCuvSpec MeshCuvProofs MeshCdgsProofs TrsfModel TrsfSpec TrsfProofs.
Open Scope nat_scope.

Lemma qle_negb a b : negb (Qle_bool a b) = true <-> (b < a)%Q.
Proof.
  rewrite Bool.negb_true_iff. split; intros H.
  - apply Qnot_le_lt. intros Hle. apply Qle_bool_iff in Hle. congruence.
  - destruct (Qle_bool a b) eqn:E; [|reflexivity]. apply Qle_bool_iff in E. exfalso. apply Qlt_not_le in H. contradiction.
Qed.
Lemma near1_iff x y : (x == y)%Q -> near1 x = true <-> isone y.
Proof. intros E. unfold near1, isone. rewrite qle_negb, E. tauto. Qed.
Lemma near0_iff v : near0 v = true <-> atzero v.
Proof. destruct v as [[a b] c]. unfold near0, atzero, dotp, v1, v2, v3. cbn [fst snd]. apply qle_negb. Qed.
Lemma near_z a : near1 (v3 a) = true <-> zaxis a.
Proof. destruct a as [[x y] z]. unfold zaxis, dotp, v3. cbn [snd]. apply near1_iff. ring. Qed.
Lemma near_x a : near1 (v1 a) = true <-> isone (dotp a (1, 0, 0)%Q).
Proof. destruct a as [[x y] z]. unfold dotp, v1. cbn [fst]. apply near1_iff. ring. Qed.
Lemma near_y a : near1 (v2 a) = true <-> isone (dotp a (0, 1, 0)%Q).
Proof. destruct a as [[x y] z]. unfold dotp, v2. cbn [fst snd]. apply near1_iff. ring. Qed.

Lemma place6 o a v l : PlaceLine o a (Some v) l ->
  get_transformation true l = if near1 (v3 a) && near1 (v1 a) then (if near0 o then Ok None else Ok (Some (mkPl o identity (Some v) a)))
                              else Ok (Some (mkPl o (v, cross a v, a) (Some v) a)).
Proof.
  intros H. destruct (line6 _ _ _ _ H) as (Hv & o0 & o1 & a0 & a1 & w0 & E1 & E2 & E3 & E4 & E5 & R1 & R2 & R3).
  unfold get_transformation, place_cyl. rewrite Hv, E1, E2, E3, E4. cbn [bind]. rewrite E5. cbn [bind]. rewrite R1, R2, R3. cbn [bind].
  destruct (near1 (v3 a) && near1 (v1 a)); reflexivity.
Qed.
Lemma place5 o a l : PlaceLine o a None l ->
  get_transformation true l = if near1 (v3 a) then (if near0 o then Ok None else Ok (Some (mkPl o identity None a))) else Err AttributeError.
Proof.
  intros H. destruct (line5 _ _ _ H) as (Hv & o0 & o1 & a0 & a1 & E1 & E2 & E3 & E4 & R1 & R2).
  unfold get_transformation, place_cyl. rewrite Hv, E1, E2, E3, E4. cbn [bind]. rewrite R1, R2. cbn [bind].
  rewrite Bool.andb_true_r. destruct (near1 (v3 a)); reflexivity.
Qed.
Lemma not_both (a : V3) : (dotp a a <= 3 # 2)%Q -> near1 (v3 a) && near1 (v1 a) = false.
Proof.
  destruct a as [[x y] z]. unfold dotp, v1, v3. cbn [fst snd]. intros H.
  destruct (near1 z) eqn:Ez; [|reflexivity]. destruct (near1 x) eqn:Ex; [|reflexivity]. exfalso.
  unfold near1 in *. apply qle_negb in Ez, Ex. apply Qabs_Qlt_condition in Ez, Ex. destruct Ez as [Ez _], Ex as [Ex _].
  assert (Hz : ((9 # 10) < z)%Q) by (setoid_replace z with ((z - 1) + 1)%Q by ring; eapply Qlt_le_trans with ((- (1 # 10 ^ 12)) + 1)%Q; [reflexivity|apply Qplus_le_compat; [apply Qlt_le_weak; exact Ez|apply Qle_refl]]).
  assert (Hx : ((9 # 10) < x)%Q) by (setoid_replace x with ((x - 1) + 1)%Q by ring; eapply Qlt_le_trans with ((- (1 # 10 ^ 12)) + 1)%Q; [reflexivity|apply Qplus_le_compat; [apply Qlt_le_weak; exact Ex|apply Qle_refl]]).
  clear Ez Ex. nra.
Qed.

(** CDGS: the line of a source *)
Lemma coords_prefix_ws (c : ascii) t v : is_ws c = true -> Coords (c :: t) v -> Coords t v.
Proof. intros Hc. destruct v as [[a b] d]. unfold Coords. change (c :: t) with ([c] ++ t). rewrite (split_ws [c] t) by (constructor; [exact Hc|constructor]). auto. Qed.
Lemma coords_ws_end (c : ascii) t v : is_ws c = true -> Coords t v -> Coords (t ++ [c]) v.
Proof. intros Hc. destruct v as [[a b] d]. unfold Coords. rewrite (split_trail t [c]); auto. constructor; [exact Hc|constructor]. Qed.
Lemma skipn_len {A} (a b : list A) n : length a = n -> skipn n (a ++ b) = b.
Proof. intros <-. rewrite skipn_app, skipn_all, Nat.sub_diag. reflexivity. Qed.
Lemma firstn_len {A} (a b : list A) n : length a = n -> firstn n (a ++ b) = a.
Proof. intros <-. rewrite firstn_app, firstn_all, Nat.sub_diag. cbn [firstn]. apply app_nil_r. Qed.
Lemma rec_reads o x y l : RecLine o x y l ->
  read_vec (slice 0 44 l) = Ok o /\ read_vec (slice 45 87 l) = Ok x /\ read_vec (skipn 88 l) = Ok y.
Proof.
  intros (t1 & t2 & t3 & u2 & u3 & -> & L1 & L2 & E2 & E3 & C1 & C2 & C3). subst t2 t3.
  assert (W : is_ws sp = true) by reflexivity. cbn [length] in L2.
  repeat split.
  - replace (slice 0 44 _) with (t1 ++ [sp]); [apply read_vec_ok, coords_ws_end; assumption|].
    unfold slice. cbn [skipn Nat.sub]. replace (t1 ++ (sp :: sp :: u2) ++ sp :: sp :: u3) with ((t1 ++ [sp]) ++ (sp :: u2) ++ sp :: sp :: u3) by (rewrite <- app_assoc; reflexivity).
    symmetry. apply firstn_len. rewrite app_length, L1. reflexivity.
  - replace (slice 45 87 _) with (u2 ++ [sp]).
    + apply read_vec_ok, coords_ws_end; [exact W|]. apply (coords_prefix_ws sp); [exact W|]. apply (coords_prefix_ws sp); assumption.
    + unfold slice. replace (t1 ++ (sp :: sp :: u2) ++ sp :: sp :: u3) with ((t1 ++ [sp; sp]) ++ (u2 ++ [sp]) ++ sp :: u3) by (rewrite <- !app_assoc; reflexivity).
      rewrite skipn_len by (rewrite app_length, L1; reflexivity). symmetry. apply firstn_len. rewrite app_length. cbn [length]. lia.
  - replace (skipn 88 _) with u3.
    + apply read_vec_ok. apply (coords_prefix_ws sp); [exact W|]. apply (coords_prefix_ws sp); assumption.
    + replace (t1 ++ (sp :: sp :: u2) ++ sp :: sp :: u3) with ((t1 ++ [sp; sp] ++ u2 ++ [sp; sp]) ++ u3) by (rewrite <- !app_assoc; reflexivity).
      symmetry. apply skipn_len. rewrite !app_length. cbn [length]. lia.
Qed.
Lemma place_rec_ok o x y l : RecLine o x y l ->
  get_transformation false l = if near1 (v1 x) && near1 (v2 y) && near0 o then Ok None else Err UnboundLocalError.
Proof. intros H. destruct (rec_reads _ _ _ _ H) as (E1 & E2 & E3). unfold get_transformation, place_rec. rewrite E1, E2, E3. reflexivity. Qed.
Lemma standard_iff o x y : Standard o x y <-> near1 (v1 x) && near1 (v2 y) && near0 o = true.
Proof. unfold Standard. rewrite !Bool.andb_true_iff, near_x, near_y, near0_iff. tauto. Qed.
Lemma no_at l : ~ mentions "at" l -> get_transformation true l = Err ValueError.
Proof.
  intros H. assert (E : index_of (s2l "at") l = None).
  { destruct (index_of (s2l "at") l) eqn:E; [|reflexivity]. exfalso. apply H. clear H. revert n E.
    induction l as [|c l IH]; intros n E; [discriminate E|]. cbn [index_of] in E.
    destruct (strip_prefix (s2l "at") (c :: l)) as [rr|] eqn:Es.
    - exists [], rr. cbn [app]. apply strip_prefix_spec in Es. exact Es.
    - destruct (index_of (s2l "at") l) eqn:Ei; [|discriminate E]. destruct (IH _ eq_refl) as (a & b & ->). exists (c :: a), b. reflexivity. }
  unfold get_transformation, place_cyl, index, index_from. cbn [skipn]. rewrite E. destruct (has "VEC direction" l); reflexivity.
Qed.

(** ** CDGS files *)
Lemma starts_iff p l : starts p l = true <-> begins p l.
Proof.
  unfold starts, begins. rewrite str_eqb_eq. split.
  - intros H. exists (skipn (length (s2l p)) l). rewrite <- H at 1. symmetry. apply firstn_skipn.
  - intros (r & ->). rewrite firstn_app, firstn_all, Nat.sub_diag. cbn [firstn]. apply app_nil_r.
Qed.
Lemma starts_not p l : ~ begins p l -> starts p l = false.
Proof. intros H. destruct (starts p l) eqn:E; [|reflexivity]. apply starts_iff in E. contradiction. Qed.
Lemma seek_ok p (u : file) l f : Forall (fun x => ~ begins p x) u -> begins p l -> seek p (u ++ l :: f) = Some (l :: f).
Proof.
  induction 1 as [|x u Hx H IH]; intros Hl; cbn [app seek]; [rewrite (proj2 (starts_iff p l) Hl); reflexivity|].
  rewrite (starts_not _ _ Hx). apply IH. exact Hl.
Qed.
Lemma seek_none p (u : file) : Forall (fun x => ~ begins p x) u -> seek p u = None.
Proof. induction 1 as [|x u Hx H IH]; [reflexivity|]. cbn [seek]. rewrite (starts_not _ _ Hx). exact IH. Qed.

Lemma wrap_ok xs ls r : Wrap xs ls -> multilines (length xs) (ls ++ r) = Some (Ok (xs, r)).
Proof.
  intros H. rewrite (wrapped_ok _ _ _ r H). f_equal. f_equal. f_equal. unfold row. clear.
  apply nth_ext with (d := 0%Q) (d' := 0%Q); [rewrite map_length, seq_length; reflexivity|].
  rewrite map_length, seq_length. intros n Hn. rewrite (nth_indep _ 0%Q ((fun i => nth i xs 0%Q) 0)) by (rewrite map_length, seq_length; exact Hn).
  rewrite (map_nth (fun i => nth i xs 0%Q)), seq_nth by exact Hn. reflexivity.
Qed.
Lemma ints_ok w z : Ints w z -> intfloat w = Ok z.
Proof. intros (q & Hq & E). unfold intfloat. rewrite Hq. cbn [bind]. rewrite (qtrunc_comp _ _ E). f_equal. unfold qtrunc. cbn. rewrite Z.quot_1_r. reflexivity. Qed.
Lemma word1 P l : Label P l -> exists w, wordn (split l) 1 = Ok w /\ P w.
Proof. intros (lab & w & ws & E & H). exists w. rewrite E. split; [reflexivity|exact H]. Qed.

Lemma source_nbins s : ebins s <> 0 -> dimz (nbins (mkBin (s_erg s) (if s_bins s then Erg else Line) true)) = Ok (axis (ebins s)).
Proof.
  unfold ebins, dimz, nbins, binbound, totalbin, axis. cbn [x_vals x_tag]. intros H. destruct (s_bins s).
  - destruct (Nat.eqb_spec (length (s_erg s)) 2) as [E|E]; cbn [negb].
    + rewrite E. reflexivity.
    + destruct (Nat.eqb_spec (length (s_erg s) - 1) 1); [lia|]. destruct (Z.ltb_spec (Z.of_nat (length (s_erg s)) - 1 + 1) 0); [lia|]. f_equal. lia.
  - destruct (Nat.eqb_spec (length (s_erg s)) 1) as [E|E]; cbn [negb].
    + rewrite E. reflexivity.
    + destruct (Z.ltb_spec (Z.of_nat (length (s_erg s)) + 1) 0); [lia|]. f_equal. lia.
Qed.
Definition bounds_of (s : source) : bounds placement :=
  mkBounds false None (s_x1 s) (s_x2 s) (s_x3 s) (mkBin (s_erg s) (if s_bins s then Erg else Line) true) implicit_time.
Lemma bins_word w b : (w = s2l "bins" <-> b = true) -> str_eqb w (s2l "bins") = b.
Proof. intros H. destruct b; [apply str_eqb_eq, H; reflexivity|]. apply str_eqb_neq. intros E. apply H in E. discriminate. Qed.
Lemma dim_ok x : x <> [] -> dim x = Ok (intervals x).
Proof. destruct x as [|a x]; [congruence|]. intros _. unfold dim, intervals. cbn [length]. f_equal. lia. Qed.

(* what the scan and the readers need of the text of a source *)
Lemma source_shape s ls : SourceText s ls -> exists lid hd sd vts ed, ls = (lid :: hd) ++ sd :: concat vts ++ [ed]
  /\ begins "mesh_id" lid /\ wordn (split lid) 1 = Ok (str_of_Z (s_id s)) /\ Forall (fun l => ~ begins "source_data" l) hd /\ begins "source_data" sd
  /\ Forall (fun l => ~ begins "end_source_data" l) (concat vts) /\ begins "end_source_data" ed
  /\ (forall tail, SrcText (ebins s) (s_voxels s) (concat vts ++ ed :: tail))
  /\ (forall r, cdgs_bounds ((lid :: hd) ++ r) = Some (Ok (bounds_of s)))
  /\ (forall r, cdgs_header ((lid :: hd) ++ r) = Ok (s_cooling s, s_strength s, s_comment s)).
Proof.
  intros (lid & lc & lm & lt & ln & le & ly & lb & lp & b1 & b2 & b3 & sd & vts & ed & o & x & y & w1 & w2 & w3 & ws & lab & H).
  destruct H as (Els & Hid & Hidw & Hc & Hm & Ht & Hn & We & Hy & Eb & P1 & P2 & P3 & HR & HS & W1 & W2 & W3 & Hnd & Hsd & HF & Hne & Hed & ws' & Hed2).
  exists lid, (s_comment s :: lc :: lm :: lt :: ln :: le ++ [ly; lb; lp] ++ b1 ++ b2 ++ b3), sd, vts, ed.
  split; [exact Els|]. split; [exact Hid|]. split; [destruct (word1 _ _ Hidw) as (w & E & Hw); subst w; exact E|].
  split; [exact Hnd|]. split; [exact Hsd|]. split; [exact Hne|]. split; [exact Hed|]. split; [|split].
  - intros tail. exists vts, ed, ws', tail. auto.
  - intros r. unfold cdgs_bounds. cbn [app skipline skipn readline fst snd hd tl].
    destruct (word1 _ _ Ht) as (wt & Et & Hwt). destruct (word1 _ _ Hn) as (wn & En & Hwn). rewrite Et, En. cbn [bind]. rewrite (ints_ok _ _ Hwn). cbn [bind mbind].
    rewrite (bins_word _ _ Hwt), Nat2Z.id. cbn [app]. rewrite <- !app_assoc, (wrap_ok _ _ _ We). cbn [mbind]. cbn [app readline fst snd hd tl].
    destruct (word1 _ _ Hy) as (wy & Ey & ->). rewrite Ey. cbn [bind]. change (str_eqb (s2l "rec") (s2l "cyl")) with false. rewrite Eb. unfold wordn, of_opt. cbn [nth_error bind].
    rewrite P1. cbn [bind]. rewrite P2. cbn [bind]. rewrite P3. cbn [bind]. rewrite (place_rec_ok _ _ _ _ HR), (proj1 (standard_iff _ _ _) HS). cbn [bind mbind]. cbv beta iota.
    cbn [mbind]. rewrite !Nat2Z.id, <- !app_assoc. rewrite (wrap_ok _ _ _ W1). cbn [mbind]. rewrite (wrap_ok _ _ _ W2). cbn [mbind]. rewrite (wrap_ok _ _ _ W3). cbn [mbind]. reflexivity.
  - intros r. unfold cdgs_header. cbn [app skipline skipn readline fst snd hd tl].
    destruct (word1 _ _ Hc) as (wc & Ec & Hwc). destruct (word1 _ _ Hm) as (wm & Em & Hwm). rewrite Ec, Em. cbn [bind]. rewrite Hwc, Hwm. reflexivity.
Qed.

Lemma scan_sources_more k ss : forall texts tail d, Forall2 SourceText ss texts -> NoDup (map s_id ss) -> (forall s, In s ss -> dget str_eqb (str_of_Z (s_id s)) d = None) ->
  exists es, scan_sources (length ss + k) (concat texts ++ tail) d = scan_sources k tail (d ++ es) /\ map fst es = map (fun s => str_of_Z (s_id s)) ss
    /\ Forall2 (fun s e => exists lid hd sd vts ed rest, snd e = ((lid :: hd) ++ sd :: concat vts ++ ed :: rest, sd :: concat vts ++ ed :: rest)
         /\ (forall tail, SrcText (ebins s) (s_voxels s) (concat vts ++ ed :: tail))
         /\ (forall r, cdgs_bounds ((lid :: hd) ++ r) = Some (Ok (bounds_of s)))
         /\ (forall r, cdgs_header ((lid :: hd) ++ r) = Ok (s_cooling s, s_strength s, s_comment s))) ss es.
Proof.
  induction ss as [|s ss IH]; intros texts tail d HF Hnd Hd; inversion HF as [|s' l ss' ls Hs HF' E1 E2]; subst.
  - exists []. cbn [length Nat.add concat app map]. rewrite app_nil_r. repeat split; constructor.
  - destruct (source_shape _ _ Hs) as (lid & hd & sd & vts & ed & -> & Hid & Hw & Hnd1 & Hsd & Hnd2 & Hed & HS & HB & HH).
    cbn [map] in Hnd. inversion Hnd as [|a b Ha Hb E3]; subst.
    cbn [concat length Nat.add scan_sources]. rewrite <- !app_assoc. cbn [app]. rewrite <- !app_assoc. cbn [readline List.hd tl app]. rewrite (proj2 (starts_iff _ _) Hid), Hw. cbn [mbind].
    rewrite (seek_ok _ hd sd _ Hnd1 Hsd). cbn [tl]. rewrite (seek_ok _ (concat vts) ed _ Hnd2 Hed). cbn [tl].
    set (f := concat ls ++ tail). set (v := (lid :: hd ++ sd :: concat vts ++ ed :: f, sd :: concat vts ++ ed :: f)).
    assert (Ed : dset str_eqb (str_of_Z (s_id s)) v d = d ++ [(str_of_Z (s_id s), v)]) by (apply (dset_new str_eqb); apply Hd; left; reflexivity).
    destruct (IH ls tail (d ++ [(str_of_Z (s_id s), v)]) HF' Hb) as (es & E & Em & HE).
    { intros s' Hs'. rewrite <- Ed. rewrite (dget_dset_other str_eqb str_eqb_eq); [apply Hd; right; exact Hs'|].
      intros Heq. apply Ha. apply str_of_Z_inj in Heq. rewrite <- Heq || rewrite Heq. apply in_map. exact Hs'. }
    exists ((str_of_Z (s_id s), v) :: es). fold f in E. split; [refine (eq_trans (f_equal (scan_sources (length ss + k) f) Ed) (eq_trans E _)); rewrite <- app_assoc; reflexivity|]. split; [cbn [map fst]; rewrite Em; reflexivity|].
    constructor; [|exact HE]. exists lid, hd, sd, vts, ed, f. cbn [snd]. split; [reflexivity|]. auto.
Qed.

Lemma scan_sources_ok ss : forall texts tail d, Forall2 SourceText ss texts -> NoDup (map s_id ss) -> (forall s, In s ss -> dget str_eqb (str_of_Z (s_id s)) d = None) ->
  exists es, scan_sources (length ss) (concat texts ++ tail) d = Some (Ok (d ++ es)) /\ map fst es = map (fun s => str_of_Z (s_id s)) ss
    /\ Forall2 (fun s e => exists lid hd sd vts ed rest, snd e = ((lid :: hd) ++ sd :: concat vts ++ ed :: rest, sd :: concat vts ++ ed :: rest)
         /\ (forall tail, SrcText (ebins s) (s_voxels s) (concat vts ++ ed :: tail))
         /\ (forall r, cdgs_bounds ((lid :: hd) ++ r) = Some (Ok (bounds_of s)))
         /\ (forall r, cdgs_header ((lid :: hd) ++ r) = Ok (s_cooling s, s_strength s, s_comment s))) ss es.
Proof.
  intros texts tail d H1 H2 H3. destruct (scan_sources_more 0 ss texts tail d H1 H2 H3) as (es & E & R). exists es. rewrite Nat.add_0_r in E. split; [exact E|exact R].
Qed.
Lemma scan_head h0 h1 n f : Label (fun w => Ints w (Z.of_nat n)) h0 -> Label (fun w => exists q, numeral w q) h1 -> scan_cdgs (h0 :: h1 :: f) = scan_sources n f [].
Proof.
  intros H0 H1. unfold scan_cdgs. cbn [readline hd tl]. destruct (word1 _ _ H0) as (w & Ew & Hw). destruct (word1 _ _ H1) as (u & Eu & q & Hu).
  rewrite Ew. cbn [bind]. rewrite (ints_ok _ _ Hw). cbn [bind]. rewrite Eu. cbn [bind]. rewrite Hu. cbn [bind mbind]. rewrite Nat2Z.id. reflexivity.
Qed.
Lemma gap_lost h0 h1 ss texts x rest : Label (fun w => Ints w (Z.of_nat (S (length ss)))) h0 -> Label (fun w => exists q, numeral w q) h1 ->
  Forall2 SourceText ss texts -> NoDup (map s_id ss) -> ~ begins "mesh_id" x ->
  exists d, scan_cdgs (h0 :: h1 :: concat texts ++ x :: rest) = Some (Ok d) /\ map fst d = map (fun s => str_of_Z (s_id s)) ss.
Proof.
  intros H0 H1 HF Hnd Hx. rewrite (scan_head _ _ _ _ H0 H1). destruct (scan_sources_more 1 ss texts (x :: rest) [] HF Hnd) as (es & E & Em & _); [reflexivity|].
  exists es. rewrite Nat.add_1_r in E. rewrite E. cbn [scan_sources readline hd tl]. rewrite (starts_not _ _ Hx). auto.
Qed.
Lemma cut_hangs h0 h1 n ss texts lid rest : Label (fun w => Ints w (Z.of_nat (length ss + S n))) h0 -> Label (fun w => exists q, numeral w q) h1 ->
  Forall2 SourceText ss texts -> NoDup (map s_id ss) -> begins "mesh_id" lid -> Label (fun _ => True) lid -> Forall (fun l => ~ begins "end_source_data" l) rest ->
  scan_cdgs (h0 :: h1 :: concat texts ++ lid :: rest) = None.
Proof.
  intros H0 H1 HF Hnd Hl Hw Hr. rewrite (scan_head _ _ _ _ H0 H1). destruct (scan_sources_more (S n) ss texts (lid :: rest) [] HF Hnd) as (es & E & _ & _); [reflexivity|].
  rewrite E. cbn [scan_sources readline hd tl]. rewrite (proj2 (starts_iff _ _) Hl). destruct (word1 _ _ Hw) as (w & Ew & _). rewrite Ew. cbn [mbind].
  destruct (seek "source_data" rest) as [f2|] eqn:Es; [|reflexivity].
  assert (Hf : seek "end_source_data" (tl f2) = None).
  { apply seek_none. assert (Hs : exists u, rest = u ++ f2). { clear -Es. revert f2 Es. induction rest as [|l rest IH]; intros f2 Es; [discriminate|]. cbn [seek] in Es. destruct (starts "source_data" l); [injection Es as <-; exists []; reflexivity|]. destruct (IH _ Es) as (u & ->). exists (l :: u). reflexivity. }
    destruct Hs as (u & ->). apply Forall_app in Hr as [_ Hr]. destruct f2; [constructor|]. inversion Hr; subst. assumption. }
  rewrite Hf. reflexivity.
Qed.
Lemma dget_at (d : list (str * (file * file))) k v : NoDup (map fst d) -> In (k, v) d -> dget str_eqb k d = Some v.
Proof. intros H. apply (in_dget str_eqb str_eqb_eq). exact H. Qed.
Lemma f2_in {A B} (R : A -> B -> Prop) (l : list A) (l' : list B) x : Forall2 R l l' -> In x l -> exists y, In (x, y) (combine l l') /\ In y l' /\ R x y.
Proof.
  induction 1 as [|a b l l' Hab H IH]; [intros []|]. intros [<-|Hx]; [exists b; cbn; auto|].
  destruct (IH Hx) as (y & H1 & H2 & H3). exists y. cbn. auto.
Qed.
Lemma scan_ok ss ls : CdgsFile ss ls -> exists d, scan_cdgs ls = Some (Ok d) /\ map fst d = map (fun s => str_of_Z (s_id s)) ss
  /\ Forall2 (fun s e => exists lid hd sd vts ed rest, snd e = ((lid :: hd) ++ sd :: concat vts ++ ed :: rest, sd :: concat vts ++ ed :: rest)
         /\ (forall tail, SrcText (ebins s) (s_voxels s) (concat vts ++ ed :: tail))
         /\ (forall r, cdgs_bounds ((lid :: hd) ++ r) = Some (Ok (bounds_of s)))
         /\ (forall r, cdgs_header ((lid :: hd) ++ r) = Ok (s_cooling s, s_strength s, s_comment s))) ss d.
Proof.
  intros (h0 & h1 & texts & tail & -> & H0 & H1 & HF & Hnd).
  destruct (scan_sources_ok ss texts tail [] HF Hnd) as (es & E & Em & HE); [reflexivity|]. exists es. split; [|auto].
  rewrite (scan_head _ _ _ _ H0 H1). exact E.
Qed.
Lemma get_ok s (e : str * (file * file)) d : Sensible s -> NoDup (map fst d) -> In e d -> fst e = str_of_Z (s_id s) ->
  (exists lid hd sd vts ed rest, snd e = ((lid :: hd) ++ sd :: concat vts ++ ed :: rest, sd :: concat vts ++ ed :: rest)
         /\ (forall tail, SrcText (ebins s) (s_voxels s) (concat vts ++ ed :: tail))
         /\ (forall r, cdgs_bounds ((lid :: hd) ++ r) = Some (Ok (bounds_of s)))
         /\ (forall r, cdgs_header ((lid :: hd) ++ r) = Ok (s_cooling s, s_strength s, s_comment s))) ->
  exists m, get_cdgs d (str_of_Z (s_id s)) = Some (Ok m) /\ MeshOfSource s m.
Proof.
  intros (S1 & S2 & S3 & S4 & S5 & S6) Hnd Hin Hk (lid & hd & sd & vts & ed & rest & Ee & HS & HB & HH).
  destruct e as [k v]. cbn [fst snd] in Hk, Ee. subst k. unfold get_cdgs. rewrite (dget_at _ _ _ Hnd Hin), Ee. rewrite HB. cbn [mbind].
  unfold bounds_of at 1 2 3 4. cbn [bd_x1 bd_x2 bd_x3 bd_e]. rewrite (dim_ok _ S1), (dim_ok _ S2), (dim_ok _ S3). cbn [bind]. rewrite (source_nbins s S4). cbn [bind mbind].
  destruct (cdgs_mesh_ok 1 (ebins s) (intervals (s_x3 s)) (intervals (s_x2 s)) (intervals (s_x1 s)) (s_voxels s) [sd] (concat vts ++ ed :: rest) S4 eq_refl (HS rest) S5 S6) as (a & Ea & Ha).
  change ([sd] ++ concat vts ++ ed :: rest) with (sd :: concat vts ++ ed :: rest) in Ea. rewrite Ea. cbn [mbind]. rewrite HH. cbn [mbind].
  eexists. split; [reflexivity|]. unfold MeshOfSource. cbn [cm_id cm_comments cm_cooling cm_strength cm_bounds cm_data bounds_of bd_cyl bd_trsf bd_x1 bd_x2 bd_x3 bd_e bd_t].
  repeat (split; [reflexivity|]). split; [repeat (split; [reflexivity|]); reflexivity|]. exact Ha.
Qed.
Lemma all_sources ss ls : CdgsFile ss ls -> (forall s, In s ss -> Sensible s) ->
  exists d, scan_cdgs ls = Some (Ok d) /\ map fst d = map (fun s => str_of_Z (s_id s)) ss
    /\ forall s, In s ss -> exists m, get_cdgs d (str_of_Z (s_id s)) = Some (Ok m) /\ MeshOfSource s m.
Proof.
  intros HC HS. destruct (scan_ok ss ls HC) as (d & E & Em & HF). exists d. split; [exact E|]. split; [exact Em|].
  intros s Hs. destruct HC as (_ & _ & _ & _ & _ & _ & _ & _ & Hnd).
  assert (Hndd : NoDup (map fst d)).
  { rewrite Em. clear -Hnd. induction ss as [|s ss IH]; [constructor|]. cbn [map] in *. inversion Hnd; subst. constructor; [|auto].
    intros Hin. apply in_map_iff in Hin as (s' & Hs' & Hin). apply str_of_Z_inj in Hs'. apply H1. rewrite <- Hs'. apply in_map. exact Hin. }
  assert (Hk : exists e, In e d /\ fst e = str_of_Z (s_id s) /\ (exists lid hd sd vts ed rest, snd e = ((lid :: hd) ++ sd :: concat vts ++ ed :: rest, sd :: concat vts ++ ed :: rest)
         /\ (forall tail, SrcText (ebins s) (s_voxels s) (concat vts ++ ed :: tail))
         /\ (forall r, cdgs_bounds ((lid :: hd) ++ r) = Some (Ok (bounds_of s)))
         /\ (forall r, cdgs_header ((lid :: hd) ++ r) = Ok (s_cooling s, s_strength s, s_comment s)))).
  { clear E Hndd Hnd HS. revert Em Hs. induction HF as [|s0 e ss d He HF IH]; intros Em Hs; [destruct Hs|]. cbn [map] in Em. injection Em as Em1 Em2.
    destruct Hs as [->|Hs]; [exists e; split; [left; reflexivity|]; split; [exact Em1|exact He]|].
    destruct (IH Em2 Hs) as (e' & H1 & H2 & H3). exists e'. split; [right; exact H1|]. auto. }
  destruct Hk as (e & Hin & Hfe & He). apply (get_ok s e d (HS s Hs) Hndd Hin Hfe He).
Qed.
Lemma unknown_id d id : ~ In id (map fst d) -> get_cdgs d id = Some (Err KeyError).
Proof. intros H. unfold get_cdgs. destruct (dget str_eqb id d) as [v|] eqn:E; [|reflexivity]. apply (dget_some_in str_eqb str_eqb_eq) in E. destruct H. apply in_map_iff. exists (id, v). auto. Qed.
Lemma insert_perm x l : Permutation (insert_sorted x l) (x :: l).
Proof. induction l as [|y l IH]; [constructor; constructor|]. cbn [insert_sorted]. destruct (str_leb x y); [reflexivity|]. rewrite IH. constructor. Qed.
Lemma strs_perm l : Permutation (sorted_strs l) l.
Proof. induction l as [|x l IH]; [constructor|]. unfold sorted_strs in *. cbn [fold_right]. rewrite insert_perm. constructor. exact IH. Qed.
