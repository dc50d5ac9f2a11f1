(** Proofs about the tables of the totals and the summary of the errors. *)
From Coq Require Import Lia ZArith.
From Verif Require Import PyBase PyLemmas PyStr PyStrLemmas PyText D1SProofs2 MatProofs MatProofs2 MatProofs4 DataModel MeshModel MeshSpec MeshProofs MctalModel MctalSpec MctalProofs MctalProofs2 MctalProofs5 MctalProofs6.
From Coq Require Import Lqa.
Open Scope nat_scope.

Lemma Ok_inj {A} (a b : A) : Ok a = Ok b -> a = b. Proof. intros H; injection H; auto. Qed.
Lemma index_some (l : list string) : forall n k, index_of String.eqb n l = Some k -> nth_error l k = Some n.
Proof.
  induction l as [|x l IH]; intros n k; cbn [index_of]; [discriminate|]. destruct (String.eqb_spec n x) as [->|N].
  - intros H; injection H as <-. reflexivity.
  - destruct (index_of String.eqb n l) as [j|] eqn:E; [|discriminate]. cbn. intros H; injection H as <-. cbn. apply IH. exact E.
Qed.
Lemma index_there (l : list string) n : In n l -> exists k, index_of String.eqb n l = Some k.
Proof.
  induction l as [|x l IH]; [intros []|]. intros H. cbn [index_of]. destruct (String.eqb_spec n x); [eauto|]. destruct H as [->|H]; [contradiction|]. destruct (IH H) as (k & ->). cbn. eauto.
Qed.
Lemma index_none (l : list string) n : ~ In n l -> index_of String.eqb n l = None.
Proof. intros H. destruct (index_of String.eqb n l) as [k|] eqn:E; [|reflexivity]. apply index_some, nth_error_In in E. contradiction. Qed.

(** ** the list of tables *)
Lemma last_total_cons t ts a : fold_left (fun a t => match total_name t with Some n => Some n | None => a end) (t :: ts) a
  = fold_left (fun a t => match total_name t with Some n => Some n | None => a end) ts (match total_name t with Some n => Some n | None => a end).
Proof. reflexivity. Qed.
Lemma total_here t a : match total_col t with Some p => Some (name_of p) | None => a end = match total_name t with Some n => Some n | None => a end.
Proof. destruct (total_col t) as [p|] eqn:E; [destruct (total_cases t p E) as [_ ->]; reflexivity|apply total_none in E; rewrite E; reflexivity]. Qed.
Lemma dfs_ok ts : forall a, Forall (fun t => exists D, table t = Ok D) ts -> exists l, dfs a ts = Ok l /\ map fst l = map t_number ts
  /\ forall i t, nth_error ts i = Some t -> exists D, table t = Ok D
     /\ nth_error l i = Some (t_number t, (D, total_rows (fold_left (fun a t => match total_name t with Some n => Some n | None => a end) (firstn (S i) ts) a) D)).
Proof.
  induction ts as [|t ts IH]; intros a H.
  - exists []. split; [reflexivity|]. split; [reflexivity|]. intros [|i] t; discriminate.
  - inversion H as [|? ? (D & E) H']; subst. cbn [dfs]. rewrite E. cbn [bind]. rewrite total_here.
    destruct (IH (match total_name t with Some n => Some n | None => a end) H') as (l & El & Em & Hl). rewrite El. cbn [bind].
    eexists. split; [reflexivity|]. split; [cbn [map fst]; rewrite Em; reflexivity|].
    intros [|i] t' Ht; cbn [nth_error] in Ht |- *.
    + injection Ht as <-. exists D. split; [exact E|]. reflexivity.
    + destruct (Hl i t' Ht) as (D' & E' & Hn). exists D'. split; [exact E'|]. rewrite Hn. cbn [firstn]. rewrite last_total_cons. reflexivity.
Qed.
Lemma dset_fresh {V} k (v : V) d : ~ In k (map fst d) -> dset Z.eqb k v d = d ++ [(k, v)].
Proof.
  induction d as [|[k' v'] d IH]; intros H; [reflexivity|]. cbn [dset app]. destruct (Z.eqb_spec k k') as [->|N]; [exfalso; apply H; left; reflexivity|].
  rewrite IH; [reflexivity|]. intros X. apply H. right. exact X.
Qed.
Lemma fold_dset_nodup {V} (l : list (Z * V)) : forall d, NoDup (map fst (d ++ l)) -> fold_left (fun d kv => dset Z.eqb (fst kv) (snd kv) d) l d = d ++ l.
Proof.
  induction l as [|[k v] l IH]; intros d H; [rewrite app_nil_r; reflexivity|]. cbn [fold_left fst snd].
  rewrite dset_fresh. 2:{ rewrite map_app in H. cbn [map fst] in H. apply NoDup_remove_2 in H. intros X. apply H. apply in_or_app. left. exact X. }
  rewrite IH by (rewrite <- app_assoc; exact H). rewrite <- app_assoc. reflexivity.
Qed.
Lemma get_dfs_ok ts : NoDup (map t_number ts) -> Forall (fun t => exists D, table t = Ok D) ts -> exists l, get_dfs ts = Ok l /\ map fst l = map t_number ts
  /\ forall i t, nth_error ts i = Some t -> exists D, table t = Ok D
     /\ nth_error l i = Some (t_number t, (D, total_rows (last_total (firstn (S i) ts)) D)).
Proof.
  intros HN H. destruct (dfs_ok ts None H) as (l & E & Em & Hl). exists l. unfold get_dfs. rewrite E. cbn [bind].
  rewrite fold_dset_nodup by (cbn [app]; rewrite Em; exact HN). split; [reflexivity|]. split; [exact Em|]. exact Hl.
Qed.

(** ** the rows of the total *)
Lemma not_total_word t f idx v p s : nonneg t -> Comb t f idx -> In p [2; 3; 4; 5; 6; 7] -> nth p (arow t f idx v) VNaN <> VS s.
Proof.
  intros Hn C Hp. assert (Hp11 : p < 11) by (cbn [In] in Hp; lia). pose proof (arow_entry t f idx v Hn C p Hp11) as E.
  destruct C as [_ Hs]. destruct (in_shape10 (sizes t) _ eq_refl Hs) as (d & u & sg & m & c & e & tm & k & j & i & ->).
  assert (B : forall l i s, bin l i <> VS s) by (intros l' i' s'; unfold bin; destruct (nth_error l' i'); discriminate).
  assert (K : forall n i s, counted n i <> VS s) by (intros n' i' s'; unfold counted, vnat; destruct (n' <=? 0)%Z; discriminate).
  revert E. generalize (nth p (arow t f [d; u; sg; m; c; e; tm; k; j; i] v) VNaN). intros y E.
  cbn [In] in Hp. repeat destruct Hp as [<-|Hp]; try contradiction; cbn in E; injection E as <-; try apply B; try apply K; discriminate.
Qed.
Lemma total_here_kept t rows p : nonneg t -> (forall r, In r rows <-> From_ t r) -> total_col t = Some p -> Filled t ->
  (forall f idx, Comb t f idx -> ~ In (name_of p, VNaN) (bins_of t f idx)) -> In p (kept rows).
Proof.
  intros Hn Hr Hp HF Hnan. destruct (total_cases t p Hp) as [Hi _]. assert (Hp11 : p < 11) by (cbn [In] in Hi; lia).
  assert (ES : swapped (name_of p) = name_of p) by (cbn [In] in Hi; repeat destruct Hi as [<-|Hi]; try contradiction; reflexivity).
  assert (A : forall f idx v, Comb t f idx -> nth p (arow t f idx v) VNaN <> VNaN).
  { intros f idx v C X. apply (Hnan f idx C). pose proof (arow_entry t f idx v Hn C p Hp11) as G. rewrite ES, X in G. apply dget_some_in in G; [exact G|]. intros a b; apply String.eqb_eq. }
  apply kept_intro; [lia| |].
  - intros r Hin. apply Hr in Hin. destruct Hin as [f idx v C E ->|f q v Hf Hq E ->]; [apply A; exact C|].
    assert (q = p) by congruence. subst q. destruct (trow_entry t f p v Hi) as (_ & -> & _). discriminate.
  - right. right. destruct HF as (_ & Hs & Hc & Hv).
    assert (H0 : 0 < size (t_cells t)) by (unfold size; lia).
    assert (C : Comb t 0 (repeat 0 10)). { split; [exact H0|]. unfold sizes, size in *. cbn [repeat nth] in *. repeat constructor; try lia. }
    destruct (Hv (0 :: repeat 0 10) (Hc _ _ C)) as (v & Ev). destruct (Hv (last_bin t 0) (last_shape t 0 Hn Hc Hs H0)) as (w & Ew).
    exists (arow t 0 (repeat 0 10) v), (trow t 0 p w). split; [apply Hr; exact (FromComb _ _ _ _ _ C Ev eq_refl)|]. split; [apply Hr; exact (FromTotal _ _ _ _ _ H0 Hp Ew eq_refl)|].
    destruct (trow_entry t 0 p w Hi) as (_ & -> & _). pose proof (not_total_word t 0 (repeat 0 10) v p (s2l "total") Hn C Hi) as N.
    destruct (nth p (arow t 0 (repeat 0 10) v) VNaN) as [q|s|]; cbn [same]; try (intros []; fail). intros ->. apply N. reflexivity.
Qed.
Lemma nth_pos (ks : list nat) q n : nth_error (map name_of ks) q = Some n -> exists p, nth_error ks q = Some p /\ n = name_of p.
Proof. rewrite nth_error_map. destruct (nth_error ks q) as [p|]; [|discriminate]. intros H. injection H as <-. eauto. Qed.

Theorem totals t D n : Filled t -> Finite t -> table t = Ok D -> total_name t = Some n ->
  ((forall f idx, Comb t f idx -> ~ In (n, VNaN) (bins_of t f idx)) -> In n (d_cols D))
  /\ (In n (d_cols D) -> exists T, total_rows (Some n) D = Some T /\ d_cols T = d_cols D
      /\ (forall f v e, f < size (t_cells t) -> get_value t (last_bin t f) = Ok (Some v, Some e) -> exists ir, In ir (d_rows T) /\ ShowsTotal t T (snd ir) f n v e)
      /\ (forall ir, In ir (d_rows T) -> In ir (d_rows D) /\ exists f v e, f < size (t_cells t) /\ get_value t (last_bin t f) = Ok (Some v, Some e) /\ ShowsTotal t T (snd ir) f n v e)).
Proof.
  intros HF HN ET Hname. destruct (filled_rows t HF) as (rows & Er & Hr). destruct (table_ok t rows Er) as (D' & ET' & EC & R1 & R2).
  rewrite ET in ET'. injection ET' as <-. assert (Hn : nonneg t) by apply HF.
  destruct (total_col t) as [p|] eqn:Ep; [|apply total_none in Ep; congruence]. destruct (total_cases t p Ep) as [Hi X]. assert (n = name_of p) by congruence. subst n.
  assert (Hp13 : p < 13) by (cbn [In] in Hi; lia).
  split; [intros H; rewrite EC; apply in_map; apply (total_here_kept t rows p Hn Hr Ep HF H)|].
  intros Hin. destruct (index_there _ _ Hin) as (q & Eq). unfold total_rows, col_pos. rewrite Eq. eexists. split; [reflexivity|]. cbn [d_cols d_rows]. split; [reflexivity|].
  apply index_some in Eq. pose proof Eq as Eq'. rewrite EC in Eq'. apply nth_pos in Eq' as (p' & Ep' & Enn). 
  assert (p' = p). { apply name_inj; [|exact Hp13|congruence]. apply nth_error_In in Ep'. apply kept_range in Ep'. apply Ep'. } subst p'.
  split.
  - intros f v e Hf E. destruct (R2 (trow t f p (Some v, Some e))) as (ir & Hir & Q); [apply Hr; exact (FromTotal _ _ _ _ _ Hf Ep E eq_refl)|].
    pose proof (total_shows t rows D (snd ir) f p v e Ep EC (or_intror Q)) as S. exists ir. split.
    + apply filter_In. split; [exact Hir|]. destruct S as (_ & S & _). destruct (S q Eq) as (y & Ey & Sy). rewrite (nth_error_nth _ _ _ Ey).
      destruct y; cbn in Sy |- *; try contradiction. subst. apply str_eqb_eq. reflexivity.
    + exact S.
  - intros ir H. apply filter_In in H as [Hir Hq]. split; [exact Hir|]. destruct (R1 ir Hir) as (r & Hrr & Es). apply Hr in Hrr.
    destruct Hrr as [f idx v C E ->|f p2 v Hf Hp2 E ->].
    + exfalso. rewrite Es in Hq. unfold select in Hq.
      assert (EN : nth_error (map (fun p => nth p (arow t f idx v) VNaN) (kept rows)) q = Some (nth p (arow t f idx v) VNaN)) by (rewrite nth_error_map, Ep'; reflexivity).
      rewrite (nth_error_nth _ _ _ EN) in Hq. pose proof (not_total_word t f idx v p (s2l "total") Hn C Hi) as N.
      destruct (nth p (arow t f idx v) VNaN); cbn in Hq; try discriminate Hq. apply N. f_equal. apply str_eqb_eq. exact Hq.
    + destruct (HN _ _ (last_bin_shape t f HF Hf) E) as (a & b & ->). assert (p2 = p) by congruence. subst p2.
      exists f, a, b. split; [exact Hf|]. split; [exact E|]. apply (total_shows t rows D (snd ir) f p a b Ep EC). left. exact Es.
Qed.

(** ** the summary of the errors *)
Section Best.
Variable lt : Q -> Q -> bool.
Hypothesis lt_asym : forall a b, lt a b = true -> lt b a = false.
Hypothesis lt_neg_trans : forall a b c, lt a b = false -> lt b c = false -> lt a c = false.
Lemma best_ok (l : list (nat * Q)) x : best lt l = Some x -> In x l /\ forall y, In y l -> lt (snd y) (snd x) = false.
Proof.
  revert x. induction l as [|a l IH]; intros x; cbn [best]; [discriminate|]. destruct (best lt l) as [y|] eqn:E.
  - destruct (IH y eq_refl) as [H1 H2]. destruct (lt (snd y) (snd a)) eqn:L; intros X; injection X as <-.
    + split; [right; exact H1|]. intros z [<-|Hz]; [apply lt_asym; exact L|apply H2; exact Hz].
    + split; [left; reflexivity|]. intros z [<-|Hz]; [|eapply lt_neg_trans; [apply H2; exact Hz|exact L]].
      destruct (lt (snd a) (snd a)) eqn:Y; [rewrite (lt_asym _ _ Y) in Y; discriminate Y|reflexivity].
  - intros X; injection X as <-. split; [left; reflexivity|]. destruct l as [|b l]; [|cbn [best] in E; destruct (best lt l) as [z|]; [destruct (lt (snd z) (snd b))|]; discriminate E].
    intros z [<-|[]]. destruct (lt (snd a) (snd a)) eqn:Y; [rewrite (lt_asym _ _ Y) in Y; discriminate Y|reflexivity].
Qed.
Lemma best_some (l : list (nat * Q)) : l <> [] -> exists x, best lt l = Some x.
Proof. destruct l as [|a l]; [contradiction|]. intros _. cbn [best]. destruct (best lt l) as [y|]; [destruct (lt (snd y) (snd a)); eauto|eauto]. Qed.
End Best.
Lemma qlt_false a b : qlt a b = false <-> (b <= a)%Q.
Proof. unfold qlt. rewrite Bool.negb_false_iff. apply Qle_bool_iff. Qed.
Lemma qlt_true a b : qlt a b = true <-> (a < b)%Q.
Proof. split; intros H; [apply Qnot_le_lt; intros X; apply qlt_false in X; congruence|]. destruct (qlt a b) eqn:E; [reflexivity|]. apply qlt_false in E. lra. Qed.
Lemma qlt_asym a b : qlt a b = true -> qlt b a = false. Proof. rewrite qlt_true, qlt_false. lra. Qed.
Lemma qlt_nt a b c : qlt a b = false -> qlt b c = false -> qlt a c = false. Proof. rewrite !qlt_false. lra. Qed.

Lemma drop_length rows : forall seen, length (drop_dup seen rows) <= length rows.
Proof. induction rows as [|[i r] rows IH]; intros seen; [cbn; lia|]. cbn [drop_dup]. destruct (memb row_eqb r seen); cbn [length]; [specialize (IH seen)|specialize (IH (r :: seen))]; lia. Qed.
Lemma drop_all rows : forall seen, length (drop_dup seen rows) = length rows -> drop_dup seen rows = rows.
Proof.
  induction rows as [|[i r] rows IH]; intros seen; [reflexivity|]. cbn [drop_dup]. destruct (memb row_eqb r seen); cbn [length]; intros H.
  - pose proof (drop_length rows seen). lia.
  - f_equal. apply IH. lia.
Qed.
Lemma rows_length t : nonneg t -> forall fns k rows, all_rows t k fns = Ok rows -> length rows = length fns * (prod (sizes t) + match total_name t with Some _ => 1 | None => 0 end).
Proof.
  intros Hn. induction fns as [|fn fns IH]; intros k rows H; cbn [all_rows] in H; [apply Ok_inj in H; subst; reflexivity|].
  destruct (cell_rows t k fn) as [a|] eqn:Ea; [|discriminate H]. cbn [bind] in H. destruct (get_value t (last_index t k)) as [v|]; [|discriminate H]. cbn [bind] in H.
  unfold cell_rows in Ea. pose proof (mapM_Forall2 _ _ _ Ea) as La. apply Forall2_length in La. rewrite cart_length, labels_length in La by exact Hn.
  match type of H with bind ?m _ = _ => destruct m as [tot|] eqn:Et; [|discriminate H] end. cbn [bind] in H.
  destruct (all_rows t (S k) fns) as [b|] eqn:Eb; [|discriminate H]. cbn [bind] in H. apply Ok_inj in H. subst rows. rewrite !app_length, (IH _ _ Eb), <- La. cbn [length Nat.mul].
  assert (Lt : length tot = match total_name t with Some _ => 1 | None => 0 end).
  { destruct (total_col t) as [p|] eqn:Ep.
    - destruct (total_cases t p Ep) as [_ ->]. destruct (seg_count t <=? 0)%Z; [discriminate Et|]. destruct (total_row t k fn p); [|discriminate Et]. cbn [bind] in Et. apply Ok_inj in Et. subst. reflexivity.
    - apply Ok_inj in Et. subst. apply total_none in Ep. rewrite Ep. reflexivity. }
  rewrite Lt. lia.
Qed.

Lemma floats_ok n q D (g : nat * list dval -> Q) : col_pos n D = Some q -> (forall ir, In ir (d_rows D) -> nth q (snd ir) VNaN = VQ (g ir)) -> floats n D = Ok (map g (d_rows D)).
Proof.
  intros E H. unfold floats. rewrite E. cbn [of_opt bind]. induction (d_rows D) as [|ir l IH]; [reflexivity|]. cbn [mapM map].
  rewrite (H ir (or_introl eq_refl)). cbn [bind]. rewrite IH by (intros x Hx; apply H; right; exact Hx). reflexivity.
Qed.
Lemma combine_map_same {A B C} (f : A -> B) (g : A -> C) l : combine (map f l) (map g l) = map (fun x => (f x, g x)) l.
Proof. induction l; cbn; congruence. Qed.

Theorem summary t D k : Filled t -> Finite t -> table t = Ok D ->
  length (d_rows D) = size (t_cells t) * (prod (sizes t) + match total_name t with Some _ => 1 | None => 0 end) ->
  exists bmin bmax emin vmin emax vmax,
    Counted t bmin /\ get_value t bmin = Ok (Some vmin, Some emin) /\ Counted t bmax /\ get_value t bmax = Ok (Some vmax, Some emax)
    /\ (forall b v e, Counted t b -> get_value t b = Ok (Some v, Some e) -> (emin <= e)%Q /\ (e <= emax)%Q)
    /\ summary_row k D = Ok (k, (reported emin vmin, vmin), (reported emax vmax, vmax)).
Proof.
  intros HF HN ET HL. destruct (filled_rows t HF) as (rows & Er & Hr). pose proof (rows_length t (proj1 HF) _ _ _ Er) as Lr. rewrite cells_length in Lr.
  destruct (value_columns t rows HF HN Hr) as [K1 K2].
  unfold table in ET. rewrite Er in ET. cbn [bind] in ET. apply Ok_inj in ET. subst D. cbn [d_cols d_rows] in *.
  assert (LC : length (combine (seq 0 (length rows)) (map (select (kept rows)) rows)) = length rows) by (rewrite combine_length, map_length, seq_length; lia).
  rewrite drop_all in * by lia. clear HL LC.
  assert (V : forall r, In r rows -> exists b v e, Counted t b /\ get_value t b = Ok (Some v, Some e) /\ nth 11 r VNaN = VQ v /\ nth 12 r VNaN = VQ e).
  { intros r Hin. apply Hr in Hin. destruct Hin as [f idx x C E ->|f p x Hf Hp E ->].
    - destruct (HN _ _ (proj1 (proj2 (proj2 HF)) _ _ C) E) as (a & b & ->). destruct (arow_values t f idx (Some a, Some b) C) as (_ & V1 & V2).
      exists (f :: idx), a, b. split; [left; exists f, idx; auto|]. auto.
    - destruct (HN _ _ (last_bin_shape t f HF Hf) E) as (a & b & ->). destruct (total_cases t p Hp) as [Hi Hx]. destruct (trow_entry t f p (Some a, Some b) Hi) as (_ & _ & V1 & V2).
      exists (last_bin t f), a, b. split; [right; exists f; repeat split; [exact Hf|congruence]|]. auto. }
  assert (W : forall b v e, Counted t b -> get_value t b = Ok (Some v, Some e) -> exists r, In r rows /\ nth 11 r VNaN = VQ v /\ nth 12 r VNaN = VQ e).
  { intros b v e [(f & idx & -> & C)|(f & -> & Hf & Ht)] E.
    - exists (arow t f idx (Some v, Some e)). split; [apply Hr; exact (FromComb _ _ _ _ _ C E eq_refl)|]. destruct (arow_values t f idx (Some v, Some e) C) as (_ & V1 & V2). auto.
    - destruct (total_col t) as [p|] eqn:Ep; [|apply total_none in Ep; contradiction]. destruct (total_cases t p Ep) as [Hi _].
      exists (trow t f p (Some v, Some e)). split; [apply Hr; exact (FromTotal _ _ _ _ _ Hf Ep E eq_refl)|]. destruct (trow_entry t f p (Some v, Some e) Hi) as (_ & _ & V1 & V2). auto. }
  set (num := fun p (r : list dval) => match nth p r VNaN with VQ q => q | _ => 0%Q end).
  assert (FL : forall p n, p < 13 -> n = name_of p -> In p (kept rows) -> (forall r, In r rows -> exists q, nth p r VNaN = VQ q) ->
     floats n (mkDf (map name_of (kept rows)) (combine (seq 0 (length rows)) (map (select (kept rows)) rows))) = Ok (map (num p) rows)).
  { intros p n Hp -> Hk Hq. destruct (index_there (map name_of (kept rows)) (name_of p) (in_map _ _ _ Hk)) as (q & Eq).
    pose proof (index_some _ _ _ Eq) as Eq2. apply nth_pos in Eq2 as (p' & Ep' & Enn). assert (p' = p) by (apply name_inj; [apply nth_error_In, kept_range in Ep'; apply Ep'|exact Hp|congruence]). subst p'.
    unfold floats, col_pos. cbn [d_cols d_rows]. rewrite Eq. cbn [of_opt bind].
    assert (G : forall rs s, (forall r, In r rs -> In r rows) -> mapM (fun ir : nat * list dval => match nth q (snd ir) VNaN with VQ q0 => Ok q0 | _ => Err TypeError end) (combine (seq s (length rs)) (map (select (kept rows)) rs)) = Ok (map (num p) rs)).
    { induction rs as [|r rs IH]; intros s Hin; [reflexivity|]. cbn [length seq map combine mapM snd].
      assert (EN : nth_error (select (kept rows) r) q = Some (nth p r VNaN)) by (unfold select; rewrite nth_error_map, Ep'; reflexivity).
      rewrite (nth_error_nth _ _ _ EN). destruct (Hq r (Hin r (or_introl eq_refl))) as (x & Ex). unfold num at 1. rewrite Ex. cbn [bind]. rewrite IH by (intros y Hy; apply Hin; right; exact Hy). reflexivity. }
    apply G. auto. }
  assert (FE := FL 12 "Error"%string ltac:(lia) eq_refl K2 ltac:(intros r Hin; destruct (V r Hin) as (b & v & e & _ & _ & _ & Q); eauto)).
  assert (FV := FL 11 "Value"%string ltac:(lia) eq_refl K1 ltac:(intros r Hin; destruct (V r Hin) as (b & v & e & _ & _ & Q & _); eauto)).
  unfold summary_row. rewrite FE. cbn [bind d_rows].
  assert (EF : map fst (combine (seq 0 (length rows)) (map (select (kept rows)) rows)) = seq 0 (length rows)).
  { clear. generalize 0. generalize (select (kept rows)). induction rows as [|r rows IH]; intros g s; [reflexivity|]. cbn [length seq map combine fst]. rewrite IH. reflexivity. }
  rewrite EF.
  assert (IC : forall i e, In (i, e) (combine (seq 0 (length rows)) (map (num 12) rows)) <-> exists r, nth_error rows i = Some r /\ e = num 12 r).
  { intros i e. assert (G : forall rs s, In (i, e) (combine (seq s (length rs)) (map (num 12) rs)) <-> exists r, s <= i /\ nth_error rs (i - s) = Some r /\ e = num 12 r).
    { clear. induction rs as [|r rs IH]; intros s; cbn [length seq map combine In].
      - split; [intros []|]. intros (r & _ & H & _). destruct (i - s); discriminate H.
      - rewrite IH. split.
        + intros [H|(r' & H1 & H2 & H3)]; [injection H as <- <-; exists r; replace (s - s) with 0 by lia; auto|]. exists r'. split; [lia|]. replace (i - s) with (S (i - S s)) by lia. auto.
        + intros (r' & H1 & H2 & H3). destruct (Nat.eq_dec s i) as [->|N]; [left; replace (i - i) with 0 in H2 by lia; injection H2 as ->; congruence|]. right. exists r'. split; [lia|]. replace (i - s) with (S (i - S s)) in H2 by lia. auto. }
    rewrite G. rewrite Nat.sub_0_r. split; [intros (r & _ & H); eauto|intros (r & H); exists r; split; [lia|exact H]]. }
  assert (NE : combine (seq 0 (length rows)) (map (num 12) rows) <> []).
  { assert (H0 : 0 < size (t_cells t)) by (unfold size; lia). destruct HF as (Hn & Hs & Hc & Hv).
    assert (C : Comb t 0 (repeat 0 10)). { split; [exact H0|]. unfold sizes, size in *. cbn [repeat nth] in *. repeat constructor; try lia. }
    destruct (Hv (0 :: repeat 0 10) (Hc _ _ C)) as (v & Ev). assert (Hin : In (arow t 0 (repeat 0 10) v) rows) by (apply Hr; exact (FromComb _ _ _ _ _ C Ev eq_refl)).
    destruct rows; [destruct Hin|]. discriminate. }
  destruct (best_some qlt _ NE) as ([imin emin] & Bmin). destruct (best_some (fun a b => qlt b a) _ NE) as ([imax emax] & Bmax). rewrite Bmin, Bmax. cbn [of_opt bind].
  rewrite FV. cbn [bind].
  destruct (best_ok qlt qlt_asym qlt_nt _ _ Bmin) as [Imin Mmin].
  destruct (best_ok (fun a b => qlt b a) (fun a b => qlt_asym b a) (fun a b c H1 H2 => qlt_nt c b a H2 H1) _ _ Bmax) as [Imax Mmax]. cbn [snd] in *.
  apply IC in Imin as (rmin & Nmin & ->). apply IC in Imax as (rmax & Nmax & ->).
  rewrite !nth_error_map, Nmin, Nmax. cbn [option_map of_opt bind].
  destruct (V _ (nth_error_In _ _ Nmin)) as (bmin & vmin & emin & C1 & G1 & A1 & A2). destruct (V _ (nth_error_In _ _ Nmax)) as (bmax & vmax & emax & C2 & G2 & A3 & A4).
  unfold num in Mmin, Mmax. rewrite A2 in Mmin. rewrite A4 in Mmax. unfold num. rewrite A1, A2, A3, A4.
  exists bmin, bmax, emin, vmin, emax, vmax. split; [exact C1|]. split; [exact G1|]. split; [exact C2|]. split; [exact G2|]. split.
  - intros b v e Hb Hv. destruct (W b v e Hb Hv) as (r & Hin & B1 & B2). apply In_nth_error in Hin as (j & Hj).
    assert (Ij : In (j, num 12 r) (combine (seq 0 (length rows)) (map (num 12) rows))) by (apply IC; eauto).
    pose proof (Mmin _ Ij) as P1. pose proof (Mmax _ Ij) as P2. cbn [snd] in P1, P2. unfold num in P1, P2. rewrite B2 in P1, P2. apply qlt_false in P1, P2. auto.
  - reflexivity.
Qed.
