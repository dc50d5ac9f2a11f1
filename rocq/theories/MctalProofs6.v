(** Proofs about the tables of a tally, continued: what the rows show, totals, the summary of errors. *)
From Coq Require Import Lia ZArith.
From Verif Require Import PyBase PyLemmas PyStr PyStrLemmas PyText D1SProofs2 MatProofs MatProofs2 MatProofs4 DataModel MeshModel MeshSpec MeshProofs MctalModel MctalSpec MctalProofs MctalProofs2 MctalProofs5.
From Coq Require Import Lqa.
Open Scope nat_scope.

Lemma kept_all rows : Forall (fun p => p < 13) (kept rows).
Proof. apply Forall_forall. intros p Hp. apply kept_range in Hp. apply Hp. Qed.
Lemma bins_in t f idx v : nonneg t -> Comb t f idx -> forall n x, In (n, x) (bins_of t f idx) ->
  exists p, p < 11 /\ swapped (name_of p) = n /\ nth p (arow t f idx v) VNaN = x.
Proof.
  intros Hn Hc n x H.
  assert (G : exists p, p < 11 /\ swapped (name_of p) = n /\ forall y, dget String.eqb n (bins_of t f idx) = Some y -> y = x).
  { destruct Hc as [_ Hs]. destruct (in_shape10 (sizes t) _ eq_refl Hs) as (d & u & s & m & c & e & tm & k & j & i & ->). cbn [bins_of In] in H |- *.
    repeat destruct H as [H|H]; try contradiction; injection H as <- <-;
    [exists 0|exists 1|exists 2|exists 3|exists 4|exists 5|exists 6|exists 7|exists 8|exists 9|exists 10]; repeat split; try lia; cbn; intros y E; injection E; auto. }
  destruct G as (p & Hp & E & G). exists p. split; [exact Hp|]. split; [exact E|]. apply G. rewrite <- E. symmetry. apply eq_sym, arow_entry; assumption.
Qed.
Lemma swapped_plain n m : swapped n = m -> plain_column m -> n = m.
Proof. unfold swapped, plain_column. destruct (String.eqb_spec n "Cor A"), (String.eqb_spec n "Cor C"); intros <- [H1 H2]; congruence. Qed.

Lemma comb_shows t rows D r f idx v e : nonneg t -> Comb t f idx -> d_cols D = map name_of (kept rows) ->
  (r = select (kept rows) (arow t f idx (Some v, Some e)) \/ row_eqb (select (kept rows) (arow t f idx (Some v, Some e))) r = true) ->
  ShowsBin t D r f idx v e /\ (forall n x, In (n, x) (bins_of t f idx) -> Shows (d_cols D) r (swapped n) x).
Proof.
  intros Hn Hc Ec Hr. destruct (arow_values t f idx (Some v, Some e) Hc) as (_ & V1 & V2).
  assert (G : forall n x, In (n, x) (bins_of t f idx) -> Shows (d_cols D) r (swapped n) x).
  { intros n x H. destruct (bins_in t f idx (Some v, Some e) Hn Hc n x H) as (p & Hp & En & Ex). rewrite Ec.
    assert (En2 : swapped n = name_of p).
    { rewrite <- En. unfold swapped. destruct (String.eqb_spec (name_of p) "Cor A") as [X|]; [rewrite X; reflexivity|].
      destruct (String.eqb_spec (name_of p) "Cor C") as [X|]; [rewrite X; reflexivity|].
      destruct (String.eqb_spec (name_of p) "Cor A"); [contradiction|]. destruct (String.eqb_spec (name_of p) "Cor C"); [contradiction|reflexivity]. }
    assert (Hp13 : p < 13) by lia. eapply select_shows; [apply kept_all|exact Hp13|exact En2|exact Ex|exact Hr]. }
  split; [|exact G]. split; [|split].
  - intros n x H [P1 P2]. specialize (G n x H). unfold swapped in G. destruct (String.eqb_spec n "Cor A"); [contradiction|]. destruct (String.eqb_spec n "Cor C"); [contradiction|]. exact G.
  - rewrite Ec. apply (select_shows _ (arow t f idx (Some v, Some e)) _ 11 _ (kept_all rows) ltac:(lia) eq_refl V1 r Hr).
  - rewrite Ec. apply (select_shows _ (arow t f idx (Some v, Some e)) _ 12 _ (kept_all rows) ltac:(lia) eq_refl V2 r Hr).
Qed.

Lemma total_cases t p : total_col t = Some p -> In p [2; 3; 4; 5; 6; 7] /\ total_name t = Some (name_of p).
Proof.
  unfold total_col, total_name. destruct (a_tc (t_tim t)), (a_tc (t_erg t)), (a_tc (t_seg t)), (a_tc (t_cos t)), (a_tc (t_usr t)), (a_tc (t_mul t));
  intros H; try discriminate H; injection H as <-; cbn; tauto.
Qed.
Lemma total_none t : total_col t = None <-> total_name t = None.
Proof.
  unfold total_col, total_name. destruct (a_tc (t_tim t)), (a_tc (t_erg t)), (a_tc (t_seg t)), (a_tc (t_cos t)), (a_tc (t_usr t)), (a_tc (t_mul t)); split; intros H; try discriminate H; reflexivity.
Qed.
Lemma trow_entry t f p v : In p [2; 3; 4; 5; 6; 7] ->
  nth 0 (trow t f p v) VNaN = cell_name t f /\ nth p (trow t f p v) VNaN = VS (s2l "total")
  /\ nth 11 (trow t f p v) VNaN = of_fl (fst v) /\ nth 12 (trow t f p v) VNaN = of_fl (snd v).
Proof.
  intros H. cbn [In] in H. unfold trow, labels. cbn [map set_nth row_of].
  repeat destruct H as [<-|H]; [..|contradiction]; cbn [set_nth nth]; auto.
Qed.
Lemma total_shows t rows D r f p v e : total_col t = Some p -> d_cols D = map name_of (kept rows) ->
  (r = select (kept rows) (trow t f p (Some v, Some e)) \/ row_eqb (select (kept rows) (trow t f p (Some v, Some e))) r = true) ->
  ShowsTotal t D r f (name_of p) v e.
Proof.
  intros Hp Ec Hr. destruct (total_cases t p Hp) as [Hi _]. destruct (trow_entry t f p (Some v, Some e) Hi) as (T0 & Tp & T11 & T12).
  assert (p < 13) by (cbn [In] in Hi; lia). repeat split; rewrite Ec.
  - apply (select_shows _ _ _ 0 _ (kept_all rows) ltac:(lia) eq_refl T0 r Hr).
  - apply (select_shows _ _ _ p _ (kept_all rows) ltac:(lia) eq_refl Tp r Hr).
  - apply (select_shows _ _ _ 11 _ (kept_all rows) ltac:(lia) eq_refl T11 r Hr).
  - apply (select_shows _ _ _ 12 _ (kept_all rows) ltac:(lia) eq_refl T12 r Hr).
Qed.

(** a row of the table, and where it comes from *)
Inductive From_ (t : tally) (r : list dval) : Prop :=
| FromComb f idx v : Comb t f idx -> get_value t (f :: idx) = Ok v -> r = arow t f idx v -> From_ t r
| FromTotal f p v : f < size (t_cells t) -> total_col t = Some p -> get_value t (last_bin t f) = Ok v -> r = trow t f p v -> From_ t r.

Lemma filled_rows t : Filled t -> exists rows, all_rows t 0 (cells_of t) = Ok rows /\ forall r, In r rows <-> From_ t r.
Proof.
  intros (Hn & Hs & Hc & Hv). destruct (rows_ok t Hn Hc Hs Hv) as (rows & E & H). exists rows. split; [exact E|]. intros r. rewrite H. split.
  - intros [(f & idx & v & A & B & C)|(f & p & v & A & B & C & D)]; [econstructor 1; eassumption|econstructor 2; eassumption].
  - intros [f idx v A B C|f p v A B C D]; [left; exists f, idx, v; auto|right; exists f, p, v; auto].
Qed.

Lemma last_bin_shape t f : Filled t -> f < size (t_cells t) -> in_shape (shape t) (last_bin t f).
Proof. intros (Hn & Hs & Hc & _) Hf. apply last_shape; assumption. Qed.
Lemma value_columns t rows : Filled t -> Finite t -> (forall r, In r rows <-> From_ t r) -> In 11 (kept rows) /\ In 12 (kept rows).
Proof.
  intros HF HN Hr. destruct HF as (Hn & Hs & Hc & Hv).
  assert (G : forall r, In r rows -> nth 11 r VNaN <> VNaN /\ nth 12 r VNaN <> VNaN).
  { intros r Hin. apply Hr in Hin. destruct Hin as [f idx v C E ->|f p v Hf Hp E ->].
    - destruct (HN _ _ (Hc _ _ C) E) as (a & b & ->). destruct (arow_values t f idx (Some a, Some b) C) as (_ & -> & ->). split; discriminate.
    - destruct (HN _ _ (last_shape t f Hn Hc Hs Hf) E) as (a & b & ->). destruct (total_cases t p Hp) as [Hi _]. destruct (trow_entry t f p (Some a, Some b) Hi) as (_ & _ & -> & ->). split; discriminate. }
  split; apply kept_intro; try lia; intros r Hin; apply G; exact Hin.
Qed.

Theorem table_combs t : Filled t -> Finite t -> exists D, table t = Ok D /\ In "Value"%string (d_cols D) /\ In "Error"%string (d_cols D)
  /\ (forall f idx v e, Comb t f idx -> get_value t (f :: idx) = Ok (Some v, Some e) -> exists ir, In ir (d_rows D) /\ ShowsBin t D (snd ir) f idx v e)
  /\ (forall f n v e, f < size (t_cells t) -> total_name t = Some n -> get_value t (last_bin t f) = Ok (Some v, Some e) ->
        exists ir, In ir (d_rows D) /\ ShowsTotal t D (snd ir) f n v e)
  /\ (forall ir, In ir (d_rows D) ->
       (exists f idx v e, Comb t f idx /\ get_value t (f :: idx) = Ok (Some v, Some e) /\ ShowsBin t D (snd ir) f idx v e)
       \/ (exists f n v e, f < size (t_cells t) /\ total_name t = Some n /\ get_value t (last_bin t f) = Ok (Some v, Some e) /\ ShowsTotal t D (snd ir) f n v e)).
Proof.
  intros HF HN. destruct (filled_rows t HF) as (rows & Er & Hr). destruct (table_ok t rows Er) as (D & ET & EC & R1 & R2).
  destruct (value_columns t rows HF HN Hr) as [K1 K2]. exists D. split; [exact ET|].
  assert (Hn : nonneg t) by apply HF. assert (Hc := proj1 (proj2 (proj2 HF))).
  split; [rewrite EC; apply (in_map name_of _ 11); exact K1|]. split; [rewrite EC; apply (in_map name_of _ 12); exact K2|].
  split; [|split].
  - intros f idx v e C E. destruct (R2 (arow t f idx (Some v, Some e))) as (ir & Hi & Q); [apply Hr; econstructor 1; eauto|]. exists ir. split; [exact Hi|].
    apply (comb_shows t rows D (snd ir) f idx v e Hn C EC). right. exact Q.
  - intros f n v e Hf Ht E. destruct (total_col t) as [p|] eqn:Ep; [|apply total_none in Ep; congruence].
    destruct (total_cases t p Ep) as [_ X]. assert (n = name_of p) by congruence. subst n.
    destruct (R2 (trow t f p (Some v, Some e))) as (ir & Hi & Q); [apply Hr; econstructor 2; eauto|]. exists ir. split; [exact Hi|].
    apply (total_shows t rows D (snd ir) f p v e Ep EC). right. exact Q.
  - intros ir Hi. destruct (R1 ir Hi) as (r & Hin & Es). apply Hr in Hin. destruct Hin as [f idx v C E ->|f p v Hf Hp E ->].
    + left. destruct (HN _ _ (Hc _ _ C) E) as (a & b & ->). exists f, idx, a, b. split; [exact C|]. split; [exact E|].
      apply (comb_shows t rows D (snd ir) f idx a b Hn C EC). left. exact Es.
    + right. destruct (HN _ _ (last_bin_shape t f HF Hf) E) as (a & b & ->). exists f, (name_of p), a, b. split; [exact Hf|].
      split; [apply (total_cases t p Hp)|]. split; [exact E|]. apply (total_shows t rows D (snd ir) f p a b Hp EC). left. exact Es.
Qed.

(** columns left out *)
Theorem columns_left_out t D n : Filled t -> table t = Ok D -> In n columns -> plain_column n -> ~ In n (d_cols D) ->
  n <> "Value"%string -> n <> "Error"%string ->
  (exists f idx, Comb t f idx /\ In (n, VNaN) (bins_of t f idx))
  \/ (forall f idx x f' idx' x', Comb t f idx -> Comb t f' idx' -> In (n, x) (bins_of t f idx) -> In (n, x') (bins_of t f' idx') -> same x x').
Proof.
  intros HF ET Hcol Hpl Hout N1 N2. destruct (filled_rows t HF) as (rows & Er & Hr). destruct (table_ok t rows Er) as (D' & ET' & EC & _ & _).
  rewrite ET in ET'. injection ET' as <-. assert (Hn : nonneg t) by apply HF. destruct HF as (_ & Hs & Hc & Hv).
  apply (In_nth _ _ ""%string) in Hcol as (p & Hp & En). fold (name_of p) in En. change (length columns) with 13 in Hp.
  assert (Hp11 : p < 11). { destruct (Nat.lt_ge_cases p 11) as [|G]; [assumption|]. exfalso. assert (p = 11 \/ p = 12) as [-> | ->] by lia; cbn in En; congruence. }
  assert (Hk : ~ In p (kept rows)) by (intros X; apply Hout; rewrite EC, <- En; apply in_map; exact X).
  assert (ES : swapped (name_of p) = n).
  { rewrite En. unfold swapped. destruct Hpl as [P1 P2]. destruct (String.eqb_spec n "Cor A"); [contradiction|]. destruct (String.eqb_spec n "Cor C"); [contradiction|reflexivity]. }
  assert (Inn : forall f idx v, Comb t f idx -> In (n, nth p (arow t f idx v) VNaN) (bins_of t f idx)).
  { intros f idx v C. pose proof (arow_entry t f idx v Hn C p Hp11) as G. rewrite ES in G. apply dget_some_in in G; [exact G|]. intros a b; apply String.eqb_eq. }
  assert (Uni : forall f idx v x, Comb t f idx -> In (n, x) (bins_of t f idx) -> nth p (arow t f idx v) VNaN = x).
  { intros f idx v x C H. destruct (bins_in t f idx v Hn C n x H) as (q & Hq & Eq & Ex). rewrite <- Ex. f_equal.
    apply (swapped_plain _ _ Eq) in Hpl. apply name_inj; try lia. congruence. }
  destruct (kept_constant rows p Hp11 Hk) as [(r & Hin & Hnan)|Hconst].
  - apply Hr in Hin. destruct Hin as [f idx v C E ->|f q v Hf Hq E ->].
    + left. exists f, idx. split; [exact C|]. rewrite <- Hnan. apply Inn. exact C.
    + (* the total row: every entry is that of the last combination or the word total *)
      left. assert (Hlast : exists idx, Comb t f idx /\ (nth p (trow t f q v) VNaN = VNaN -> nth p (arow t f idx v) VNaN = VNaN)).
      { exists (map pred (sizes t)). assert (Hpos : Forall (fun d => 0 < d) (sizes t)).
        { unfold sizes, size in *. cbn [nth] in Hs. repeat constructor; try lia. }
        assert (C : Comb t f (map pred (sizes t))).
        { split; [exact Hf|]. unfold in_shape. clear -Hpos. induction Hpos; cbn [map]; constructor; [lia|assumption]. }
        split; [exact C|]. intros X.
        assert (EL : forall l : list dval, last l VNaN = nth (pred (length l)) l VNaN).
        { clear. induction l as [|a [|b l] IH]; [reflexivity|reflexivity|]. cbn [last] in *. rewrite IH. reflexivity. }
        unfold arow. rewrite <- (labels_length t Hn).
        assert (EP : pick (labels t) (map pred (map (@length dval) (labels t))) = map (fun l => last l VNaN) (labels t)).
        { generalize (labels t). clear -EL. induction l as [|a l IH]; [reflexivity|]. cbn [map pick]. rewrite IH, EL. reflexivity. }
        rewrite EP. destruct (total_cases t q Hq) as [Hi _]. unfold trow, labels in X. unfold labels. cbn [map set_nth row_of nth] in X |- *.
        cbn [In] in Hi. repeat destruct Hi as [<-|Hi]; try contradiction;
        do 11 (destruct p as [|p]; [cbn [set_nth nth] in X |- *; first [discriminate X|exact X]|]); lia. }
      destruct Hlast as (idx & C & Himp). exists f, idx. split; [exact C|]. rewrite <- (Himp Hnan). apply Inn. exact C.
  - right. intros f idx x f' idx' x' C C' H H'.
    destruct (Hv (f :: idx) (Hc _ _ C)) as (v & Ev). destruct (Hv (f' :: idx') (Hc _ _ C')) as (v' & Ev').
    rewrite <- (Uni f idx v x C H), <- (Uni f' idx' v' x' C' H').
    apply Hconst; apply Hr; [exact (FromComb _ _ f idx v C Ev eq_refl)|exact (FromComb _ _ f' idx' v' C' Ev' eq_refl)].
Qed.

(** the coordinates of a mesh are under the wrong names *)
Theorem mesh_axes t D f idx v e : Filled t -> Finite t -> table t = Ok D -> Comb t f idx -> get_value t (f :: idx) = Ok (Some v, Some e) ->
  exists ir, In ir (d_rows D) /\ ShowsBin t D (snd ir) f idx v e
    /\ (forall x, In ("Cor C"%string, x) (bins_of t f idx) -> Shows (d_cols D) (snd ir) "Cor A" x)
    /\ (forall x, In ("Cor A"%string, x) (bins_of t f idx) -> Shows (d_cols D) (snd ir) "Cor C" x).
Proof.
  intros HF HN ET C E. destruct (filled_rows t HF) as (rows & Er & Hr). destruct (table_ok t rows Er) as (D' & ET' & EC & R1 & R2).
  rewrite ET in ET'. injection ET' as <-. assert (Hn : nonneg t) by apply HF.
  destruct (R2 (arow t f idx (Some v, Some e))) as (ir & Hi & Q); [apply Hr; econstructor 1; eauto|]. exists ir. split; [exact Hi|].
  destruct (comb_shows t rows D (snd ir) f idx v e Hn C EC (or_intror Q)) as [A B]. split; [exact A|]. split; intros x H; exact (B _ _ H).
Qed.

(** a value that is not a number takes the column away *)
Theorem nan_columns t D f idx x : Filled t -> table t = Ok D -> Comb t f idx -> get_value t (f :: idx) = Ok x ->
  (fst x = None -> ~ In "Value"%string (d_cols D)) /\ (snd x = None -> ~ In "Error"%string (d_cols D)).
Proof.
  intros HF ET C E. destruct (filled_rows t HF) as (rows & Er & Hr). destruct (table_ok t rows Er) as (D' & ET' & EC & _ & _).
  rewrite ET in ET'. injection ET' as <-. destruct (arow_values t f idx x C) as (_ & V1 & V2).
  assert (Hin : In (arow t f idx x) rows) by (apply Hr; econstructor 1; eauto).
  assert (G : forall p n, p < 13 -> n = name_of p -> nth p (arow t f idx x) VNaN = VNaN -> ~ In n (d_cols D)).
  { intros p n Hp -> HV X. rewrite EC in X. apply in_map_iff in X as (q & Eq & Hq). destruct (kept_range _ _ Hq) as [Hq13 HK].
    apply name_inj in Eq; [|assumption|assumption]. subst q. exact (HK _ Hin HV). }
  split; intros HX; [apply (G 11); [lia|reflexivity|rewrite V1, HX; reflexivity]|apply (G 12); [lia|reflexivity|rewrite V2, HX; reflexivity]].
Qed.
