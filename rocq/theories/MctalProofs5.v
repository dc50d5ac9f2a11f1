(** Proofs about the tables of a tally. *)
From Coq Require Import Lia ZArith.
From Verif Require Import PyBase PyLemmas PyStr PyStrLemmas PyText D1SProofs2 MatProofs MatProofs2 MatProofs4 DataModel MeshModel MeshSpec MeshProofs MctalModel MctalSpec MctalProofs MctalProofs2.
Open Scope nat_scope.

(** ** labels *)
Lemma or_nan_length l : length (or_nan l) = Nat.max 1 (length l).
Proof. destruct l; reflexivity. Qed.
Lemma or_nan_bin bins i : i < size bins -> nth i (or_nan (map VQ bins)) VNaN = bin bins i.
Proof.
  unfold size, bin. intros H. destruct bins as [|b bins]; [cbn in H; assert (i = 0) by lia; subst; reflexivity|].
  change (or_nan (map VQ (b :: bins))) with (map VQ (b :: bins)). rewrite (nth_indep _ VNaN (VQ 0)) by (rewrite map_length; cbn [length] in *; lia).
  rewrite map_nth. destruct (nth_error (b :: bins) i) as [q|] eqn:E; [rewrite (nth_error_nth _ _ _ E); reflexivity|].
  apply nth_error_None in E. cbn [length] in *. lia.
Qed.
Lemma or_nan_count n i : i < Nat.max 1 (Z.to_nat n) -> nth i (or_nan (map vnat (seq 0 (Z.to_nat n)))) VNaN = counted n i.
Proof.
  unfold counted. intros H. destruct (Z.leb_spec n 0).
  - replace (Z.to_nat n) with 0 in * by lia. cbn in *. assert (i = 0) by lia. subst. reflexivity.
  - destruct (Z.to_nat n) as [|k] eqn:E; [lia|]. change (or_nan (map vnat (seq 0 (S k)))) with (map vnat (seq 0 (S k))).
    rewrite (nth_indep _ VNaN (vnat 0)) by (rewrite map_length, seq_length; lia). rewrite map_nth, seq_nth by lia. reflexivity.
Qed.
Lemma seg_labels n s : s < n -> nth s (map vnat (seq 1 n)) VNaN = vnat (S s).
Proof. intros H. rewrite (nth_indep _ VNaN (vnat 0)) by (rewrite map_length, seq_length; lia). rewrite map_nth, seq_nth by lia. reflexivity. Qed.
Lemma cell_labels_length l : forall k, length (cell_labels k l) = length l.
Proof. induction l as [|c l IH]; intros k; [reflexivity|]. cbn [cell_labels length]. f_equal. apply IH. Qed.
Lemma cell_labels_nth l : forall k f, nth_error (cell_labels k l) f = match nth_error l f with
  | None => None | Some q => Some (if (qtrunc q =? 0)%Z then VS (s2l "Input " ++ str_of_N (N.of_nat (S (k + f)))) else VQ (inject_Z (qtrunc q))) end.
Proof.
  induction l as [|c l IH]; intros k f; [destruct f; reflexivity|]. destruct f as [|f]; cbn [cell_labels nth_error].
  - rewrite Nat.add_1_r, Nat.add_0_r. reflexivity.
  - rewrite IH. replace (S k + f) with (k + S f) by lia. reflexivity.
Qed.
Lemma cells_nth t f : f < size (t_cells t) -> nth_error (cells_of t) f = Some (cell_name t f).
Proof.
  unfold cells_of, cell_name, size. intros H. destruct (t_cells t) as [|c cs] eqn:E.
  - cbn in *. assert (f = 0) by lia. subst. reflexivity.
  - change (or_nan (cell_labels 0 (c :: cs))) with (cell_labels 0 (c :: cs)). rewrite cell_labels_nth. cbn [Nat.add].
    destruct (nth_error (c :: cs) f) eqn:X; [reflexivity|]. apply nth_error_None in X. cbn [length] in *. lia.
Qed.
Lemma cells_length t : length (cells_of t) = size (t_cells t).
Proof. unfold cells_of, size. rewrite or_nan_length, cell_labels_length. reflexivity. Qed.

Definition nonneg (t : tally) : Prop := (0 <= t_nCells t /\ 0 <= t_nDir t /\ 0 <= a_n (t_seg t) /\ 0 <= a_n (t_mul t))%Z.
Lemma seg_count_eq t : nonneg t -> Z.to_nat (seg_count t) = nth 2 (sizes t) 0.
Proof. intros (_ & _ & H & _). unfold seg_count, one1. cbn [sizes nth]. destruct (Z.eqb_spec (a_n (t_seg t)) 0), (a_tc (t_seg t)) as [[|]|]; f_equal; lia. Qed.
Lemma labels_length t : nonneg t -> map (@length dval) (labels t) = sizes t.
Proof.
  intros H. pose proof (seg_count_eq t H) as Es. unfold labels. cbn [map]. rewrite !or_nan_length, !map_length, !seq_length, Es. reflexivity.
Qed.

(** the entries of a row *)
Lemma in_shape10 ds idx : length ds = 10 -> in_shape ds idx -> exists d u s m c e tm k j i, idx = [d; u; s; m; c; e; tm; k; j; i].
Proof.
  intros Hl H. apply Forall2_length in H. rewrite Hl in H.
  do 10 (destruct idx as [|? idx]; [discriminate H|]). destruct idx; [|discriminate H]. repeat eexists.
Qed.
Definition arow (t : tally) (f : nat) (idx : list nat) (v : fl * fl) : list dval := row_of (cell_name t f) (pick (labels t) idx) v.
Definition swapped (n : string) : string := if String.eqb n "Cor A" then "Cor C" else if String.eqb n "Cor C" then "Cor A" else n.
Lemma arow_entry t f idx v : nonneg t -> Comb t f idx -> forall p, p < 11 ->
  dget String.eqb (swapped (name_of p)) (bins_of t f idx) = Some (nth p (arow t f idx v) VNaN).
Proof.
  intros Hn [Hf Hs] p Hp. destruct (in_shape10 (sizes t) _ eq_refl Hs) as (d & u & s & m & c & e & tm & k & j & i & ->).
  pose proof (seg_count_eq t Hn) as Es. unfold sizes in Hs.
  repeat match goal with H : in_shape _ _ |- _ => unfold in_shape in H | H : Forall2 _ (_ :: _) (_ :: _) |- _ => inversion H; subst; clear H end.
  unfold arow, labels. cbn [pick row_of].
  rewrite !or_nan_bin, !or_nan_count, seg_labels by (try assumption; rewrite Es; cbn [sizes nth]; assumption).
  do 11 (destruct p as [|p]; [reflexivity|]). lia.
Qed.
Lemma arow_values t f idx v : Comb t f idx -> length (arow t f idx v) = 13
  /\ nth 11 (arow t f idx v) VNaN = of_fl (fst v) /\ nth 12 (arow t f idx v) VNaN = of_fl (snd v).
Proof. intros [_ Hs]. destruct (in_shape10 (sizes t) _ eq_refl Hs) as (d & u & s & m & c & e & tm & k & j & i & ->). cbn [arow labels pick row_of]. auto. Qed.

(** ** all rows *)
Definition trow (t : tally) (f : nat) (p : nat) (v : fl * fl) : list dval :=
  set_nth p (VS (s2l "total")) (row_of (cell_name t f)
    (set_nth 3 (vnat (length (nth 3 (labels t) []) - 1)) (map (fun l => last l VNaN) (labels t))) v).
Definition total_pos (t : tally) := total_col t.

Lemma mapM_total {A B} (g : A -> res B) l : (forall x, In x l -> exists y, g x = Ok y) -> exists ys, mapM g l = Ok ys /\ forall y, In y ys <-> exists x, In x l /\ g x = Ok y.
Proof.
  induction l as [|x l IH]; intros H; cbn [mapM].
  - exists []. split; [reflexivity|]. intros y. split; [intros []|intros (z & [] & _)].
  - destruct (H x (or_introl eq_refl)) as (y & E). destruct IH as (ys & E2 & Hy); [intros z Hz; apply H; right; exact Hz|].
    rewrite E, E2. cbn [bind]. exists (y :: ys). split; [reflexivity|]. intros z. cbn [In]. split.
    + intros [<-|Hz]; [exists x; auto|]. apply Hy in Hz as (w & ? & ?). exists w; auto.
    + intros (w & [<-|Hw] & Ew); [left; congruence|]. right. apply Hy. exists w; auto.
Qed.
Lemma last_shape t f : nonneg t -> (forall g idx, Comb t g idx -> in_shape (shape t) (g :: idx)) -> 0 < nth 2 (sizes t) 0 ->
  f < size (t_cells t) -> in_shape (shape t) (last_bin t f).
Proof.
  intros Hn H Hs Hf. assert (C : Comb t f (repeat 0 10)).
  { split; [exact Hf|]. unfold sizes, size in *. cbn [repeat nth] in *. repeat constructor; try lia. }
  specialize (H _ _ C). unfold last_bin. unfold shape in *. destruct (t_meshInfo t) as [[[mi na] nb] nc]. cbn [map tl] in *. cbn [repeat] in H. unfold in_shape in *.
  repeat match goal with H : Forall2 _ (_ :: _) (_ :: _) |- _ => inversion H; subst; clear H end.
  repeat constructor; try lia.
Qed.
Lemma last_index_bin t f : last_index t f = last_bin t f.
Proof. unfold last_index, last_bin. f_equal. apply map_ext. intros n. lia. Qed.

Lemma rows_ok t : nonneg t -> (forall f idx, Comb t f idx -> in_shape (shape t) (f :: idx)) -> 0 < nth 2 (sizes t) 0 ->
  (forall idx, in_shape (shape t) idx -> exists v, get_value t idx = Ok v) ->
  exists rows, all_rows t 0 (cells_of t) = Ok rows
  /\ forall r, In r rows <-> (exists f idx v, Comb t f idx /\ get_value t (f :: idx) = Ok v /\ r = arow t f idx v)
      \/ (exists f p v, f < size (t_cells t) /\ total_col t = Some p /\ get_value t (last_bin t f) = Ok v /\ r = trow t f p v).
Proof.
  intros Hn Hc Hs Hv.
  assert (G : forall fns k, (forall f fn, nth_error fns f = Some fn -> k + f < size (t_cells t) /\ fn = cell_name t (k + f)) ->
    exists rows, all_rows t k fns = Ok rows /\ forall r, In r rows <->
      (exists f idx v, f < length fns /\ Comb t (k + f) idx /\ get_value t ((k + f) :: idx) = Ok v /\ r = arow t (k + f) idx v)
      \/ (exists f p v, f < length fns /\ total_col t = Some p /\ get_value t (last_bin t (k + f)) = Ok v /\ r = trow t (k + f) p v)).
  { induction fns as [|fn fns IH]; intros k Hk.
    - exists []. split; [reflexivity|]. intros r. split; [intros []|]. intros [(f & _ & _ & H & _)|(f & _ & _ & H & _)]; cbn in H; lia.
    - destruct (Hk 0 fn eq_refl) as [Hk0 Efn]. rewrite Nat.add_0_r in Hk0, Efn. cbn [all_rows].
      assert (E1 : exists rs, cell_rows t k fn = Ok rs /\ forall r, In r rs <-> exists idx v, Comb t k idx /\ get_value t (k :: idx) = Ok v /\ r = arow t k idx v).
      { unfold cell_rows. rewrite (labels_length t Hn). destruct (mapM_total (fun idx => do v <- get_value t (k :: idx); Ok (row_of fn (pick (labels t) idx) v)) (cart (sizes t))) as (ys & E & Hy).
        - intros idx Hi. apply cart_in in Hi. destruct (Hv (k :: idx)) as (v & ->); [apply Hc; split; assumption|]. cbn [bind]. eauto.
        - exists ys. split; [exact E|]. intros r. rewrite Hy. split.
          + intros (idx & Hi & Er). apply cart_in in Hi. destruct (get_value t (k :: idx)) as [v|] eqn:Ev; [|discriminate Er]. cbn [bind] in Er. injection Er as <-.
            exists idx, v. split; [split; assumption|]. split; [exact Ev|]. unfold arow. rewrite Efn. reflexivity.
          + intros (idx & v & [_ Hi] & Ev & ->). exists idx. split; [apply cart_in; exact Hi|]. rewrite Ev. cbn [bind]. unfold arow. rewrite Efn. reflexivity. }
      destruct E1 as (rs & -> & Hrs). cbn [bind].
      destruct (Hv (last_bin t k)) as (vl & El); [apply last_shape; assumption|]. rewrite last_index_bin, El. cbn [bind].
      destruct (IH (S k)) as (rest & Erest & Hrest).
      { intros f fn' Hf. destruct (Hk (S f) fn' Hf) as [A B]. replace (S k + f) with (k + S f) by lia. auto. }
      assert (E2 : exists tot, match total_col t with None => Ok [] | Some p => if (seg_count t <=? 0)%Z then Err UnboundLocalError else do x <- total_row t k fn p; Ok [x] end = Ok tot
        /\ forall r, In r tot <-> exists p v, total_col t = Some p /\ get_value t (last_bin t k) = Ok v /\ r = trow t k p v).
      { destruct (total_col t) as [p|].
        - pose proof (seg_count_eq t Hn). replace (seg_count t <=? 0)%Z with false by (symmetry; apply Z.leb_gt; lia).
          unfold total_row. rewrite last_index_bin, El. cbn [bind]. eexists. split; [reflexivity|]. intros r. cbn [In]. split.
          + intros [<-|[]]. exists p, vl. split; [reflexivity|]. split; [first [exact El|reflexivity]|]. unfold trow. rewrite Efn. reflexivity.
          + intros (p' & v & Ep & Ev & ->). injection Ep as <-. left. unfold trow. rewrite Efn. try rewrite El in Ev. injection Ev as <-. reflexivity.
        - exists []. split; [reflexivity|]. intros r. split; [intros []|]. intros (p & v & X & _). discriminate X. }
      destruct E2 as (tot & -> & Htot). cbn [bind]. rewrite Erest. cbn [bind]. eexists. split; [reflexivity|].
      intros r. rewrite !in_app_iff, Hrs, Htot, Hrest. split.
      + intros [(idx & v & C & Ev & ->)|[(p & v & Ep & Ev & ->)|[(f & idx & v & Hf & C & Ev & ->)|(f & p & v & Hf & Ep & Ev & ->)]]].
        * left. exists 0, idx, v. rewrite Nat.add_0_r. cbn [length]. repeat split; try lia; try apply C; exact Ev.
        * right. exists 0, p, v. rewrite Nat.add_0_r. cbn [length]. repeat split; try lia; assumption.
        * left. exists (S f), idx, v. replace (k + S f) with (S k + f) by lia. cbn [length]. repeat split; try lia; try apply C; exact Ev.
        * right. exists (S f), p, v. replace (k + S f) with (S k + f) by lia. cbn [length]. repeat split; try lia; assumption.
      + intros [(f & idx & v & Hf & C & Ev & ->)|(f & p & v & Hf & Ep & Ev & ->)]; (destruct f as [|f];
          [rewrite ?Nat.add_0_r in *|replace (k + S f) with (S k + f) in * by lia; cbn [length] in Hf]).
        * left. exists idx, v. auto.
        * right. right. left. exists f, idx, v. repeat split; try lia; try apply C; exact Ev.
        * right. left. exists p, v. auto.
        * right. right. right. exists f, p, v. repeat split; try lia; assumption. }
  destruct (G (cells_of t) 0) as (rows & E & H).
  { intros f fn Hf. assert (f < size (t_cells t)) by (rewrite <- cells_length; apply nth_error_Some; rewrite Hf; discriminate). cbn [Nat.add]. split; [assumption|].
    rewrite cells_nth in Hf by assumption. congruence. }
  exists rows. split; [exact E|]. intros r. rewrite H. cbn [Nat.add]. rewrite cells_length. split.
  - intros [(f & idx & v & Hf & C & Ev & ->)|(f & p & v & Hf & Ep & Ev & ->)]; [left; exists f, idx, v; auto|right; exists f, p, v; auto].
  - intros [(f & idx & v & C & Ev & ->)|(f & p & v & Hf & Ep & Ev & ->)]; [left; exists f, idx, v; destruct C; repeat split; auto|right; exists f, p, v; auto].
Qed.

(** ** the columns and rows that stay *)
Lemma name_inj p q : p < 13 -> q < 13 -> name_of p = name_of q -> p = q.
Proof.
  intros Hp Hq. apply (proj1 (NoDup_nth columns ""%string)); [|exact Hp|exact Hq].
  unfold columns. repeat constructor; cbn [In]; intros H; repeat destruct H as [H|H]; try discriminate H; exact H.
Qed.
Lemma same_join a b c : same a c -> same b c -> same a b.
Proof.
  destruct a as [a|a|], b as [b|b|], c as [c|c|]; cbn [same]; intros H1 H2; try contradiction; auto; [rewrite H1, H2; reflexivity|congruence].
Qed.
Lemma kept_range rows p : In p (kept rows) -> p < 13 /\ forall r, In r rows -> nth p r VNaN <> VNaN.
Proof.
  unfold kept. rewrite !filter_In, in_seq. intros [[H1 H2] _]. split; [lia|]. rewrite forallb_forall in H2. intros r Hr E.
  specialize (H2 (nth p r VNaN)). rewrite E in H2. cbn in H2. assert (X : In VNaN (column p rows)) by (unfold column; apply in_map_iff; exists r; auto). discriminate (H2 X).
Qed.
Lemma kept_intro rows p : p < 13 -> (forall r, In r rows -> nth p r VNaN <> VNaN) ->
  (11 <= p \/ length rows <= 1 \/ exists r r', In r rows /\ In r' rows /\ ~ same (nth p r VNaN) (nth p r' VNaN)) -> In p (kept rows).
Proof.
  intros Hp Hn H. unfold kept. rewrite !filter_In, in_seq. split; [split; [lia|]|].
  - apply forallb_forall. intros v Hv. unfold column in Hv. apply in_map_iff in Hv as (r & <- & Hr). specialize (Hn r Hr). destruct (nth p r VNaN); [reflexivity|reflexivity|contradiction].
  - rewrite !Bool.orb_true_iff. destruct H as [H|[H|(r & r' & Hr & Hr' & H)]]; [left; left; apply Nat.leb_le; exact H|left; right; apply Nat.leb_le; exact H|].
    right. apply Bool.negb_true_iff. apply Bool.not_true_is_false. intros X. apply H. rewrite forallb_forall in X.
    assert (Y : forall a, In a rows -> same (nth p a VNaN) (hd VNaN (column p rows))).
    { intros a Ha. specialize (X (nth p a VNaN) (in_map (fun r => nth p r VNaN) _ _ Ha)).
      destruct (nth p a VNaN), (hd VNaN (column p rows)); cbn in X |- *; try discriminate X; [apply Qeq_bool_iff; exact X|apply str_eqb_eq; exact X]. }
    pose proof (Y r Hr) as Y1. pose proof (Y r' Hr') as Y2. exact (same_join _ _ _ Y1 Y2).
Qed.
Lemma kept_constant rows p : p < 11 -> ~ In p (kept rows) -> (exists r, In r rows /\ nth p r VNaN = VNaN) \/ (forall r r', In r rows -> In r' rows -> same (nth p r VNaN) (nth p r' VNaN)).
Proof.
  intros Hp H. destruct (forallb notnan (column p rows)) eqn:E.
  - right. intros r r' Hr Hr'. destruct (forallb (fun v => veq v (hd VNaN (column p rows))) (column p rows)) eqn:E2.
    + rewrite forallb_forall in E2. assert (Y : forall a, In a rows -> same (nth p a VNaN) (hd VNaN (column p rows))).
      { intros a Ha. specialize (E2 (nth p a VNaN) (in_map (fun r => nth p r VNaN) _ _ Ha)).
        destruct (nth p a VNaN), (hd VNaN (column p rows)); cbn in E2 |- *; try discriminate E2; [apply Qeq_bool_iff; exact E2|apply str_eqb_eq; exact E2]. }
      pose proof (Y r Hr) as Y1. pose proof (Y r' Hr') as Y2. exact (same_join _ _ _ Y1 Y2).
    + exfalso. apply H. unfold kept. rewrite !filter_In, in_seq, E, E2. cbn. rewrite !Bool.orb_true_r. repeat split; lia.
  - left. apply Bool.not_true_iff_false in E. destruct (existsb (fun r => negb (notnan (nth p r VNaN))) rows) eqn:X.
    + apply existsb_exists in X as (r & Hr & X). exists r. split; [exact Hr|]. destruct (nth p r VNaN); [discriminate X|discriminate X|reflexivity].
    + exfalso. apply E. apply forallb_forall. intros v Hv. apply in_map_iff in Hv as (r & <- & Hr). destruct (notnan (nth p r VNaN)) eqn:Y; [reflexivity|].
      assert (existsb (fun r => negb (notnan (nth p r VNaN))) rows = true) by (apply existsb_exists; exists r; rewrite Y; auto). congruence.
Qed.
Lemma drop_in rows : forall seen ir, In ir (drop_dup seen rows) -> In ir rows.
Proof.
  induction rows as [|[i r] rows IH]; intros seen ir H; [exact H|]. cbn [drop_dup] in H. destruct (memb row_eqb r seen).
  - right. eapply IH; exact H.
  - destruct H as [<-|H]; [left; reflexivity|right; eapply IH; exact H].
Qed.
Lemma drop_keeps rows : forall seen i r, In (i, r) rows -> row_eqb r r = true ->
  memb row_eqb r seen = true \/ exists ir, In ir (drop_dup seen rows) /\ row_eqb r (snd ir) = true.
Proof.
  induction rows as [|[i0 r0] rows IH]; intros seen i r H Hr; [destruct H|]. cbn [drop_dup]. destruct (memb row_eqb r0 seen) eqn:E.
  - destruct H as [H|H]; [injection H as -> ->; left; exact E|]. eapply IH; eassumption.
  - destruct H as [H|H].
    + injection H as -> ->. right. exists (i, r). split; [left; reflexivity|exact Hr].
    + destruct (IH (r0 :: seen) i r H Hr) as [M|(ir & H1 & H2)].
      * cbn [memb] in M. apply Bool.orb_true_iff in M as [M|M]; [right; exists (i0, r0); split; [left; reflexivity|exact M]|left; exact M].
      * right. exists ir. split; [right; exact H1|exact H2].
Qed.
Lemma row_eqb_refl r : Forall (fun v => v <> VNaN) r -> row_eqb r r = true.
Proof.
  induction 1 as [|v r Hv HF IH]; [reflexivity|]. cbn [row_eqb]. rewrite IH, Bool.andb_true_r. destruct v; cbn; [apply Qeq_bool_iff; reflexivity|apply str_eqb_eq; reflexivity|contradiction].
Qed.
Lemma row_eqb_nth a : forall b p x, row_eqb a b = true -> nth_error a p = Some x -> exists y, nth_error b p = Some y /\ same y x.
Proof.
  induction a as [|u a IH]; intros b p x H E; [destruct p; discriminate E|]. destruct b as [|w b]; [discriminate H|]. cbn [row_eqb] in H. apply Bool.andb_true_iff in H as [H1 H2].
  destruct p as [|p]; cbn [nth_error] in *; [|eapply IH; eassumption]. injection E as <-. exists w. split; [reflexivity|].
  destruct u, w; cbn in H1 |- *; try discriminate H1; [symmetry; apply Qeq_bool_iff; exact H1|symmetry; apply str_eqb_eq; exact H1].
Qed.
Lemma combine_in {A} (rows : list A) : forall k r, In r rows <-> exists i, In (i, r) (combine (seq k (length rows)) rows).
Proof.
  induction rows as [|x rows IH]; intros k r; cbn [combine seq length In]; [split; [tauto|intros [i []]]|]. rewrite (IH (S k)). split.
  - intros [<-|[i H]]; [exists k; auto|exists i; auto].
  - intros [i [H|H]]; [injection H as _ <-; auto|right; exists i; exact H].
Qed.
(** a table: its rows are the selections of all rows, and every row is there *)
Lemma table_ok t rows : all_rows t 0 (cells_of t) = Ok rows ->
  exists D, table t = Ok D /\ d_cols D = map name_of (kept rows)
  /\ (forall ir, In ir (d_rows D) -> exists r, In r rows /\ snd ir = select (kept rows) r)
  /\ (forall r, In r rows -> exists ir, In ir (d_rows D) /\ row_eqb (select (kept rows) r) (snd ir) = true).
Proof.
  intros E. unfold table. rewrite E. cbn [bind]. eexists. split; [reflexivity|]. cbn [d_cols d_rows]. split; [reflexivity|]. split.
  - intros [i x] H. apply drop_in in H. apply in_combine_r in H. apply in_map_iff in H as (r & <- & Hr). exists r. auto.
  - intros r Hr. assert (Hi : exists i, In (i, select (kept rows) r) (combine (seq 0 (length rows)) (map (select (kept rows)) rows))).
    { rewrite <- (map_length (select (kept rows)) rows). apply combine_in. apply in_map. exact Hr. }
    destruct Hi as [i Hi]. destruct (drop_keeps _ [] _ _ Hi) as [X|X]; [|discriminate X|exact X].
    apply row_eqb_refl. apply Forall_forall. intros v Hv. unfold select in Hv. apply in_map_iff in Hv as (p & <- & Hp). apply kept_range in Hp as [_ Hp]. apply Hp. exact Hr.
Qed.
Lemma select_shows ks r n p x : Forall (fun p => p < 13) ks -> p < 13 -> n = name_of p -> nth p r VNaN = x -> forall r', (r' = select ks r \/ row_eqb (select ks r) r' = true) ->
  Shows (map name_of ks) r' n x.
Proof.
  intros Hk Hp -> <- r' Hr' q Hq. rewrite nth_error_map in Hq. destruct (nth_error ks q) as [p'|] eqn:Eq; [|discriminate Hq]. injection Hq as Hq.
  assert (p' = p) by (apply name_inj; [rewrite Forall_forall in Hk; apply Hk; eapply nth_error_In; exact Eq|exact Hp|exact Hq]). subst p'.
  assert (E : nth_error (select ks r) q = Some (nth p r VNaN)) by (unfold select; rewrite nth_error_map, Eq; reflexivity).
  destruct Hr' as [->|Hr']; [|eapply row_eqb_nth; eassumption].
  exists (nth p r VNaN). split; [exact E|]. destruct (nth p r VNaN); cbn; [reflexivity|reflexivity|exact I].
Qed.
