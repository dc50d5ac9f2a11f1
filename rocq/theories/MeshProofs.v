(** Proofs about the readers of meshtal data (C41) *)
From Coq Require Import Lia ZArith.
From Verif Require Import PyBase PyLemmas PyStr PyStrLemmas PyText DataModel DataProofs2 MeshModel MeshSpec.
Open Scope nat_scope.

Lemma loop_each A (body : file -> res (A * file)) (R : nat -> A -> Prop) n : forall (P : nat -> Txt) ls rest,
  (forall i p r, i < n -> P i p -> exists y, body (p ++ r) = Ok (y, r) /\ R i y) ->
  Each n P ls ->
  exists ys, loop n body (ls ++ rest) = Ok (ys, rest) /\ length ys = n /\ forall i, i < n -> exists y, nth_error ys i = Some y /\ R i y.
Proof.
  revert R. induction n as [|n IH]; intros R P ls rest Hb (ps & -> & Hn & Hp).
  - destruct ps; [|discriminate Hn]. exists []. repeat split. intros i Hi. lia.
  - destruct ps as [|p ps]; [discriminate Hn|]. cbn [loop concat].
    rewrite <- app_assoc.
    destruct (Hb 0 p (concat ps ++ rest)) as (y & E & Ry); [lia|exact (Hp 0 p eq_refl)|].
    rewrite E. cbn [bind].
    destruct (IH (fun i => R (S i)) (fun i => P (S i)) (concat ps) rest) as (ys & E2 & Hl & Hy).
    + intros i q r Hi Hq. apply (Hb (S i)); [lia|exact Hq].
    + exists ps. repeat split; [injection Hn; auto|]. intros i q Hq. exact (Hp (S i) q Hq).
    + rewrite E2. cbn [bind]. exists (y :: ys). split; [reflexivity|]. split; [cbn [length]; lia|].
      intros [|i] Hi; [exists y; auto|]. cbn [nth_error]. apply Hy. lia.
Qed.

Lemma skip_app (a b : file) n : length a = n -> skipline n (a ++ b) = b.
Proof. intros <-. unfold skipline. induction a; auto. Qed.

Lemma mapM_numerals ws : forall v : nat -> Q, (forall c w, nth_error ws c = Some w -> numeral w (v c)) ->
  exists qs, mapM parse_float ws = Ok qs /\ length qs = length ws /\ forall c, c < length ws -> nth_error qs c = Some (v c).
Proof.
  induction ws as [|w ws IH]; intros v Hv.
  - exists []. repeat split. cbn. lia.
  - cbn [mapM]. rewrite (Hv 0 w eq_refl). cbn [bind].
    destruct (IH (fun c => v (S c))) as (qs & E & L & Hq). { intros c x Hx. exact (Hv (S c) x Hx). }
    rewrite E. cbn [bind]. exists (v 0 :: qs). split; [reflexivity|]. split; [cbn [length]; lia|].
    intros [|c] Hc; [reflexivity|]. cbn [nth_error]. apply Hq. cbn [length] in Hc. lia.
Qed.

Lemma rows_ok nr nc x ls rest : Each nr (fun r => Row nc (x r)) ls ->
  exists rows, read_rows nr nc (ls ++ rest) = Ok (rows, rest) /\
    forall r c, r < nr -> c < nc -> exists row, nth_error rows r = Some row /\ nth_error row c = Some (x r c).
Proof.
  intros H. unfold read_rows.
  destruct (loop_each (list Q) (fun f => let (l, f1) := readline f in
                    do xs <- mapM parse_float (tl (split l));
                    do row <- assign nc xs; Ok (row, f1)) (fun r row => forall c, c < nc -> nth_error row c = Some (x r c)) nr (fun r => Row nc (x r)) ls rest) as (ys & E & L & Hy).
  - intros i p r Hi (l & lab & ws & -> & Hs & Hw & Hv). cbn [readline app hd tl].
    rewrite Hs. cbn [tl].
    destruct (mapM_numerals ws (x i) Hv) as (qs & E & Lq & Hq). rewrite E. cbn [bind].
    unfold assign. rewrite Lq, Hw, Nat.eqb_refl. cbn [bind]. exists qs. split; [reflexivity|]. rewrite <- Hw. exact Hq.
  - exact H.
  - exists ys. split; [exact E|]. intros r c Hr Hc. destruct (Hy r Hr) as (row & E2 & Hr2). exists row. auto.
Qed.

Lemma table_ok nr nc x ls rest : (Any 2 >> Each nr (fun r => Row nc (x r)) >> Any 1) ls ->
  exists rows, read_table nr nc (ls ++ rest) = Ok (rows, rest) /\
    forall r c, r < nr -> c < nc -> exists row, nth_error rows r = Some row /\ nth_error row c = Some (x r c).
Proof.
  intros (a & b & -> & Ha & c & d & -> & Hc & Hd). unfold read_table.
  repeat rewrite <- app_assoc. rewrite (skip_app a _ 2 Ha).
  destruct (rows_ok nr nc x c (d ++ rest) Hc) as (rows & E & Hr). rewrite E. cbn [bind].
  rewrite (skip_app d rest 1 Hd). exists rows. auto.
Qed.

Lemma block_ok nr nc x ls rest : Tables nr nc x ls ->
  exists b, read_block nr nc (ls ++ rest) = Ok (b, rest) /\ forall r c, r < nr -> c < nc -> pick2 b r c = Some (x r c).
Proof.
  intros (a0 & b0 & -> & Ha0 & a1 & b1 & -> & Ha1 & a2 & b2 & -> & Ha2 & a3 & b3 & -> & Ha3 & H).
  unfold read_block. repeat rewrite <- app_assoc. rewrite (skip_app a0 _ 2 Ha0).
  destruct (table_ok nr nc (fun r c => fst (x r c)) (a1 ++ a2 ++ a3) (b3 ++ rest)) as (v & Ev & Hv).
  { exists a1, (a2 ++ a3). split; [reflexivity|]. split; [exact Ha1|]. exists a2, a3. auto. }
  repeat rewrite <- app_assoc in Ev. rewrite Ev. cbn [bind].
  destruct (table_ok nr nc (fun r c => snd (x r c)) b3 rest H) as (e & Ee & He). rewrite Ee. cbn [bind].
  exists (v, e). split; [reflexivity|]. intros r c Hr Hc. unfold pick2. cbn [fst snd].
  destruct (Hv r c Hr Hc) as (rv & E1 & E2). destruct (He r c Hr Hc) as (re & E3 & E4).
  rewrite E1, E3, E2, E4. destruct (x r c); reflexivity.
Qed.

Lemma blocks_ok nb nr nc x ls rest : Blocks nb nr nc x ls ->
  exists bs, read_blocks nb nr nc (ls ++ rest) = Ok (bs, rest) /\
    forall b r c, b < nb -> r < nr -> c < nc -> exists blk, nth_error bs b = Some blk /\ pick2 blk r c = Some (x b r c).
Proof.
  intros H. unfold read_blocks.
  unfold Blocks in H. edestruct (fun Hb => loop_each _ (fun f => do '(b, f1) <- read_block nr nc f; Ok (b, skipline 1 f1))
     (fun b blk => forall r c, r < nr -> c < nc -> pick2 blk r c = Some (x b r c)) nb _ ls rest Hb H) as (ys & E & L & Hy).
  - intros i p r Hi (a & b & -> & Ha & Hb). rewrite <- app_assoc.
    destruct (block_ok nr nc (x i) a (b ++ r) Ha) as (blk & E & Hk). rewrite E. cbn [bind].
    rewrite (skip_app b r 1 Hb). exists blk. auto.
  - exists ys. split; [exact E|]. intros b r c Hb Hr Hc. destruct (Hy b Hb) as (blk & E2 & H2). exists blk. auto.
Qed.

Lemma bins_ok times nt ne nb nr nc x ls rest : (times = false -> nt = 1) -> BlockData times nt ne nb nr nc x ls ->
  exists d, loop ne (read_energy times nt nb nr nc) (ls ++ rest) = Ok (d, rest) /\
    forall t e b r c, t < nt -> e < ne -> b < nb -> r < nr -> c < nc -> wrk d t e b r c = Some (x t e b r c).
Proof.
  intros Ht H.
  unfold BlockData in H. edestruct (fun Hb => loop_each _ (read_energy times nt nb nr nc)
     (fun e d1 => forall t b r c, t < nt -> b < nb -> r < nr -> c < nc -> exists d2 blk,
        nth_error d1 t = Some d2 /\ nth_error d2 b = Some blk /\ pick2 blk r c = Some (x t e b r c)) ne _ ls rest Hb H) as (ys & E & L & Hy).
  - intros e p r Hi Hp. unfold read_energy. destruct times.
    + destruct Hp as (a & p1 & -> & Ha & Hp). rewrite <- app_assoc, (skip_app a _ 3 Ha).
      edestruct (fun Hb => loop_each _ (fun f => do '(bs, f1) <- read_blocks nb nr nc (skipline 2 f); Ok (bs, skipline 1 f1))
        (fun t bs => forall b r c, b < nb -> r < nr -> c < nc -> exists blk, nth_error bs b = Some blk /\ pick2 blk r c = Some (x t e b r c)) nt _ p1 r Hb Hp) as (zs & E & L & Hz).
      * intros t q r' _ (a1 & q1 & -> & Ha1 & a2 & q2 & -> & Ha2 & Hq2). repeat rewrite <- app_assoc. rewrite (skip_app a1 _ 2 Ha1).
        destruct (blocks_ok nb nr nc (x t e) a2 (q2 ++ r') Ha2) as (bs & E & Hb). rewrite E. cbn [bind].
        rewrite (skip_app q2 r' 1 Hq2). exists bs. auto.
      * exists zs. split; [exact E|]. intros t b r0 c Ht0 Hb Hr Hc. destruct (Hz t Ht0) as (bs & E1 & H1).
        destruct (H1 b r0 c Hb Hr Hc) as (blk & E2 & E3). exists bs, blk. auto.
    + destruct Hp as (a1 & q1 & -> & Ha1 & a2 & q2 & -> & Ha2 & Hq2). repeat rewrite <- app_assoc. rewrite (skip_app a1 _ 2 Ha1).
      destruct (blocks_ok nb nr nc (x 0 e) a2 (q2 ++ r) Ha2) as (bs & E & Hb). rewrite E. cbn [bind].
      rewrite (skip_app q2 r 1 Hq2). exists [bs]. split; [reflexivity|].
      intros t b r0 c Ht0 Hb0 Hr Hc. rewrite (Ht eq_refl) in Ht0. assert (t = 0) by lia. subst t.
      destruct (Hb b r0 c Hb0 Hr Hc) as (blk & E2 & E3). exists bs, blk. auto.
  - exists ys. split; [exact E|]. intros t e b r c Ht0 He Hb Hr Hc. unfold wrk.
    destruct (Hy e He) as (d1 & -> & H1). destruct (H1 t b r c Ht0 Hb Hr Hc) as (d2 & blk & -> & -> & H2). exact H2.
Qed.

Lemma col_line_ok x p r : Last2 x p -> exists y, read_col_line (p ++ r) = Ok (y, r) /\ y = x.
Proof.
  intros (l & pre & v & e & -> & Hs & Hv & He). unfold read_col_line. cbn [readline app hd tl].
  rewrite Hs, rev_app_distr. cbn [rev app]. rewrite Hv. cbn [bind]. rewrite He. cbn [bind].
  exists x. destruct x; auto.
Qed.

Lemma loop_col A (body : file -> res (A * file)) n (P : nat -> Txt) (R : nat -> A -> Prop) :
  (forall i p r, i < n -> P i p -> exists y, body (p ++ r) = Ok (y, r) /\ R i y) ->
  forall p r, Each n P p -> exists ys, loop n body (p ++ r) = Ok (ys, r) /\ forall i, i < n -> exists y, nth_error ys i = Some y /\ R i y.
Proof. intros Hb p r H. destruct (loop_each A body R n P p r Hb H) as (ys & E & _ & Hy). exists ys. auto. Qed.

Lemma col_ok nt ne nz ny nx (V : nat -> nat -> nat -> nat -> nat -> Q * Q) ls rest :
  ColData nt ne nz ny nx (fun t e k j i => Last2 (V t e k j i)) ls ->
  exists a, get_column_data nt ne nz ny nx (ls ++ rest) = Ok a /\ Holds nt ne nz ny nx V a.
Proof.
  intros (a & b & -> & Ha & H). unfold get_column_data. rewrite <- app_assoc, (skip_app a _ 1 Ha).
  destruct (loop_col _ (loop nt (loop nx (loop ny (loop nz read_col_line)))) ne
    (fun e => Each nt (fun t => Each nx (fun i => Each ny (fun j => Each nz (fun k => Last2 (V t e k j i))))))
    (fun e d1 => forall t, t < nt -> exists d2, nth_error d1 t = Some d2 /\
       forall i, i < nx -> exists d3, nth_error d2 i = Some d3 /\
       forall j, j < ny -> exists d4, nth_error d3 j = Some d4 /\
       forall k, k < nz -> exists y, nth_error d4 k = Some y /\ y = V t e k j i)) with (p := b) (r := rest) as (d & E & Hd).
  - intros e p r _ Hp.
    refine (loop_col _ _ nt _ (fun t d2 => forall i, i < nx -> exists d3, nth_error d2 i = Some d3 /\
       forall j, j < ny -> exists d4, nth_error d3 j = Some d4 /\
       forall k, k < nz -> exists y, nth_error d4 k = Some y /\ y = V t e k j i) _ p r Hp).
    clear. intros t p r _ Hp.
    refine (loop_col _ _ nx _ (fun i d3 => forall j, j < ny -> exists d4, nth_error d3 j = Some d4 /\
       forall k, k < nz -> exists y, nth_error d4 k = Some y /\ y = V t e k j i) _ p r Hp).
    clear. intros i p r _ Hp.
    refine (loop_col _ _ ny _ (fun j d4 => forall k, k < nz -> exists y, nth_error d4 k = Some y /\ y = V t e k j i) _ p r Hp).
    clear. intros j p r _ Hp.
    refine (loop_col _ _ nz _ (fun k y => y = V t e k j i) _ p r Hp).
    clear. intros k p r _ Hp. exact (col_line_ok _ p r Hp).
  - exact H.
  - rewrite E. cbn [bind]. eexists. split; [reflexivity|].
    intros t e k j i Ht He Hk Hj Hi. unfold nth5.
    destruct (Hd e He) as (d1 & -> & H1). destruct (H1 t Ht) as (d2 & -> & H2). destruct (H2 i Hi) as (d3 & -> & H3).
    destruct (H3 j Hj) as (d4 & -> & H4). destruct (H4 k Hk) as (y & E5 & <-). exact E5.
Qed.

Lemma has_iff p l : has p l = true <-> mentions p l.
Proof. unfold has, mentions. apply contains_spec. Qed.
Lemma has_not p l : ~ mentions p l -> has p l = false.
Proof. intros H. destruct (has p l) eqn:E; [apply has_iff in E; contradiction|reflexivity]. Qed.

Lemma line_0 f l : line_at 0 f l -> hd [] f = l.
Proof. destruct f; cbn; [discriminate|injection 1; auto]. Qed.
Lemma line_skip n f l : line_at (S n) f l -> hd [] (skipline n (tl f)) = l.
Proof.
  unfold line_at, skipline. destruct f as [|x f]; [discriminate|]. cbn [nth_error tl]. revert f.
  induction n as [|n IH]; intros [|y f] H; try discriminate H; cbn [skipn nth_error hd] in *; [injection H; auto|].
  apply IH. exact H.
Qed.
Lemma line_app n f g l : line_at n f l -> line_at n (f ++ g) l.
Proof. unfold line_at. intros H. rewrite nth_error_app1; [exact H|]. apply nth_error_Some. rewrite H. discriminate. Qed.
Lemma announces_app cyl times L f g : announces cyl times L f -> announces cyl times L (f ++ g).
Proof.
  destruct L; [intros (l & H & H'); exists l; split; [apply line_app; exact H|exact H']|..];
  intros (l0 & l & H0 & H1 & H2 & H3 & H4); exists l0, l; (split; [apply line_app; exact H0|]);
  (split; [exact H1|]); (split; [exact H2|]); (split; [apply line_app; exact H3|exact H4]).
Qed.

Definition layout_of (L : Layout) : meshtype := match L with LCol => Col | LIJ => Blk IJ | LIK => Blk IK | LJK => Blk JK end.
Lemma type_ok cyl times L f : announces cyl times L f -> mesh_type cyl times f = layout_of L.
Proof.
  intros H. unfold mesh_type, readline.
  destruct L.
  - destruct H as (l & H0 & H1). rewrite (line_0 _ _ H0). apply has_iff in H1. rewrite H1. reflexivity.
  - destruct H as (l0 & l & H0 & H1 & H2 & H3 & H4 & H5). rewrite (line_0 _ _ H0), (has_not _ _ H1), (has_not _ _ H2).
    assert (E : hd [] (skipline (if times then 4 else 1) (tl f)) = l) by (destruct times; apply line_skip; exact H3).
    rewrite E. apply has_iff in H4. destruct cyl; cbn [axis_name] in H4; rewrite H4; reflexivity.
  - destruct H as (l0 & l & H0 & H1 & H2 & H3 & H4 & H5). rewrite (line_0 _ _ H0), (has_not _ _ H1), (has_not _ _ H2).
    assert (E : hd [] (skipline (if times then 4 else 1) (tl f)) = l) by (destruct times; apply line_skip; exact H3).
    rewrite E. assert (N := has_not _ _ (H5 LIJ ltac:(discriminate) ltac:(discriminate))).
    apply has_iff in H4. destruct cyl; cbn [axis_name] in H4, N; rewrite N, H4; reflexivity.
  - destruct H as (l0 & l & H0 & H1 & H2 & H3 & H4 & H5). rewrite (line_0 _ _ H0), (has_not _ _ H1), (has_not _ _ H2).
    assert (E : hd [] (skipline (if times then 4 else 1) (tl f)) = l) by (destruct times; apply line_skip; exact H3).
    rewrite E. assert (N := has_not _ _ (H5 LIJ ltac:(discriminate) ltac:(discriminate))).
    assert (N2 := has_not _ _ (H5 LIK ltac:(discriminate) ltac:(discriminate))).
    apply has_iff in H4. destruct cyl; cbn [axis_name] in H4, N, N2; rewrite N, N2, H4; reflexivity.
Qed.

Lemma mesh_data_ok old cyl times L nt ne nz ny nx V f rest :
  (times = false -> nt = 1) -> announces cyl times L f -> PrintedIn L times nt ne nz ny nx V f ->
  exists a, get_mesh_data old cyl times nt ne nz ny nx (f ++ rest) = Ok a /\ Holds nt ne nz ny nx V a.
Proof.
  intros Ht Ha Hp. unfold get_mesh_data. rewrite (type_ok cyl times L _ (announces_app _ _ _ _ rest Ha)).
  destruct L; cbn [layout_of PrintedIn] in *.
  - exact (col_ok _ _ _ _ _ V f rest Hp).
  - destruct (bins_ok _ _ _ _ _ _ _ f rest Ht Hp) as (d & E & H). cbn [get_block_data]. rewrite E. cbn [bind].
    eexists. split; [reflexivity|]. intros t e k j i; intros. apply H; assumption.
  - destruct (bins_ok _ _ _ _ _ _ _ f rest Ht Hp) as (d & E & H). cbn [get_block_data]. rewrite E. cbn [bind].
    eexists. split; [reflexivity|]. intros t e k j i; intros. apply (H t e j k i); assumption.
  - destruct (bins_ok _ _ _ _ _ _ _ f rest Ht Hp) as (d & E & H). cbn [get_block_data]. rewrite E. cbn [bind].
    eexists. split; [reflexivity|]. intros t e k j i; intros. apply (H t e i k j); assumption.
Qed.
