(** C62-C66: reading MCNP mctal files, the tables of their tallies and totals, the summary of the errors. *)
From Coq Require Import Lia ZArith.
From Verif Require Import PyBase PyStr PyText MeshModel MeshSpec MctalModel MctalSpec MctalProofs2 MctalProofs4 MctalProofs5 MctalProofs6 MctalProofs7 MctalProofs8 MctalProofs9.
Open Scope nat_scope.

(** ** a file with an ordinary tally (two cells, two energy bins and their total) and a mesh tally *)
Definition ln (s : string) : str := s2l s ++ [nl].
Definition sample_head : list string := ["mcnp   6     01/01/20 10:00:00     2        1000         2000"; " two tallies"; "ntal     2"; "    4   14"]%string.
Definition sample_4 (vals : list string) : list string :=
  (["tally    4    1    0"; " 1 0"; "     flux in two cells"; "f        2"; "          10         20";
   "d        1"; "u        0"; "s        0"; "m        0"; "c        0"; "et       3"; "   1.0E+00   2.0E+00"; "t        0";
   "vals"]%string ++ vals ++ ["tfc    1 1 1 1 1 1 1 1 1"; "  1000 1.0E+00 0.10 50.0"]%string)%list.
Definition sample_14 : list string :=
  ["tally   14    1   -1"; " 1 0"; "f        0     1     2     1     1"; "   0.0E+00   1.0E+00   2.0E+00"; "   0.0E+00   5.0E+00"; "   0.0E+00   7.0E+00";
   "d        1"; "u        0"; "s        0"; "m        0"; "c        0"; "e        0"; "t        0";
   "vals"; "  6.0E+00 0.10  7.0E+00 0.20"]%string.
Definition good_values : list string := ["  1.0E+00 0.10  2.0E+00 0.20  3.0E+00 0.05"; "  4.0E+00 0.10  5.0E+00 0.25  9.0E+00 0.04"]%string.
Definition sample : list str := map ln (sample_head ++ sample_4 good_values ++ sample_14).
Definition parsed : res (header * list tally) := Eval vm_compute in read_mctal (None, None) true sample.
Definition a0 : axis := mkAxis 0 None 0 [].
Definition noheader : header := mkHeader None None [] 0 [].
Definition nothing : tally := mkTally 0 0 0 false false [] [] 0 (0, 1, 1, 1)%Z [] [] [] [] 0 a0 a0 a0 a0 a0 a0 [] [] [].
Definition head0 : header := Eval vm_compute in match parsed with Ok (h, _) => h | _ => noheader end.
Definition tally4 : tally := Eval vm_compute in match parsed with Ok (_, t :: _) => t | _ => nothing end.
Definition tally14 : tally := Eval vm_compute in match parsed with Ok (_, _ :: t :: _) => t | _ => nothing end.
Ltac cut n := match goal with |- (_ >> _) ?ls => let a := eval cbn [firstn] in (firstn n ls) in let b := eval cbn [skipn] in (skipn n ls) in exists a, b; split; [reflexivity|split] end.
Ltac no_tally := let X := fresh in intros X; apply MeshProofs.has_iff in X; vm_compute in X; discriminate X.
Ltac finish := repeat first [apply Forall_nil | apply Forall_cons | apply Forall2_nil | apply Forall2_cons]; try (vm_compute; reflexivity).
Ltac norm2 := match goal with |- Forall2 ?P ?a ?b => let a' := eval vm_compute in a in let b' := eval vm_compute in b in change (Forall2 P a' b') end.
Ltac dataline := split; [repeat (apply Forall_cons; [eexists; reflexivity|]); apply Forall_nil|norm2; finish].
Ltac pairs := norm2; repeat (apply Forall2_cons; [left; split; vm_compute; reflexivity|]); apply Forall2_nil.
Ltac closed := match goal with |- OrdinaryText _ _ _ => idtac | |- MeshText _ _ _ => idtac | |- _ => vm_compute; first [reflexivity|discriminate] end.

(** ** C62 *)
(** For every file with the text of some tallies, reading gives the header and these tallies in the order of the file, each
    with its own cells, bins, comment, particles and chart, and the value and error of every bin are those at its place in
    the list of values.  (NaN values make it fail when INFO messages are logged: see C62_a_nan_breaks_logging_refuted.) *)
Theorem C62_every_tally_is_read : forall junk info h ts f, MctalText h ts f -> ts <> [] ->
  exists rs, Forall2 (fun tv r => Reads (fst tv) (snd tv) r) ts rs
    /\ read_mctal junk info f = (if info && existsb has_nans rs then Err TypeError else Ok (h, rs)).
Proof. exact read_ok. Qed.
Print Assumptions C62_every_tally_is_read.
Theorem C62_a_nan_breaks_logging_refuted : exists f f', read_mctal (None, None) true f = Err TypeError
  /\ (exists x, read_mctal (None, None) false f = Ok x) /\ f' = sample /\ (exists x, read_mctal (None, None) true f' = Ok x).
Proof.
  exists (map ln (sample_head ++ sample_4 ["  1.0E+00 0.10  NaN 0.20  3.0E+00 0.05"; "  4.0E+00 0.10  5.0E+00 0.25  9.0E+00 0.04"]%string)), sample.
  split; [vm_compute; reflexivity|]. split; [eexists; vm_compute; reflexivity|]. split; [reflexivity|eexists; vm_compute; reflexivity].
Qed.
Print Assumptions C62_a_nan_breaks_logging_refuted.
Definition values (t : tally) : list (fl * fl) := map snd (t_vals t).
Ltac lines := match goal with |- _ ?ls => let x := eval vm_compute in ls in change ls with x end.
Ltac starts := split; [vm_compute; reflexivity|eexists; reflexivity].
Ltac headline := eexists; split; [reflexivity|]; do 3 eexists; split; [starts|vm_compute; auto].
Ltac nolines := split; [apply Forall_nil|apply Forall2_nil].
Ltac middle4 := 
  cut 1; [eexists; split; [reflexivity|]; do 2 eexists; split; [starts|vm_compute; reflexivity]|];
  cut 1; [headline|]; cut 0; [nolines|]; cut 1; [headline|]; cut 0; [nolines|]; cut 1; [headline|];
  cut 1; [headline|]; cut 0; [nolines|]; cut 1; [headline|].
Example C62_witness_text : TallyText (without_values tally4) (values tally4) (map ln (tl (sample_4 good_values))) /\ TallyText (without_values tally14) (values tally14) (map ln (tl sample_14)).
Proof.
  split.
  - left. split; [reflexivity|]. repeat split; try closed.
    lines. unfold OrdinaryText. 
    cut 1; [do 3 eexists; split; [reflexivity|]; split; [reflexivity|]; split; [discriminate|vm_compute; finish; repeat constructor; reflexivity]|].
    cut 1; [finish; split; [reflexivity|right; exists (s2l "flux in two cell"), "s"%char; split; reflexivity]|].
    cut 1; [eexists; split; [reflexivity|]; do 2 eexists; split; [starts|vm_compute; reflexivity]|].
    cut 1; [exists [10; 20]%Z; split; [reflexivity|]; split; [dataline|finish; intros X; vm_compute in X; intuition discriminate]|].
    cut 9; [unfold Middle; middle4; cut 1; [dataline|cut 1; [headline|cut 0; [nolines|eexists; split; [reflexivity|vm_compute; reflexivity]]]]|].
    cut 2; [exists [firstn 3 (values tally4); skipn 3 (values tally4)]; split; [|reflexivity]|].
    + apply Forall2_cons; [|apply Forall2_cons; [|apply Forall2_nil]]; eexists [(_, _); (_, _); (_, _)]; (split; [vm_compute; reflexivity|]); (split; [discriminate|]); pairs.
    + unfold Chart. cut 1; [eexists; split; [reflexivity|]; eexists; split; [vm_compute; reflexivity|]; split; [norm2; finish|reflexivity]|].
      repeat first [apply Forall2_cons | apply Forall2_nil]. do 5 eexists. eexists (Some _), (Some _), (Some _). split; [vm_compute; reflexivity|]. split; [no_tally|]. split; [vm_compute; reflexivity|]. split; [left; vm_compute; reflexivity|]. split; [vm_compute; reflexivity|]. split; [vm_compute|]; reflexivity.
  - right. repeat split; try closed.
    lines. unfold MeshText.
    cut 1; [do 3 eexists; split; [reflexivity|]; split; [reflexivity|]; split; [discriminate|vm_compute; finish; repeat constructor; reflexivity]|].
    cut 0; [finish|].
    cut 1; [eexists; split; [reflexivity|]; do 6 eexists; split; [starts|vm_compute; auto]|].
    cut 3; [do 3 eexists; dataline|].
    cut 8; [unfold Middle; middle4; cut 0; [nolines|cut 1; [headline|cut 0; [nolines|eexists; split; [reflexivity|vm_compute; reflexivity]]]]|].
    cut 1; [split; [exists [values tally14]; split; [|reflexivity]|]|].
    + apply Forall2_cons; [|apply Forall2_nil]; eexists [(_, _); (_, _)]; (split; [vm_compute; reflexivity|]); (split; [discriminate|]); pairs.
    + finish. no_tally.
    + finish.
Qed.
Example C62_witness_file : MctalText head0 [(without_values tally4, values tally4); (without_values tally14, values tally14)] sample
  /\ read_mctal (None, None) true sample = Ok (head0, [tally4; tally14]).
Proof.
  split; [|vm_compute; reflexivity]. destruct C62_witness_text as [T1 T2]. unfold MctalText. lines. 
  cut 4.
  - unfold HeadText. cut 1; [eexists; split; [reflexivity|]; do 3 eexists; vm_compute; auto|].
    cut 1; [eexists; split; reflexivity|]. cut 1; [eexists; split; [reflexivity|]; do 3 eexists; split; [vm_compute; reflexivity|]; split; [vm_compute; reflexivity|split; vm_compute; discriminate]|].
    split; [finish; vm_compute; discriminate|vm_compute; finish].
  - cbn [Tallies]. cut 1; [eexists; split; [reflexivity|]; do 4 eexists; split; [vm_compute; reflexivity|vm_compute; auto]|].
    cut 17; [exact T1|]. cut 1; [eexists; split; [reflexivity|]; do 4 eexists; split; [vm_compute; reflexivity|vm_compute; auto]|].
    cut 14; [exact T2|exact I].
Qed.

(** ** a radiography tally: one pixel row of three pixels along each axis, bounds on both axes *)
Definition sample_5 : list string :=
  ["tally    5   -1    4"; " 0 1"; "f        1"; "d        1"; "u        0"; "s        1"; " -1.0E+00  1.0E+00"; "m        0"; "c        3"; " -3.0E+00 -1.0E+00  1.0E+00  3.0E+00";
   "e        0"; "t        0"; "vals"; "  1.0E+00 0.10  2.0E+00 0.20  7.0E+00 0.30"; "tfc    1 1 1 1 1 1 1 1 1"; "  1000 1.0E+00 0.10 50.0"]%string.
Definition tally5 : tally := Eval vm_compute in
  match read_mctal (None, None) true (map ln (["mcnp   6     01/01/20 10:00:00     2        1000         2000"; " a picture"; "ntal     1"; "    5"]%string ++ sample_5)) with
  | Ok (_, [t]) => t | _ => nothing end.
Example C62_witness_picture : TallyText (without_values tally5) (values tally5) (map ln (tl sample_5)) /\ t_radiograph tally5 = true.
Proof.
  split; [|reflexivity]. left. split; [reflexivity|]. repeat split; try closed.
  lines. unfold OrdinaryText.
  cut 1; [do 3 eexists; split; [reflexivity|]; split; [reflexivity|]; split; [discriminate|vm_compute; finish; repeat constructor; reflexivity]|].
  cut 0; [finish|].
  cut 1; [eexists; split; [reflexivity|]; do 2 eexists; split; [starts|vm_compute; reflexivity]|].
  cut 0; [reflexivity|].
  cut 10; [unfold Middle|].
  - cut 1; [eexists; split; [reflexivity|]; do 2 eexists; split; [starts|vm_compute; reflexivity]|].
    cut 1; [headline|]; cut 0; [nolines|]; cut 1; [headline|].
    cut 1; [exists [-10 # 10; 10 # 10]%Q; split; [dataline|split; [vm_compute; discriminate|reflexivity]]|]. cut 1; [headline|]. cut 1; [headline|].
    cut 1; [exists [-30 # 10; -10 # 10; 10 # 10; 30 # 10]%Q; split; [dataline|split; [vm_compute; discriminate|reflexivity]]|].
    cut 1; [headline|]. cut 0; [nolines|]. cut 1; [headline|]. cut 0; [nolines|]. eexists; split; [reflexivity|vm_compute; reflexivity].
  - cut 1; [exists [values tally5]; split; [|reflexivity]|].
    + apply Forall2_cons; [|apply Forall2_nil]; eexists [(_, _); (_, _); (_, _)]; (split; [vm_compute; reflexivity|]); (split; [discriminate|]); pairs.
    + unfold Chart. cut 1; [eexists; split; [reflexivity|]; eexists; split; [vm_compute; reflexivity|]; split; [norm2; finish|reflexivity]|].
      repeat first [apply Forall2_cons | apply Forall2_nil]. do 5 eexists. eexists (Some _), (Some _), (Some _). split; [vm_compute; reflexivity|]. split; [no_tally|]. split; [vm_compute; reflexivity|]. split; [left; vm_compute; reflexivity|]. split; [vm_compute; reflexivity|]. split; [vm_compute|]; reflexivity.
Qed.

(** ** C63 *)
(** A tally that was read has what the next theorems ask for, as soon as it has a segment besides the total one. *)
Theorem C63_read_tallies_qualify : forall t vs t' ls, TallyText t vs ls -> Reads t vs t' -> 0 < nth 2 (sizes t) 0 ->
  Filled t' /\ (Forall (fun x => fst x <> None /\ snd x <> None) vs -> Finite t').
Proof. exact read_filled. Qed.
Print Assumptions C63_read_tallies_qualify.
(** The table of a tally has a row for every combination of cell and bins, which shows them with the value and the error,
    a row for the total of every cell when the tally has a total, and no other rows.  (The coordinates A and C of a mesh are
    excepted by ShowsBin: see C63_mesh_axes_exchanged_refuted.) *)
Theorem C63_rows : forall t, Filled t -> Finite t -> exists D, table t = Ok D /\ In "Value"%string (d_cols D) /\ In "Error"%string (d_cols D)
  /\ (forall f idx v e, Comb t f idx -> get_value t (f :: idx) = Ok (Some v, Some e) -> exists ir, In ir (d_rows D) /\ ShowsBin t D (snd ir) f idx v e)
  /\ (forall f n v e, f < size (t_cells t) -> total_name t = Some n -> get_value t (last_bin t f) = Ok (Some v, Some e) ->
        exists ir, In ir (d_rows D) /\ ShowsTotal t D (snd ir) f n v e)
  /\ (forall ir, In ir (d_rows D) ->
       (exists f idx v e, Comb t f idx /\ get_value t (f :: idx) = Ok (Some v, Some e) /\ ShowsBin t D (snd ir) f idx v e)
       \/ (exists f n v e, f < size (t_cells t) /\ total_name t = Some n /\ get_value t (last_bin t f) = Ok (Some v, Some e) /\ ShowsTotal t D (snd ir) f n v e)).
Proof. exact table_combs. Qed.
Print Assumptions C63_rows.
(** A column of bins is left out only when some combination has no name in it (an axis without bins) or when all
    combinations have the same one. *)
Theorem C63_columns_left_out : forall t D n, Filled t -> table t = Ok D -> In n columns -> plain_column n -> ~ In n (d_cols D) ->
  n <> "Value"%string -> n <> "Error"%string ->
  (exists f idx, Comb t f idx /\ In (n, VNaN) (bins_of t f idx))
  \/ (forall f idx x f' idx' x', Comb t f idx -> Comb t f' idx' -> In (n, x) (bins_of t f idx) -> In (n, x') (bins_of t f' idx') -> same x x').
Proof. exact columns_left_out. Qed.
Print Assumptions C63_columns_left_out.
(** The coordinates of a mesh are under exchanged names: the column "Cor A" shows the bound along C, "Cor C" the one along A. *)
Theorem C63_mesh_axes_exchanged_refuted : forall t D f idx v e, Filled t -> Finite t -> table t = Ok D -> Comb t f idx -> get_value t (f :: idx) = Ok (Some v, Some e) ->
  exists ir, In ir (d_rows D) /\ ShowsBin t D (snd ir) f idx v e
    /\ (forall x, In ("Cor C"%string, x) (bins_of t f idx) -> Shows (d_cols D) (snd ir) "Cor A" x)
    /\ (forall x, In ("Cor A"%string, x) (bins_of t f idx) -> Shows (d_cols D) (snd ir) "Cor C" x).
Proof. exact mesh_axes. Qed.
Print Assumptions C63_mesh_axes_exchanged_refuted.
(** One value (or error) that is not a number removes all values (or errors) from the table. *)
Theorem C63_nan_removes_the_column_refuted : forall t D f idx x, Filled t -> table t = Ok D -> Comb t f idx -> get_value t (f :: idx) = Ok x ->
  (fst x = None -> ~ In "Value"%string (d_cols D)) /\ (snd x = None -> ~ In "Error"%string (d_cols D)).
Proof. exact nan_columns. Qed.
Print Assumptions C63_nan_removes_the_column_refuted.
(** The pixels of a radiography tally: of the three pixels read along the cosine axis only the first one is in the table. *)
Theorem C63_pixels_left_out_refuted : exists t vs ls D, TallyText t vs ls /\ t_radiograph t = true /\ a_n (t_cos t) = 3%Z
  /\ exists t', Reads t vs t' /\ Finite t' /\ table t' = Ok D
  /\ get_value t' [0; 0; 0; 0; 0; 2; 0; 0; 0; 0; 0] = Ok (Some (70 # 10)%Q, Some (30 # 100)%Q)
  /\ (forall ir, In ir (d_rows D) -> Shows (d_cols D) (snd ir) "Value" (VQ 1)) /\ In "Value"%string (d_cols D) /\ length (d_rows D) = 1.
Proof.
  exists (without_values tally5), (values tally5), (map ln (tl sample_5)). eexists. split; [exact (proj1 C62_witness_picture)|]. split; [reflexivity|]. split; [reflexivity|].
  exists tally5.
  assert (I : forall idx, in_shape (shape (without_values tally5)) idx -> exists c, c < 3 /\ idx = [0; 0; 0; 0; 0; c; 0; 0; 0; 0; 0]).
  { intros idx H. unfold in_shape in H. assert (X : shape (without_values tally5) = [1; 1; 1; 1; 1; 3; 1; 1; 1; 1; 1]) by reflexivity. rewrite X in H.
    repeat match goal with H : Forall2 _ ?l (_ :: _) |- _ => inversion H; clear H; subst | H : Forall2 _ ?l [] |- _ => inversion H; clear H; subst end.
    repeat match goal with H : ?x < 1 |- _ => assert (x = 0) by lia; subst x; clear H end. eexists. split; [eassumption|reflexivity]. }
  split.
  { split; [reflexivity|]. intros idx H. destruct (I idx H) as (c & Hc & ->). destruct c as [|[|[|c]]]; [| | |lia]; eexists; split; vm_compute; reflexivity. }
  split.
  { intros idx x H. destruct (I idx H) as (c & Hc & ->). destruct c as [|[|[|c]]]; [| | |lia]; intros E; vm_compute in E; injection E as <-; do 2 eexists; reflexivity. }
  split; [vm_compute; reflexivity|]. split; [vm_compute; reflexivity|]. split; [|split; [vm_compute; tauto|reflexivity]].
  intros ir [<-|[]] p Hp. cbn [d_cols d_rows snd] in *.
  do 7 (destruct p as [|p]; [first [discriminate Hp | eexists; split; reflexivity]|]). destruct p; discriminate Hp.
Qed.
Print Assumptions C63_pixels_left_out_refuted.
Example C63_witness : Filled tally4 /\ Finite tally4 /\ Filled tally14 /\ Finite tally14
  /\ (exists d, table tally14 = Ok d /\ d_cols d = ["Cor C"; "Value"; "Error"]%string).   (* two bins along A *)
Proof.
  destruct C62_witness_file as [H _]. destruct C62_witness_text as [T1 T2].
  assert (V : forall t, existsb has_nans [t] = false -> Forall (fun x => fst x <> None /\ snd x <> None) (values t)).
  { intros t Ht. cbn [existsb] in Ht. rewrite Bool.orb_false_r in Ht. unfold has_nans in Ht. apply Bool.orb_false_iff in Ht as [Ht _].
    unfold values. apply Forall_forall. intros x Hx. apply in_map_iff in Hx as (p & <- & Hp).
    rewrite <- Bool.not_true_iff_false in Ht. split; intros X; apply Ht; apply existsb_exists; exists p; (split; [exact Hp|]); rewrite X; [reflexivity|apply Bool.orb_true_r]. }
  destruct (C62_every_tally_is_read (None, None) true head0 _ sample H ltac:(discriminate)) as (rs & HR & Er).
  pose proof (proj2 C62_witness_file) as W. rewrite W in Er.
  destruct (true && existsb has_nans rs); [discriminate Er|]. injection Er as <-. inversion HR as [|? ? ? ? R1 HR2]; subst. inversion HR2 as [|? ? ? ? R2 _]; subst. cbn [fst snd] in *.
  destruct (C63_read_tallies_qualify _ _ _ _ T1 R1) as [A1 A2]; [vm_compute; lia|]. destruct (C63_read_tallies_qualify _ _ _ _ T2 R2) as [B1 B2]; [vm_compute; lia|].
  split; [exact A1|]. split; [apply A2, V; vm_compute; reflexivity|]. split; [exact B1|]. split; [apply B2, V; vm_compute; reflexivity|].
  eexists. split; vm_compute; reflexivity.
Qed.

(** ** C64 *)
(** A tally with a total: when the axis of the total has names for its bins, the table of the totals has exactly the rows of
    the table that show the total of a cell, and one for every cell. *)
Theorem C64_totals_of_every_cell : forall ts, NoDup (map t_number ts) -> Forall Filled ts -> Forall Finite ts ->
  exists l, get_dfs ts = Ok l /\ map fst l = map t_number ts
  /\ forall i t n, nth_error ts i = Some t -> total_name t = Some n -> (forall f idx, Comb t f idx -> ~ In (n, VNaN) (bins_of t f idx)) ->
     exists D T, nth_error l i = Some (t_number t, (D, Some T)) /\ table t = Ok D /\ In n (d_cols D) /\ d_cols T = d_cols D
      /\ (forall f v e, f < size (t_cells t) -> get_value t (last_bin t f) = Ok (Some v, Some e) -> exists ir, In ir (d_rows T) /\ ShowsTotal t T (snd ir) f n v e)
      /\ (forall ir, In ir (d_rows T) -> In ir (d_rows D) /\ exists f v e, f < size (t_cells t) /\ get_value t (last_bin t f) = Ok (Some v, Some e) /\ ShowsTotal t T (snd ir) f n v e).
Proof.
  intros ts HN HF HI. rewrite Forall_forall in HF, HI.
  destruct (get_dfs_ok ts HN) as (l & E & Em & Hl).
  { apply Forall_forall. intros t Ht. destruct (table_combs t (HF t Ht) (HI t Ht)) as (D & ET & _). eauto. }
  exists l. split; [exact E|]. split; [exact Em|]. intros i t n Ht Hn Hb. destruct (Hl i t Ht) as (D & ET & Hi). assert (Hin : In t ts) by (eapply nth_error_In; exact Ht).
  destruct (totals t D n (HF t Hin) (HI t Hin) ET Hn) as [A B]. destruct (B (A Hb)) as (T & ETT & H).
  assert (EL : last_total (firstn (S i) ts) = Some n).
  { unfold last_total. clear -Ht Hn. revert i Ht. generalize (@None string). induction ts as [|t0 ts IH]; intros a i Ht; [destruct i; discriminate Ht|]. destruct i as [|i]; cbn [nth_error] in Ht.
    - injection Ht as ->. cbn [firstn fold_left]. rewrite Hn. reflexivity.
    - change (firstn (S (S i)) (t0 :: ts)) with (t0 :: firstn (S i) ts). cbn [fold_left]. apply IH. exact Ht. }
  rewrite EL, ETT in Hi. exists D, T. split; [exact Hi|]. split; [exact ET|]. split; [exact (A Hb)|]. exact H.
Qed.
Print Assumptions C64_totals_of_every_cell.
(** Without a total in any tally up to this one there is no table of the totals. *)
Theorem C64_no_totals : forall ts, NoDup (map t_number ts) -> Forall Filled ts -> Forall Finite ts ->
  exists l, get_dfs ts = Ok l /\ forall i t, nth_error ts i = Some t -> Forall (fun t => total_name t = None) (firstn (S i) ts) ->
    exists D, nth_error l i = Some (t_number t, (D, None)) /\ table t = Ok D.
Proof.
  intros ts HN HF HI. rewrite Forall_forall in HF, HI.
  destruct (get_dfs_ok ts HN) as (l & E & Em & Hl).
  { apply Forall_forall. intros t Ht. destruct (table_combs t (HF t Ht) (HI t Ht)) as (D & ET & _). eauto. }
  exists l. split; [exact E|]. intros i t Ht Hn. destruct (Hl i t Ht) as (D & ET & Hi). exists D. split; [|exact ET]. rewrite Hi. repeat f_equal.
  replace (last_total (firstn (S i) ts)) with (@None string); [reflexivity|]. unfold last_total. clear -Hn. induction Hn as [|x xs Hx Hn IH]; [reflexivity|]. cbn [fold_left]. rewrite Hx. exact IH.
Qed.
Print Assumptions C64_no_totals.
(** A tally without a total that comes after one with a total gets an empty table of totals instead of none. *)
Definition two_energies (num : Z) (tc : option tcflag) : tally :=
  mkTally num 1 0 false false [] [] 1 (0, 1, 1, 1)%Z [10%Q] [] [] [] 1 a0 a0 a0 a0 (mkAxis (match tc with None => 2 | Some _ => 3 end) tc 0 [1; 2]%Q) a0
    (map (fun i => ([0; 0; 0; 0; 0; 0; i; 0; 0; 0; 0], (Some (inject_Z (Z.of_nat i + 1)), Some (1 # 10)%Q))) (seq 0 (match tc with None => 2 | Some _ => 3 end))) [] [].
Theorem C64_total_of_another_tally_refuted : exists t1 t2 D, total_name t2 = None /\ table t2 = Ok D
  /\ (exists x, get_dfs [t1; t2] = Ok [x; (t_number t2, (D, Some (mkDf (d_cols D) [])))])
  /\ get_dfs [t2] = Ok [(t_number t2, (D, None))].
Proof.
  exists (two_energies 4 (Some Total)), (two_energies 14 None). eexists. split; [reflexivity|]. split; [vm_compute; reflexivity|]. split; [eexists; vm_compute; reflexivity|vm_compute; reflexivity].
Qed.
Print Assumptions C64_total_of_another_tally_refuted.
Example C64_witness : total_name tally4 = Some "Energy"%string /\ NoDup (map t_number [tally4; tally14])
  /\ (forall f idx, Comb tally4 f idx -> ~ In ("Energy"%string, VNaN) (bins_of tally4 f idx)) /\ last_bin tally4 1 = [1; 0; 0; 0; 0; 0; 2; 0; 0; 0; 0].
Proof.
  split; [reflexivity|]. split; [repeat constructor; cbn; intuition discriminate|]. split; [|reflexivity].
  intros f idx [_ H]. unfold in_shape in H. assert (X : sizes tally4 = [1; 1; 1; 1; 1; 2; 1; 1; 1; 1]) by reflexivity. rewrite X in H.
  repeat match goal with H : Forall2 _ ?l (_ :: _) |- _ => inversion H; clear H; subst | H : Forall2 _ ?l [] |- _ => inversion H; clear H; subst end.
  cbn [bins_of In]. assert (B : forall i, i < 2 -> bin (a_bins (t_erg tally4)) i <> VNaN) by (intros i Hi; destruct i as [|[|i]]; [discriminate|discriminate|lia]).
  intros Y. repeat destruct Y as [Y|Y]; try discriminate Y; try contradiction. injection Y as Y. revert Y. apply B. assumption.
Qed.

(** ** C65 *)
(** When no row of the table was dropped as a duplicate, the summary reports the smallest and the largest error over all
    combinations and totals, each with a value that goes with it; an error of 0 beside a value of 0 is not reported. *)
Theorem C65_summary : forall t D k, Filled t -> Finite t -> table t = Ok D ->
  length (d_rows D) = size (t_cells t) * (prod (sizes t) + match total_name t with Some _ => 1 | None => 0 end) ->
  exists bmin bmax emin vmin emax vmax,
    Counted t bmin /\ get_value t bmin = Ok (Some vmin, Some emin) /\ Counted t bmax /\ get_value t bmax = Ok (Some vmax, Some emax)
    /\ (forall b v e, Counted t b -> get_value t b = Ok (Some v, Some e) -> (emin <= e)%Q /\ (e <= emax)%Q)
    /\ summary_row k D = Ok (k, (reported emin vmin, vmin), (reported emax vmax, vmax)).
Proof. exact summary. Qed.
Print Assumptions C65_summary.
(** One line per tally, in the order of the tables. *)
Theorem C65_one_line_per_tally : forall data rows, error_summary data = Ok rows ->
  Forall2 (fun kd r => summary_row (fst kd) (fst (snd kd)) = Ok r) data rows /\ map (fun r => fst (fst r)) rows = map fst data.
Proof.
  intros data rows H. unfold error_summary in H. apply MatProofs2.mapM_Forall2 in H. split; [exact H|].
  induction H as [|kd r data rows Hr HF IH]; [reflexivity|]. cbn [map]. rewrite IH. f_equal. revert Hr. unfold summary_row.
  destruct (floats "Error" (fst (snd kd))); cbn [bind]; [|discriminate]. destruct (best qlt _) as [[? ?]|]; cbn [of_opt bind]; [|discriminate].
  destruct (best (fun a b => qlt b a) _) as [[? ?]|]; cbn [of_opt bind]; [|discriminate]. destruct (floats "Value" (fst (snd kd))); cbn [bind]; [|discriminate].
  destruct (nth_error _ _); cbn [of_opt bind]; [|discriminate]. destruct (nth_error _ _); cbn [of_opt bind]; [|discriminate]. intros X. injection X as <-. reflexivity.
Qed.
Print Assumptions C65_one_line_per_tally.
(** When a row was dropped (a cell listed twice), labels and positions differ: the value beside the smallest error is that of another
    row, or there is none and the summary fails. *)
Definition cells_tally (cells : list Q) (vals : list (Q * Q)) : tally :=
  mkTally 4 1 0 false false [] [] (Z.of_nat (length cells)) (0, 1, 1, 1)%Z cells [] [] [] 1 a0 a0 a0 a0 a0 a0
    (combine (map (fun i => [i; 0; 0; 0; 0; 0; 0; 0; 0; 0; 0]) (seq 0 (length cells))) (map (fun v => (Some (fst v), Some (snd v))) vals)) [] [].
Theorem C65_duplicate_rows_refuted :
  (exists t D, Filled t /\ Finite t /\ table t = Ok D /\ summary_row 4 D = Err IndexError)
  /\ (exists t D, Filled t /\ Finite t /\ table t = Ok D /\ exists x, summary_row 4 D = Ok x /\ snd (snd (fst x)) = 7%Q
        /\ forall b v, Counted t b -> get_value t b = Ok (Some 7%Q, Some v) -> ~ (v == 1 # 100)%Q /\ Some (1 # 100)%Q = fst (snd (fst x))).
Proof.
  assert (F : forall cells vals, In cells [[1; 1; 2]; [1; 1; 2; 3]]%Q -> length vals = length cells -> Filled (cells_tally cells vals) /\ Finite (cells_tally cells vals)).
  { intros cells vals Hc Hl. assert (Hlen : length cells = 3 \/ length cells = 4) by (cbn in Hc; destruct Hc as [<-|[<-|[]]]; auto).
    assert (ES : shape (cells_tally cells vals) = [length cells; 1; 1; 1; 1; 1; 1; 1; 1; 1; 1]).
    { unfold shape, cells_tally. cbn [t_meshInfo t_nCells t_nDir t_usr t_seg t_mul t_cos t_erg t_tim a_n a0 map]. unfold one1. destruct (Z.eqb_spec (Z.of_nat (length cells)) 0); [lia|]. rewrite Nat2Z.id. reflexivity. }
    assert (G : forall idx, in_shape (shape (cells_tally cells vals)) idx -> exists v e, get_value (cells_tally cells vals) idx = Ok (Some v, Some e)).
    { intros idx Hi. rewrite ES in Hi. unfold in_shape in Hi.
      repeat match goal with H : Forall2 _ ?l (_ :: _) |- _ => inversion H; clear H; subst | H : Forall2 _ ?l [] |- _ => inversion H; clear H; subst end.
      repeat match goal with H : ?x < 1 |- _ => assert (x = 0) by lia; subst x; clear H end.
      destruct vals as [|v0 [|v1 [|v2 [|v3 [|v4 vals]]]]]; cbn [length] in Hl; try lia; rewrite <- Hl in *; unfold get_value, cells_tally; cbn [t_vals]; rewrite <- Hl; cbn [length seq map combine];
      (destruct x as [|[|[|[|x]]]]; [..|lia]); try lia; do 2 eexists; reflexivity. }
    split; [|intros idx x Hi E; destruct (G idx Hi) as (v & e & E2); rewrite E in E2; injection E2 as ->; eauto].
    split; [repeat split; cbn; lia|]. split; [cbn; lia|]. split.
    - intros f idx [Hf Hi]. rewrite ES. constructor; [unfold size in Hf; cbn [t_cells cells_tally] in Hf; lia|exact Hi].
    - intros idx Hi. destruct (G idx Hi) as (v & e & E). eauto. }
  split.
  - exists (cells_tally [1; 1; 2]%Q [(5, 1 # 10); (5, 1 # 10); (7, 1 # 20)]%Q). destruct (F [1; 1; 2]%Q [(5, 1 # 10); (5, 1 # 10); (7, 1 # 20)]%Q) as [F1 F2]; [cbn; auto|reflexivity|].
    eexists. split; [exact F1|]. split; [exact F2|]. split; vm_compute; reflexivity.
  - exists (cells_tally [1; 1; 2; 3]%Q [(5, 1 # 2); (5, 1 # 2); (6, 1 # 100); (7, 1 # 5)]%Q). destruct (F [1; 1; 2; 3]%Q [(5, 1 # 2); (5, 1 # 2); (6, 1 # 100); (7, 1 # 5)]%Q) as [F1 F2]; [cbn; auto|reflexivity|].
    eexists. split; [exact F1|]. split; [exact F2|]. split; [vm_compute; reflexivity|]. eexists. split; [vm_compute; reflexivity|]. split; [reflexivity|].
    intros b v _ E. split; [|reflexivity]. unfold get_value in E. destruct (dget idx_eqb b _) as [p|] eqn:D; [|discriminate E]. cbn [of_opt] in E. injection E as ->.
    apply PyLemmas.dget_some_in in D; [|exact idx_eqb_eq]. cbn in D. repeat destruct D as [D|D]; try contradiction; injection D; intros; subst; discriminate.
Qed.
Print Assumptions C65_duplicate_rows_refuted.
Example C65_witness : exists D, table tally4 = Ok D /\ length (d_rows D) = size (t_cells tally4) * (prod (sizes tally4) + 1)
  /\ exists r, summary_row 4 D = Ok r /\ Qeq (snd (snd (fst r))) 9 /\ Qeq (snd (snd r)) 5.
Proof. eexists. split; [vm_compute; reflexivity|]. split; [vm_compute; reflexivity|]. eexists. split; [vm_compute; reflexivity|]. split; vm_compute; reflexivity. Qed.

(** ** C66 *)
(** A file with an ordinary tally that has too few values, or whole lines of values too many, is refused, wherever the tally is. *)
Theorem C66_wrong_number_of_values_refused : forall junk info h ts t f,
  (HeadText h >> Series ts >> TallyLine t >> WrongCount t >> (fun rest => exists more, Tallies more rest)) f ->
  exists e, read_mctal junk info f = Err e.
Proof. exact wrong_count. Qed.
Print Assumptions C66_wrong_number_of_values_refused.
(** A file that announces no tallies, or perturbations, is refused. *)
Theorem C66_no_tallies_or_perturbations_refused : forall junk info l1 l2 l3 r ws x y, head_line (split l1) = Ok (x, y) ->
  (exists a b, split l3 = a :: b :: ws /\ integer b 0) \/ (exists a b c d n, split l3 = [a; b; c; d] /\ (exists z, integer b z) /\ integer d n) ->
  exists e, read_mctal junk info (l1 :: l2 :: l3 :: r) = Err e.
Proof.
  intros junk info l1 l2 l3 r ws x y H1 H. unfold read_mctal, get_headers, readline. cbn [hd tl]. rewrite H1. cbn [bind].
  destruct H as [(a & b & E & Hb)|(a & b & c & d & n & E & (z & Hz) & Hd)]; unfold int_at, word; rewrite E; cbn [nth_error of_opt bind].
  - rewrite Hb. eexists; reflexivity.
  - rewrite Hz. cbn [bind]. destruct (z =? 0)%Z; [eexists; reflexivity|]. cbn [length Nat.eqb]. rewrite Hd. eexists; reflexivity.
Qed.
Print Assumptions C66_no_tallies_or_perturbations_refused.
(** Extra values at the end of the last line, one bin more than announced, and everything after a blank line are passed
    over in silence. *)
Theorem C66_silently_accepted_refuted :
  read_mctal (None, None) true (map ln (sample_head ++ sample_4 ["  1.0E+00 0.10  2.0E+00 0.20  3.0E+00 0.05"; "  4.0E+00 0.10  5.0E+00 0.25  9.0E+00 0.04 77.0 0.01 88.0 0.01"]%string))
    = Ok (head0, [tally4])
  /\ (exists t, read_mctal (None, None) true (map ln (sample_head ++ ["tally    4    1    0"; " 1 0"; "f        2"; "          10         20     30";
   "d        1"; "u        0"; "s        0"; "m        0"; "c        0"; "e        0"; "t        0";
   "vals"; "  1.0E+00 0.10  2.0E+00 0.20"; "tfc    1 1 1 1 1 1 1 1 1"; "  1000 1.0E+00 0.10 50.0"]%string)) = Ok (head0, [t]) /\ t_nCells t = 2%Z /\ t_cells t = [10; 20; 30]%Q)
  /\ read_mctal (None, None) true (map ln (sample_head ++ sample_4 good_values ++ [""]%string ++ sample_14)) = Ok (head0, [tally4]).
Proof. split; [vm_compute; reflexivity|]. split; [eexists; vm_compute; auto|vm_compute; reflexivity]. Qed.
Print Assumptions C66_silently_accepted_refuted.
(** A file that ends before the word "vals" of a tally makes the reader loop for ever. *)
Theorem C66_cut_file_never_ends_refuted : read_mctal (None, None) true (firstn 17 sample) = Err Diverges.
Proof. vm_compute; reflexivity. Qed.
Print Assumptions C66_cut_file_never_ends_refuted.
Example C66_witness : exists f h t, (HeadText h >> Series [] >> TallyLine t >> WrongCount t >> (fun rest => exists more, Tallies more rest)) f
  /\ f = map ln (sample_head ++ sample_4 (firstn 1 good_values)) /\ h = head0 /\ t = without_values tally4.
Proof.
  do 3 eexists. split; [|split; [reflexivity|split; reflexivity]]. destruct C62_witness_file as [HF _]. destruct C62_witness_text as [T1 _]. lines. 
  cut 4.
  - unfold HeadText. cut 1; [eexists; split; [reflexivity|]; do 3 eexists; vm_compute; auto|].
    cut 1; [eexists; split; reflexivity|]. cut 1; [eexists; split; [reflexivity|]; do 3 eexists; split; [vm_compute; reflexivity|]; split; [vm_compute; reflexivity|split; vm_compute; discriminate]|].
    split; [finish; vm_compute; discriminate|vm_compute; finish].
  - cut 0; [reflexivity|]. cut 1; [eexists; split; [reflexivity|]; do 4 eexists; split; [vm_compute; reflexivity|vm_compute; auto]|].
    cut 16; [|exists []; exact I]. unfold WrongCount. repeat split; try closed. unfold OrdinaryText.
    cut 1; [do 3 eexists; split; [reflexivity|]; split; [reflexivity|]; split; [discriminate|vm_compute; finish; repeat constructor; reflexivity]|].
    cut 1; [finish; split; [reflexivity|right; exists (s2l "flux in two cell"), "s"%char; split; reflexivity]|].
    cut 1; [eexists; split; [reflexivity|]; do 2 eexists; split; [starts|vm_compute; reflexivity]|].
    cut 1; [exists [10; 20]%Z; split; [reflexivity|]; split; [dataline|finish; intros X; vm_compute in X; intuition discriminate]|].
    cut 9; [unfold Middle; middle4; cut 1; [dataline|cut 1; [headline|cut 0; [nolines|eexists; split; [reflexivity|vm_compute; reflexivity]]]]|].
    cut 1; [left; exists (firstn 3 (values tally4)); split; [exists [firstn 3 (values tally4)]; split; [|reflexivity]|vm_compute; lia]|].
    + apply Forall2_cons; [|apply Forall2_nil]; eexists [(_, _); (_, _); (_, _)]; (split; [vm_compute; reflexivity|]); (split; [discriminate|]); pairs.
    + unfold Chart. cut 1; [eexists; split; [reflexivity|]; eexists; split; [vm_compute; reflexivity|]; split; [norm2; finish|reflexivity]|].
      repeat first [apply Forall2_cons | apply Forall2_nil]. do 5 eexists. eexists (Some _), (Some _), (Some _). split; [vm_compute; reflexivity|]. split; [no_tally|]. split; [vm_compute; reflexivity|]. split; [left; vm_compute; reflexivity|]. split; [vm_compute; reflexivity|]. split; [vm_compute|]; reflexivity.
Qed.
