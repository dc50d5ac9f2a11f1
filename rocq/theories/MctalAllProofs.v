(** Proof of C134. *)
From Coq Require Import Lia ZArith.
From Verif Require Import PyBase PyStr PyText MeshModel MeshSpec MctalModel MctalSpec MctalProofs2 MctalProofs4 MctalProofs5 MctalProofs6 MctalProofs7 MctalProofs8 MctalProofs9 MctalAllSpec.
Open Scope nat_scope.

Lemma tallies_texts ts : forall ls, Tallies ts ls -> Forall (fun tv => exists x, TallyText (fst tv) (snd tv) x) ts.
Proof.
  induction ts as [|[t vs] ts IH]; intros ls H; [constructor|]. cbn [Tallies] in H. destruct H as (a & b & _ & _ & c & d & _ & HT & HR).
  constructor; [exists c; exact HT|exact (IH _ HR)].
Qed.
Lemma file_texts h ts f : MctalText h ts f -> Forall (fun tv => exists x, TallyText (fst tv) (snd tv) x) ts.
Proof. intros (a & b & _ & _ & H). exact (tallies_texts _ _ H). Qed.

Section SameShape.
  Variables (t t' : tally).
  Hypothesis HW : without_values t' = t.
  Lemma w_shape : shape t' = shape t. Proof using HW. rewrite <- HW. reflexivity. Qed.
  Lemma w_sizes : sizes t' = sizes t. Proof using HW. rewrite <- HW. reflexivity. Qed.
  Lemma w_cells : t_cells t' = t_cells t. Proof using HW. rewrite <- HW. reflexivity. Qed.
  Lemma w_number : t_number t' = t_number t. Proof using HW. rewrite <- HW. reflexivity. Qed.
  Lemma w_total : total_name t' = total_name t. Proof using HW. rewrite <- HW. reflexivity. Qed.
  Lemma w_last f : last_bin t' f = last_bin t f. Proof using HW. unfold last_bin. rewrite w_shape. reflexivity. Qed.
  Lemma w_comb f idx : Comb t' f idx <-> Comb t f idx. Proof using HW. unfold Comb. rewrite w_sizes, w_cells. reflexivity. Qed.
  Lemma w_bin D r f idx v e : ShowsBin t' D r f idx v e <-> ShowsBin t D r f idx v e. Proof using HW. rewrite <- HW. reflexivity. Qed.
  Lemma w_tot D r f n v e : ShowsTotal t' D r f n v e <-> ShowsTotal t D r f n v e. Proof using HW. rewrite <- HW. reflexivity. Qed.
End SameShape.

Lemma one_table t vs t' ls D : TallyText t vs ls -> Reads t vs t' -> 0 < nth 2 (sizes t) 0 -> AllNumbers vs -> table t' = Ok D ->
  (forall f idx, Comb t f idx -> exists v e ir, nth_error vs (place (shape t) (f :: idx)) = Some (Some v, Some e) /\ In ir (d_rows D) /\ ShowsBin t D (snd ir) f idx v e)
  /\ (forall f n, f < size (t_cells t) -> total_name t = Some n -> exists v e ir, nth_error vs (place (shape t) (last_bin t f)) = Some (Some v, Some e) /\ In ir (d_rows D) /\ ShowsTotal t D (snd ir) f n v e)
  /\ (forall ir, In ir (d_rows D) ->
       (exists f idx v e, Comb t f idx /\ nth_error vs (place (shape t) (f :: idx)) = Some (Some v, Some e) /\ ShowsBin t D (snd ir) f idx v e)
       \/ (exists f n v e, f < size (t_cells t) /\ total_name t = Some n /\ nth_error vs (place (shape t) (last_bin t f)) = Some (Some v, Some e) /\ ShowsTotal t D (snd ir) f n v e)).
Proof.
  intros HT HR Hs HA ED. destruct (read_filled t vs t' ls HT HR Hs) as [HF HN]. specialize (HN HA).
  destruct HR as [HW HV]. destruct (table_combs t' HF HN) as (D' & ED' & _ & _ & H1 & H2 & H3).
  rewrite ED in ED'. injection ED' as <-.
  assert (Val : forall idx, in_shape (shape t) idx -> exists v e, nth_error vs (place (shape t) idx) = Some (Some v, Some e) /\ get_value t' idx = Ok (Some v, Some e)).
  { intros idx Hi. destruct (HV idx Hi) as (x & En & Eg). destruct (HN idx x) as (v & e & ->); [rewrite (w_shape t t' HW); exact Hi|exact Eg|].
    exists v, e. split; assumption. }
  assert (In1 : forall f idx, Comb t f idx -> in_shape (shape t) (f :: idx)).
  { intros f idx C. rewrite <- (w_shape t t' HW). apply HF. apply (w_comb t t' HW). exact C. }
  assert (In2 : forall f, f < size (t_cells t) -> in_shape (shape t) (last_bin t f)).
  { intros f Hf. rewrite <- (w_shape t t' HW), <- (w_last t t' HW). apply last_bin_shape; [exact HF|]. rewrite (w_cells t t' HW). exact Hf. }
  split; [|split].
  - intros f idx C. destruct (Val _ (In1 f idx C)) as (v & e & En & Eg). exists v, e.
    destruct (H1 f idx v e) as (ir & Hin & Hb); [apply (w_comb t t' HW); exact C|exact Eg|].
    exists ir. split; [exact En|]. split; [exact Hin|]. apply (w_bin t t' HW). exact Hb.
  - intros f n Hf Hn. destruct (Val _ (In2 f Hf)) as (v & e & En & Eg). exists v, e.
    destruct (H2 f n v e) as (ir & Hin & Hb); [rewrite (w_cells t t' HW); exact Hf|rewrite (w_total t t' HW); exact Hn|rewrite (w_last t t' HW); exact Eg|].
    exists ir. split; [exact En|]. split; [exact Hin|]. apply (w_tot t t' HW). exact Hb.
  - intros ir Hin. destruct (H3 ir Hin) as [(f & idx & v & e & C & Eg & Hb)|(f & n & v & e & Hf & Hn & Eg & Hb)].
    + left. apply (w_comb t t' HW) in C. exists f, idx, v, e. split; [exact C|]. split; [|apply (w_bin t t' HW); exact Hb].
      destruct (Val _ (In1 f idx C)) as (v' & e' & En & Eg'). rewrite Eg in Eg'. injection Eg' as <- <-. exact En.
    + right. rewrite (w_cells t t' HW) in Hf. rewrite (w_total t t' HW) in Hn. rewrite (w_last t t' HW) in Eg. exists f, n, v, e.
      split; [exact Hf|]. split; [exact Hn|]. split; [|apply (w_tot t t' HW); exact Hb].
      destruct (Val _ (In2 f Hf)) as (v' & e' & En & Eg'). rewrite Eg in Eg'. injection Eg' as <- <-. exact En.
Qed.

Lemma f2_nth {A B} (R : A -> B -> Prop) l l' : Forall2 R l l' -> forall i a, nth_error l i = Some a -> exists b, nth_error l' i = Some b /\ R a b.
Proof.
  induction 1 as [|x y l l' H _ IH]; intros [|i] a E; cbn [nth_error] in *; try discriminate E.
  - injection E as <-. exists y. split; [reflexivity|exact H].
  - exact (IH i a E).
Qed.

Theorem text_to_tables : forall junk h ts f, MctalText h ts f -> ts <> [] -> NoDup (map (fun tv => t_number (fst tv)) ts) ->
  Forall (fun tv => 0 < nth 2 (sizes (fst tv)) 0 /\ AllNumbers (snd tv)) ts ->
  exists rs l, read_mctal junk false f = Ok (h, rs) /\ (forall info x, read_mctal junk info f = Ok x -> x = (h, rs))
    /\ get_dfs rs = Ok l /\ map fst l = map (fun tv => t_number (fst tv)) ts
    /\ forall i t vs, nth_error ts i = Some (t, vs) -> exists D T, nth_error l i = Some (t_number t, (D, T))
       /\ (forall f idx, Comb t f idx -> exists v e ir, nth_error vs (place (shape t) (f :: idx)) = Some (Some v, Some e) /\ In ir (d_rows D) /\ ShowsBin t D (snd ir) f idx v e)
       /\ (forall f n, f < size (t_cells t) -> total_name t = Some n -> exists v e ir, nth_error vs (place (shape t) (last_bin t f)) = Some (Some v, Some e) /\ In ir (d_rows D) /\ ShowsTotal t D (snd ir) f n v e)
       /\ (forall ir, In ir (d_rows D) ->
            (exists f idx v e, Comb t f idx /\ nth_error vs (place (shape t) (f :: idx)) = Some (Some v, Some e) /\ ShowsBin t D (snd ir) f idx v e)
            \/ (exists f n v e, f < size (t_cells t) /\ total_name t = Some n /\ nth_error vs (place (shape t) (last_bin t f)) = Some (Some v, Some e) /\ ShowsTotal t D (snd ir) f n v e)).
Proof.
  intros junk h ts f HF Hne HD HA. destruct (read_ok junk false h ts f HF Hne) as (rs & HR & E). cbn [andb] in E.
  pose proof (file_texts _ _ _ HF) as HT.
  assert (EN : map t_number rs = map (fun tv => t_number (fst tv)) ts).
  { clear - HR. induction HR as [|tv r ts rs [HW _] _ IH]; [reflexivity|]. cbn [map]. rewrite IH, (w_number _ _ HW). reflexivity. }
  assert (HTab : Forall (fun t => exists D, table t = Ok D) rs).
  { clear - HR HT HA. induction HR as [|tv r ts rs HR1 _ IH]; [constructor|]. inversion HT as [|? ? (ls & HT1) HT2]; subst. inversion HA as [|? ? [Hs Hn] HA2]; subst.
    constructor; [|exact (IH HA2 HT2)]. destruct (read_filled _ _ _ _ HT1 HR1 Hs) as [F N]. destruct (table_combs r F (N Hn)) as (D & ED & _). exists D. exact ED. }
  destruct (get_dfs_ok rs) as (l & El & Em & Hl); [rewrite EN; exact HD|exact HTab|].
  exists rs, l. split; [exact E|]. split.
  { intros info x Ex. unfold read_mctal in E, Ex. destruct (get_headers f) as [[[h0 ws] f1]|]; cbn [bind] in E, Ex; [|discriminate E].
    destruct (get_tallies junk (S (length f1)) ws f1) as [ts0|]; cbn [bind andb] in E, Ex; [|discriminate E].
    injection E as <- <-. destruct (info && existsb has_nans ts0); [discriminate Ex|]. injection Ex as <-. reflexivity. }
  split; [exact El|]. split; [rewrite Em; exact EN|].
  intros i t vs Ei. destruct (f2_nth _ _ _ HR i _ Ei) as (t' & Er & HR1). cbn [fst snd] in HR1.
  destruct (Hl i t' Er) as (D & ED & En). exists D, (total_rows (last_total (firstn (S i) rs)) D).
  split; [rewrite En, (w_number _ _ (proj1 HR1)); reflexivity|].
  pose proof (nth_error_In _ _ Ei) as Hin. rewrite Forall_forall in HT, HA. destruct (HT _ Hin) as (ls & HT1). destruct (HA _ Hin) as [Hs Hn]. cbn [fst snd] in *.
  exact (one_table t vs t' ls D HT1 HR1 Hs Hn ED).
Qed.
