(** Proofs: a tally read from its text has what the tables need. *)
From Coq Require Import Lia ZArith.
From Verif Require Import PyBase PyLemmas PyStr PyStrLemmas PyText D1SProofs2 MatProofs MatProofs2 MatProofs4 DataModel MeshModel MeshSpec MeshProofs MctalModel MctalSpec MctalProofs MctalProofs2 MctalProofs4 MctalProofs5 MctalProofs6.
Open Scope nat_scope.

Lemma in_shape_le ds ds' idx : Forall2 le ds ds' -> in_shape ds idx -> in_shape ds' idx.
Proof.
  intros HL. unfold in_shape. revert idx. induction HL as [|d d' ds ds' Hd HL IH]; intros idx H; inversion H; subst; constructor; [lia|]. apply IH. assumption.
Qed.
Lemma fits_le a : fits a -> size (a_bins a) <= Z.to_nat (one1 (a_n a)).
Proof. intros [H1 H2]. unfold size, one1. destruct (Z.eqb_spec (a_n a) 0); lia. Qed.
Lemma max_le z : (0 <= z)%Z -> Nat.max 1 (Z.to_nat z) <= Z.to_nat (one1 z).
Proof. intros H. unfold one1. destruct (Z.eqb_spec z 0); lia. Qed.

Theorem read_filled t vs t' ls : TallyText t vs ls -> Reads t vs t' -> 0 < nth 2 (sizes t) 0 ->
  Filled t' /\ (Forall (fun x => fst x <> None /\ snd x <> None) vs -> Finite t').
Proof.
  intros HT [HW HR] Hs.
  assert (ES : shape t' = shape t) by (rewrite <- HW; reflexivity).
  assert (EZ : sizes t' = sizes t) by (rewrite <- HW; reflexivity).
  assert (EC : t_cells t' = t_cells t) by (rewrite <- HW; reflexivity).
  assert (HV : forall idx, in_shape (shape t') idx -> exists v, nth_error vs (place (shape t) idx) = Some v /\ get_value t' idx = Ok v) by (intros idx H; apply HR; rewrite <- ES; exact H).
  assert (Hle : Forall2 le (size (t_cells t) :: sizes t) (shape t) /\ nonneg t).
  { assert (Hcom : common t) by (destruct HT as [HT|HT]; [apply HT|apply HT]).
    assert (Hn : (0 <= t_nCells t)%Z) by (destruct HT as [HT|HT]; [apply HT|]; destruct HT as (_ & _ & _ & HT & _); lia).
    destruct Hcom as (_ & Hd & _ & _ & _ & Fu & Fs & Fm & Fc & Fe & Ft & _).
    split; [|repeat split; [exact Hn|exact Hd|apply Fs|apply Fm]].
    assert (A : size (t_cells t) <= Z.to_nat (one1 (t_nCells t))).
    { destruct HT as [HT|HT].
      - destruct HT as (_ & _ & _ & _ & _ & _ & _ & _ & _ & Hc & _). unfold size, one1. destruct (is_detector t); [rewrite Hc, map_length, seq_length|]; destruct (Z.eqb_spec (t_nCells t) 0); lia.
      - destruct HT as (_ & _ & _ & E & Hc & _). rewrite E, Hc. destruct (is_detector t); cbn; lia. }
    assert (B : let '(_, na, nb, nc) := t_meshInfo t in size (t_corc t) <= Z.to_nat nc /\ size (t_corb t) <= Z.to_nat nb /\ size (t_cora t) <= Z.to_nat na).
    { destruct HT as [HT|HT].
      - destruct HT as (_ & _ & _ & _ & -> & -> & -> & -> & _). cbn. lia.
      - destruct HT as (_ & _ & _ & _ & _ & _ & _ & H & _). destruct (t_meshInfo t) as [[[mi na] nb] nc]. unfold size. lia. }
    unfold shape, sizes. destruct (t_meshInfo t) as [[[mi na] nb] nc]. cbn [map].
    repeat (constructor; [try assumption; try (apply fits_le; assumption); try (apply max_le; first [exact Hd|apply Fm]); try tauto|]); [|constructor].
    destruct Fs as [_ Fs]. unfold one1. destruct (a_tc (t_seg t)) as [[|]|], (Z.eqb_spec (a_n (t_seg t)) 0); lia. }
  destruct Hle as [Hle Hn]. split.
  - split; [rewrite <- HW in Hn; exact Hn|]. split; [rewrite EZ; exact Hs|]. split.
    + intros f idx [Hf Hi]. rewrite ES. rewrite EC in Hf. rewrite EZ in Hi. apply (in_shape_le _ _ _ Hle). constructor; assumption.
    + intros idx H. destruct (HV idx H) as (v & _ & E). eauto.
  - intros HF idx x Hi E. destruct (HV idx Hi) as (v & Hn1 & E2). rewrite E in E2. injection E2 as <-. rewrite Forall_forall in HF. destruct (HF x (nth_error_In _ _ Hn1)) as [N1 N2].
    destruct x as [[a|] [b|]]; cbn in *; try contradiction. eauto.
Qed.
