(** Windows saved and loaded back (proofs). *)
From Coq Require Import ZArith QArith Lia Qabs.
From Verif Require Import PyBase PyLemmas PyStr PyStrLemmas PyFmtLemmas B2Model B2Spec B2Proofs WWModel WWSpec WWProofs WWProofs2 WWProofs3 WWProofs5
  WWTextModel WWTextSpec WWTextProofs WWTextProofs2 CliModel WWFileModel WWFileSpec.
Open Scope nat_scope.

Lemma Forall2_length {A B} (R : A -> B -> Prop) l l' : Forall2 R l l' -> length l = length l'.
Proof. intros H. induction H; cbn [length]; congruence. Qed.

(** ** one axis *)
Lemma map_round_comp l l' : qlist_eq l l' -> map round5 l = map round5 l'.
Proof. intros H. induction H as [|a b l l' Hab _ IH]; [reflexivity|]. cbn [map]. rewrite (round5_comp a b Hab), IH. reflexivity. Qed.
Lemma write_vec_comp l l' : qlist_eq l l' -> write_vec l = write_vec l'.
Proof. intros H. rewrite <- (write_vec_round l), <- (write_vec_round l'), (map_round_comp _ _ H). reflexivity. Qed.
Lemma qlist_eq_sym l l' : qlist_eq l l' -> qlist_eq l' l.
Proof. intros H. induction H; constructor; auto. symmetry. assumption. Qed.
Lemma qlist_eq_trans a b c : qlist_eq a b -> qlist_eq b c -> qlist_eq a c.
Proof. intros H. revert c. induction H as [|x y a b Hx _ IH]; intros c H'; inversion H' as [|? z ? c' Hz H'']; subst; constructor.
  - now rewrite Hx.
  - apply IH. exact H''. Qed.
Lemma round_tail rest : Forall (fun n => 0 < n < 100000)%Z (map fst rest) ->
  qlist_eq (map round5 (b2_tail rest)) (b2_tail (map (fun nc => (fst nc, round5 (snd nc))) rest)).
Proof. induction rest as [|[n c] r IH]; intros H; [constructor|]. inversion H as [|? ? H1 H2]; subst. cbn [fst] in H1.
  unfold b2_tail in *. cbn [flat_map map app fst snd]. constructor; [apply round5_int; lia|]. constructor; [reflexivity|].
  constructor; [|apply IH; exact H2]. change 1%Q with (inject_Z 1). apply round5_int. lia. Qed.
Lemma zsum_bounds fine : Forall (fun n => 0 < n)%Z fine -> (0 <= zsum fine)%Z /\ Forall (fun n => n <= zsum fine)%Z fine /\ (Z.of_nat (length fine) <= zsum fine)%Z.
Proof. induction fine as [|n fine IH]; intros H; [cbn; repeat split; [lia|constructor|lia]|]. inversion H as [|? ? H1 H2]; subst.
  destruct (IH H2) as (A & B & C). cbn [zsum fold_right length]. fold (zsum fine). repeat split; [lia| |lia].
  constructor; [lia|]. eapply Forall_impl; [|exact B]. cbv beta. intros. lia. Qed.
Lemma ints_zsum fine : ints fine = zsum fine. Proof. reflexivity. Qed.
Lemma axis_counts coarse fine : axis_ok coarse fine -> (0 < zsum fine < 100000)%Z /\ small (ints fine) /\ small (coarse_ints coarse) /\ coarse_ints coarse = Z.of_nat (length fine).
Proof. intros (L & N & P & B & R). destruct (zsum_bounds fine P) as (Z0 & _ & Z1). unfold small, coarse_ints. change (ints fine) with (zsum fine). rewrite L.
  assert (0 < length fine) by (destruct fine; [contradiction|cbn; lia]). lia. Qed.
Lemma in_range_comp a b : (a == b)%Q -> in_range a -> in_range b.
Proof. intros E [H|H]; [left|right]; now rewrite <- E. Qed.
Lemma in_range_1 : in_range 1. Proof. apply (in_range_n 1). left. reflexivity. Qed.

Lemma axis_file coarse fine : axis_ok coarse fine -> exists b2 coarse' b2', compose_b2 coarse fine = Ok b2 /\
  (Z.of_nat (length b2) = 3 * coarse_ints coarse + 1)%Z /\ Forall in_range b2 /\
  decompose_b2 (map round5 b2) = Ok (coarse', fine) /\ Forall2 close5 coarse coarse' /\
  length coarse' = length coarse /\ compose_b2 coarse' fine = Ok b2' /\ write_vec b2' = write_vec b2.
Proof. intros H. destruct (axis_counts coarse fine H) as (ZS & _ & _ & CI). destruct H as (L & N & P & B & R).
  destruct coarse as [|c0 cs]; [discriminate|].
  destruct (zip_split fine cs) as [r [-> ->]]; [cbn in L; lia|].
  destruct (zsum_bounds _ P) as (_ & PB & _).
  assert (Q1 : Forall (fun n => 0 < n < 100000)%Z (map fst r)).
  { rewrite Forall_forall in *. intros n Hn. specialize (P n Hn). specialize (PB n Hn). cbv beta in PB. lia. }
  destruct (compose_layout c0 r) as [v [Hv Heq]].
  set (r' := map (fun nc => (fst nc, round5 (snd nc))) r).
  assert (F' : map fst r' = map fst r) by (unfold r'; rewrite map_map; apply map_ext; reflexivity).
  assert (S' : map snd r' = map round5 (map snd r)) by (unfold r'; rewrite !map_map; apply map_ext; reflexivity).
  assert (E : qlist_eq (map round5 v) (b2_layout (round5 c0) r')).
  { rewrite (map_round_comp _ _ Heq). unfold b2_layout. cbn [map]. constructor; [reflexivity|]. apply round_tail. exact Q1. }
  assert (D : exists coarse', decompose_b2 (map round5 v) = Ok (coarse', map fst r) /\ qlist_eq coarse' (round5 c0 :: map round5 (map snd r))).
  { destruct (map round5 v) as [|v0 vs]; [inversion E|]. inversion E as [|? ? ? ? E0 Et]; subst.
    assert (Hq : qlist_eq (v0 :: 1%Q :: vs) (round5 c0 :: 1%Q :: b2_tail r')) by (constructor; [auto|constructor; [reflexivity|auto]]).
    destruct (every3_compat _ _ Hq) as [E1 E2]. destruct (layout_dec (round5 c0) r') as [L1 L2].
    eexists. unfold decompose_b2. cbn [insert_filler bind]. rewrite coarse_every3, fine_third, E2, L2, F'. split; [reflexivity|].
    rewrite L1, S' in E1. exact E1. }
  destruct D as [coarse' [D1 D2]].
  assert (C' : length coarse' = length (c0 :: map snd r)).
  { rewrite (Forall2_length _ _ _ D2). cbn [length]. rewrite map_length. reflexivity. }
  assert (CC : exists b2', compose_b2 coarse' (map fst r) = Ok b2' /\ qlist_eq b2' (map round5 v)).
  { destruct coarse' as [|d0 ds]; [inversion D2|]. destruct (zip_split (map fst r) ds) as [q [Eq1 Eq2]]; [cbn in C'; rewrite !map_length in *; lia|].
    rewrite Eq1, Eq2. destruct (compose_layout d0 q) as [v' [Hv' Heq']]. exists v'. split; [exact Hv'|].
    eapply qlist_eq_trans; [exact Heq'|]. apply qlist_eq_sym. eapply qlist_eq_trans; [exact E|]. inversion D2 as [|? ? ? ? D0 Dt]; subst ds.
    unfold b2_layout. constructor; [symmetry; exact D0|]. clear - Eq1 Dt. revert q Eq1 Dt. unfold r'.
    induction r as [|[n c] r IH]; intros [|[m d] q] Eq1 Dt; try discriminate; [constructor|]. cbn [map fst snd] in *.
    injection Eq1 as -> Eq1. inversion Dt as [|? ? ? ? Dc Dr]; subst. unfold b2_tail in *. cbn [flat_map app fst snd].
    constructor; [reflexivity|]. constructor; [symmetry; exact Dc|]. constructor; [reflexivity|]. apply IH; assumption. }
  destruct CC as [b2' [CC1 CC2]].
  exists v, coarse', b2'. split; [exact Hv|]. split; [|split; [|split; [exact D1|split; [|split; [exact C'|split; [exact CC1|]]]]]].
  - rewrite CI, (Forall2_length _ _ _ Heq). unfold b2_layout. cbn [length]. rewrite map_length.
    assert (T : length (b2_tail r) = 3 * length r) by (clear; induction r as [|[n c] r IH]; [reflexivity|]; unfold b2_tail in *; cbn [flat_map app length] in *; lia). lia.
  - clear - Heq R Q1. assert (RL : Forall in_range (b2_layout c0 r)).
    { inversion R as [|? ? R0 Rt]; subst. unfold b2_layout. constructor; [exact R0|]. clear - Rt Q1. induction r as [|[n c] r IH]; [constructor|].
      cbn [map fst snd] in *. inversion Rt; subst. inversion Q1; subst. unfold b2_tail in *. cbn [flat_map app fst snd].
      constructor; [apply in_range_int; unfold small; lia|]. constructor; [assumption|]. constructor; [apply in_range_1|]. auto. }
    clear - Heq RL. revert Heq RL. generalize (b2_layout c0 r) as l. intros l Heq RL.
    induction Heq as [|a b v l0 Hab _ IH]; [constructor|]. inversion RL; subst. constructor; [eapply in_range_comp; [symmetry; exact Hab|assumption]|auto].
  - clear - D2. change (round5 c0 :: map round5 (map snd r)) with (map round5 (c0 :: map snd r)) in D2. revert D2. generalize (c0 :: map snd r) as l.
    intros l. revert coarse'. induction l as [|c l IH]; intros coarse' H; inversion H as [|? ? ? ? Hc Hl]; subst; constructor; [|apply IH; exact Hl].
    unfold close5. rewrite Hc. apply round5_acc.
  - rewrite (write_vec_comp _ _ CC2). apply write_vec_round. Qed.

(** ** values *)
Lemma packs_of_concat {A} n (l : list (list A)) : 0 < n -> Forall (fun r => length r = n) l -> packs n (concat l) = l.
Proof. intros Hn. induction l as [|r l IH]; intros H; [reflexivity|]. inversion H as [|? ? H1 H2]; subst. cbn [concat].
  rewrite packs_cons; [|lia|destruct r; [cbn in Hn; lia|discriminate]]. rewrite firstn_app, firstn_all, Nat.sub_diag, firstn_O, app_nil_r.
  rewrite skipn_app, skipn_all, Nat.sub_diag. cbn [app skipn]. rewrite IH by assumption. reflexivity. Qed.
Lemma concat_flat {A} (as_ : list (arr A)) : concat (map flatten3 as_) = concat (concat (concat as_)).
Proof. induction as_ as [|a l IH]; [reflexivity|]. cbn [map concat]. unfold flatten3 at 1. rewrite IH, !concat_app. reflexivity. Qed.
Lemma reshape_flat {A} nz ny nx (as_ : list (arr A)) : 0 < nz -> 0 < ny -> 0 < nx -> Forall (rect nz ny nx) as_ ->
  reshape4 (length as_) nz ny nx (concat (map flatten3 as_)) = Ok as_.
Proof. intros Hz Hy Hx H. unfold reshape4.
  assert (F1 : Forall (fun a => length a = nz) as_) by (eapply Forall_impl; [|exact H]; intros a [Ha _]; exact Ha).
  assert (F2 : Forall (fun p => length p = ny) (concat as_)).
  { clear F1. induction H as [|a l Ha _ IH]; [constructor|]. cbn [concat]. apply Forall_app. split; [|exact IH]. eapply Forall_impl; [|exact (proj2 Ha)]. intros p [Hp _]. exact Hp. }
  assert (F3 : Forall (fun r => length r = nx) (concat (concat as_))).
  { clear F1 F2. induction H as [|a l Ha _ IH]; [constructor|]. cbn [concat]. rewrite concat_app. apply Forall_app. split; [|exact IH].
    destruct Ha as [_ Ha]. clear - Ha. induction Ha as [|p a [_ Hp] _ IH]; [constructor|]. cbn [concat]. apply Forall_app. split; [exact Hp|exact IH]. }
  rewrite concat_flat.
  assert (LEN : forall B n (l : list (list B)), Forall (fun r => length r = n) l -> length (concat l) = length l * n).
  { clear. intros B n l H. induction H as [|r l Hr _ IH]; [reflexivity|]. cbn [concat length]. rewrite app_length, IH, Hr. lia. }
  rewrite (LEN _ nx _ F3), (LEN _ ny _ F2), (LEN _ nz _ F1), Nat.eqb_refl.
  rewrite (packs_of_concat nx _ Hx F3), (packs_of_concat ny _ Hy F2), (packs_of_concat nz _ Hz F1). reflexivity. Qed.

Definition round_b (b : ebin Q) : ebin Q := map (fun ea => (round5 (fst ea), map3 round5 (snd ea))) b.
Definition round_v (v : pvals Q) : pvals Q := map (fun pb => (fst pb, round_b (snd pb))) v.

Lemma flatten_map3 {A} (f : A -> A) (a : arr A) : flatten3 (map3 f a) = map f (flatten3 a).
Proof. unfold flatten3, map3. rewrite !concat_map. reflexivity. Qed.
Lemma round_b_flat b : concat (map flatten3 (dvals (round_b b))) = map round5 (concat (map flatten3 (dvals b))).
Proof. induction b as [|[e a] b IH]; [reflexivity|]. unfold dvals, round_b in *. cbn [map snd concat fst]. rewrite IH, flatten_map3, map_app. reflexivity. Qed.
Lemma round_b_keys b : dkeys (round_b b) = map round5 (dkeys b).
Proof. unfold dkeys, round_b. rewrite !map_map. reflexivity. Qed.
Lemma combine_kv {K V} (b : list (K * V)) : combine (dkeys b) (dvals b) = b.
Proof. induction b as [|[k v] b IH]; [reflexivity|]. unfold dkeys, dvals in *. cbn [map combine fst snd]. now rewrite IH. Qed.
Lemma apart_distinct l : printed_apart l -> distinct_energies (map round5 l).
Proof. intros H. induction H as [|a l Ha _ IH]; [constructor|]. cbn [map]. constructor; [|exact IH]. rewrite Forall_map. eapply Forall_impl; [|exact Ha].
  cbv beta. intros b Hb E. apply Hb. rewrite <- (fmt_g_round5 a), <- (fmt_g_round5 b). now apply fmt_g_comp. Qed.
Lemma bin_loads nz ny nx b : 0 < nz -> 0 < ny -> 0 < nx -> Forall (fun ea => rect nz ny nx (snd ea)) b -> printed_apart (dkeys b) ->
  reshape4 (length (map round5 (dkeys b))) nz ny nx (map round5 (concat (map flatten3 (dvals b)))) = Ok (dvals (round_b b)) /\
  energy_dict (map round5 (dkeys b)) (dvals (round_b b)) = round_b b.
Proof. intros Hz Hy Hx H D. split.
  - rewrite <- round_b_flat. replace (length (map round5 (dkeys b))) with (length (dvals (round_b b))).
    2:{ unfold dvals, dkeys, round_b. rewrite !map_length. reflexivity. }
    apply reshape_flat; try assumption. unfold dvals, round_b. rewrite !Forall_map. eapply Forall_impl; [|exact H]. intros [e a] Ha. cbn [fst snd] in *. now apply map3_rect.
  - rewrite energy_dict_distinct; [|apply apart_distinct; exact D|unfold dvals, dkeys, round_b; rewrite !map_length; reflexivity].
    rewrite <- round_b_keys. apply combine_kv. Qed.

Definition flat_b (b : ebin Q) : list Q := concat (map flatten3 (dvals b)).
Lemma format_std v : standard v -> format_nested v = Ok (map (fun pb => dkeys (snd pb)) v, map (fun pb => flat_b (snd pb)) v) /\
  energy_counts v = Ok (map (fun pb => length (snd pb)) v) /\ length (particles v) = length v /\ (length v = 1 \/ length v = 2).
Proof. intros [[b ->]|[b [c ->]]]; repeat split; auto. Qed.
Lemma round_std v : standard v -> standard (round_v v).
Proof. intros [[b ->]|[b [c ->]]]; [left|right]; unfold round_v; cbn [map fst snd]; eauto. Qed.
Lemma nested_loads nz ny nx v : 0 < nz -> 0 < ny -> 0 < nx -> standard v -> shaped nz ny nx v -> energies_ok v ->
  nested_to_values (length v) nz ny nx (map (fun pb => map round5 (dkeys (snd pb))) v) (map (fun pb => map round5 (flat_b (snd pb))) v) = Ok (round_v v).
Proof. intros Hz Hy Hx [[b ->]|[b [c ->]]] Hs He; unfold shaped, energies_ok in *.
  - inversion Hs as [|? ? Hb _]; subst. inversion He as [|? ? (_ & _ & _ & Db) _]; subst. cbn [snd] in *.
    destruct (bin_loads nz ny nx b Hz Hy Hx Hb Db) as [A1 A2]. unfold nested_to_values. cbn [length particles_of_count Nat.ltb Nat.leb seq combine foldM map nth_error of_opt bind snd].
    unfold flat_b, ebin, arr in *. rewrite A1. cbn [bind]. rewrite A2. reflexivity.
  - inversion Hs as [|? ? Hb Hs']; subst. inversion Hs' as [|? ? Hc _]; subst. inversion He as [|? ? (_ & _ & _ & Db) He']; subst. inversion He' as [|? ? (_ & _ & _ & Dc) _]; subst. cbn [snd] in *.
    destruct (bin_loads nz ny nx b Hz Hy Hx Hb Db) as [A1 A2]. destruct (bin_loads nz ny nx c Hz Hy Hx Hc Dc) as [B1 B2].
    unfold nested_to_values. cbn [length particles_of_count Nat.ltb Nat.leb seq combine foldM map nth_error of_opt bind snd].
    unfold flat_b, ebin, arr in *. rewrite A1. cbn [bind]. rewrite A2. rewrite B1. cbn [bind]. rewrite B2. reflexivity. Qed.
Lemma round_values5 v : values5 v (round_v v).
Proof. unfold values5, round_v. induction v as [|[p b] v IH]; [constructor|]. cbn [map fst snd]. constructor; [|exact IH]. cbn [fst snd]. split; [reflexivity|].
  unfold round_b. clear. induction b as [|[e a] b IH]; [constructor|]. cbn [map fst snd]. constructor; [|exact IH]. cbn [fst snd]. split; [apply round5_acc|].
  intros x. rewrite voxel_map3. destruct (voxel a x); cbn [option_map opt5]; [apply round5_acc|exact I]. Qed.
