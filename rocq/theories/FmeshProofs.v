(** Proofs about bin selection (C56) and grids (C57) *)
From Coq Require Import Lia ZArith Qabs.
From Verif Require Import PyBase PyLemmas PyStr PyStrLemmas D1SProofs2 LibModel LibProofs2 MeshModel MeshProofs FmeshModel FmeshSpec.
Open Scope nat_scope.

(** ** selection *)
Lemma pick_none b : pick b None = Ok (0, b). Proof. reflexivity. Qed.
Lemma last_nth {A} (l : list A) d : l <> [] -> nth_error l (length l - 1) = Some (last l d).
Proof.
  induction l as [|x l IH]; intros H; [contradiction|]. destruct l as [|y l]; [reflexivity|].
  cbn [length last]. replace (S (S (length l)) - 1) with (S (length (y :: l) - 1)) by (cbn [length]; lia). cbn [nth_error]. apply IH. discriminate.
Qed.
Lemma firstn2 {A} (l : list A) n : S n < length l -> exists u v, firstn 2 (skipn n l) = [u; v] /\ nth_error l n = Some u /\ nth_error l (S n) = Some v.
Proof.
  revert n. induction l as [|x l IH]; intros n H; [cbn in H; lia|]. destruct n as [|n].
  - destruct l as [|y l]; [cbn in H; lia|]. exists x, y. repeat split.
  - cbn [length] in H. destruct (IH n) as (u & v & E & E1 & E2); [lia|]. exists u, v. cbn [skipn nth_error]. auto.
Qed.
Lemma firstn1 {A} (l : list A) n : n < length l -> exists u, firstn 1 (skipn n l) = [u] /\ nth_error l n = Some u.
Proof.
  revert n. induction l as [|x l IH]; intros n H; [cbn in H; lia|]. destruct n as [|n].
  - exists x. split; reflexivity.
  - cbn [length] in H. destruct (IH n) as (u & E & E1); [lia|]. exists u. auto.
Qed.
Lemma nbins_bound b : binbound b = true -> nbins b = (Z.of_nat (length (x_vals b)) - 1 + if (length (x_vals b) =? 2)%nat then 0 else 1)%Z.
Proof. unfold nbins, binbound, totalbin. destruct (x_tag b); try discriminate; intros _; destruct (length (x_vals b) =? 2); reflexivity. Qed.
Lemma total_bound b : binbound b = true -> totalbin b = negb (length (x_vals b) =? 2).
Proof. unfold binbound, totalbin. destruct (x_tag b); try discriminate; reflexivity. Qed.

Lemma pick_some b i n b' : pick b (Some i) = Ok (n, b') -> BinNo b i n /\ BinVals b n (x_vals b') /\ x_tag b' = x_tag b /\ nbins b' = 1%Z.
Proof.
  unfold pick. intros H.
  assert (exists z, (if (i <? 0)%Z then if (- i <? nbins b + 1)%Z then Ok (i + nbins b)%Z else Err TypeError else Ok i) = Ok z) as [z Ez].
  { destruct (if (i <? 0)%Z then _ else _); [eauto|discriminate H]. }
  rewrite Ez in H. cbn [bind] in H. destruct (Z.ltb_spec z (nbins b)) as [Hz|Hz]; [|discriminate H].
  assert (Hz0 : (0 <= z)%Z /\ (i = z \/ (i < 0)%Z /\ (i + nbins b)%Z = z)).
  { destruct (Z.ltb_spec i 0); [destruct (Z.ltb_spec (- i) (nbins b + 1)); [injection Ez as <-; split; [lia|right; auto]|discriminate Ez]|injection Ez as <-; auto]. }
  destruct Hz0 as [Hz0 Hi]. clear Ez.
  assert (N : BinNo b i (Z.to_nat z)). { split; rewrite Z2Nat.id by lia; [lia|exact Hi]. }
  unfold BinVals. destruct (totalbin b) eqn:T.
  - destruct (Z.eqb_spec z (nbins b - 1)) as [E|E]; cbn [andb] in H.
    + destruct (binbound b) eqn:B.
      * destruct (x_vals b) as [|v vs] eqn:V; [discriminate H|]. injection H as <- <-. split; [exact N|].
        cbn [x_vals x_tag]. replace (Z.of_nat (S (Z.to_nat z)) =? nbins b)%Z with true by (symmetry; apply Z.eqb_eq; lia). cbn [andb].
        split; [|split; [reflexivity|]].
        { exists v, (last (v :: vs) 0%Q). split; [reflexivity|]. split; [reflexivity|]. apply last_nth. discriminate. }
        { unfold nbins, binbound, totalbin in *. cbn [x_tag x_vals length] in *. destruct (x_tag b); try discriminate; reflexivity. }
      * injection H as <- <-. split; [exact N|]. cbn [x_vals x_tag].
        replace (Z.of_nat (S (Z.to_nat z)) =? nbins b)%Z with true by (symmetry; apply Z.eqb_eq; lia). cbn [andb].
        split; [reflexivity|split; [reflexivity|]]. unfold nbins, binbound, totalbin in *. cbn [x_tag x_vals length] in *. destruct (x_tag b); try discriminate; reflexivity.
    + injection H as <- <-. split; [exact N|]. cbn [x_vals x_tag].
      replace (Z.of_nat (S (Z.to_nat z)) =? nbins b)%Z with false by (symmetry; apply Z.eqb_neq; lia). cbn [andb].
      destruct (binbound b) eqn:B.
      * destruct (firstn2 (x_vals b) (Z.to_nat z)) as (u & v & E1 & E2 & E3).
        { rewrite (nbins_bound b B) in Hz, E. rewrite (total_bound b B) in T. destruct (length (x_vals b) =? 2); [discriminate T|]. lia. }
        rewrite E1. split; [exists u, v; auto|]. split; [reflexivity|]. unfold nbins, binbound, totalbin in *. cbn [x_tag x_vals length] in *. destruct (x_tag b); try discriminate; reflexivity.
      * destruct (firstn1 (x_vals b) (Z.to_nat z)) as (u & E1 & E2).
        { unfold nbins in Hz, E. rewrite B, T in Hz, E. lia. }
        rewrite E1. split; [exists u; auto|]. split; [reflexivity|]. unfold nbins, binbound, totalbin in *. cbn [x_tag x_vals length] in *. destruct (x_tag b); try discriminate; reflexivity.
  - cbn [andb] in *. injection H as <- <-. split; [exact N|]. cbn [x_vals x_tag]. destruct (binbound b) eqn:B.
    + rewrite (total_bound b B) in T. rewrite (nbins_bound b B) in Hz. destruct (Nat.eqb_spec (length (x_vals b)) 2) as [L|L]; [|discriminate T].
      destruct (firstn2 (x_vals b) (Z.to_nat z)) as (u & v & E1 & E2 & E3); [lia|].
      rewrite E1. split; [exists u, v; auto|]. split; [reflexivity|]. unfold nbins, binbound, totalbin in *. cbn [x_tag x_vals length] in *. destruct (x_tag b); try discriminate; reflexivity.
    + destruct (firstn1 (x_vals b) (Z.to_nat z)) as (u & E1 & E2).
      { unfold nbins in Hz. rewrite B, T in Hz. lia. }
      rewrite E1. split; [exists u; auto|]. split; [reflexivity|]. unfold nbins, binbound, totalbin in *. cbn [x_tag x_vals length] in *. destruct (x_tag b); try discriminate; reflexivity.
Qed.
Lemma pick_range b sel : InRange b sel -> exists n b', pick b sel = Ok (n, b').
Proof.
  destruct sel as [i|]; [|intros _; exists 0, b; reflexivity]. intros H. unfold InRange in H. unfold pick.
  assert (E : exists z, (if (i <? 0)%Z then if (- i <? nbins b + 1)%Z then Ok (i + nbins b)%Z else Err TypeError else Ok i) = Ok z /\ (z < nbins b)%Z).
  { destruct (Z.ltb_spec i 0); [destruct (Z.ltb_spec (- i) (nbins b + 1)); [eexists; split; [reflexivity|lia]|lia]|eexists; split; [reflexivity|lia]]. }
  destruct E as (z & -> & Hz). cbn [bind]. destruct (Z.ltb_spec z (nbins b)); [|lia].
  destruct (totalbin b && (z =? nbins b - 1)%Z) eqn:E; [|eauto]. destruct (binbound b) eqn:B; [|eauto].
  destruct (x_vals b) eqn:V; [|eauto]. rewrite (nbins_bound b B), V in H. cbn in H. lia.
Qed.
Lemma pick_out b sel : ~ InRange b sel -> pick b sel = Err TypeError.
Proof.
  destruct sel as [i|]; [|intros H; contradiction H; exact I]. intros H. unfold InRange in H. unfold pick.
  destruct (Z.ltb_spec i 0).
  - destruct (Z.ltb_spec (- i) (nbins b + 1)); [|reflexivity]. cbn [bind]. destruct (Z.ltb_spec (i + nbins b) (nbins b)); [lia|reflexivity].
  - cbn [bind]. destruct (Z.ltb_spec i (nbins b)); [lia|reflexivity].
Qed.

Lemma etbin_ok m es ts m' : get_etbin_data m es ts = Ok m' -> SameSpace m m' /\
  exists oe ot, Selects (md_e m) es (md_e m') oe /\ Selects (md_t m) ts (md_t m') ot
    /\ (forall t e k j i, t < nt m' -> e < ne m' -> md_a m' t e k j i = md_a m (ot t) (oe e) k j i).
Proof.
  unfold get_etbin_data. destruct (pick (md_e m) es) as [[e eb]|] eqn:Ee; [|discriminate]. cbn [bind].
  destruct (pick (md_t m) ts) as [[t tb]|] eqn:Et; [|discriminate]. cbn [bind]. intros H. injection H as <-.
  split; [repeat split|]. unfold nt, ne. cbn [md_e md_t md_a].
  exists (match es with None => fun n => n | Some _ => fun _ => e end), (match ts with None => fun n => n | Some _ => fun _ => t end).
  assert (Se : match es with None => eb = md_e m /\ e = 0 | Some _ => nbins eb = 1%Z end /\ Selects (md_e m) es eb (match es with None => fun n => n | Some _ => fun _ => e end)).
  { destruct es as [i|]; [destruct (pick_some _ _ _ _ Ee) as (H1 & H2 & H3 & H4); split; [exact H4|repeat split; assumption || apply H1]|injection Ee as <- <-; repeat split]. }
  assert (St : match ts with None => tb = md_t m /\ t = 0 | Some _ => nbins tb = 1%Z end /\ Selects (md_t m) ts tb (match ts with None => fun n => n | Some _ => fun _ => t end)).
  { destruct ts as [i|]; [destruct (pick_some _ _ _ _ Et) as (H1 & H2 & H3 & H4); split; [exact H4|repeat split; assumption || apply H1]|injection Et as <- <-; repeat split]. }
  destruct Se as [Ne Se], St as [Nt St]. split; [exact Se|]. split; [exact St|]. intros t' e' k j i Ht He.
  assert (Fe : forall n, n < Z.to_nat (nbins eb) -> (match es with None => fun n => n | Some _ => fun _ => e end) n = if (nbins eb =? 1)%Z then e else n).
  { intros n Hn. destruct es; [rewrite Ne; reflexivity|]. destruct Ne as [-> ->]. destruct (Z.eqb_spec (nbins (md_e m)) 1) as [E|E]; [rewrite E in Hn; cbn in Hn; lia|reflexivity]. }
  assert (Ft : forall n, n < Z.to_nat (nbins tb) -> (match ts with None => fun n => n | Some _ => fun _ => t end) n = if (nbins tb =? 1)%Z then t else n).
  { intros n Hn. destruct ts; [rewrite Nt; reflexivity|]. destruct Nt as [-> ->]. destruct (Z.eqb_spec (nbins (md_t m)) 1) as [E|E]; [rewrite E in Hn; cbn in Hn; lia|reflexivity]. }
  rewrite (Fe e' He), (Ft t' Ht).
  destruct (Z.eqb_spec (nbins eb) 1) as [E1|E1]; destruct (Z.eqb_spec (nbins tb) 1) as [E2|E2]; cbn [andb].
  - rewrite E1 in He. rewrite E2 in Ht. change (Z.to_nat 1) with 1 in *. assert (e' = 0) by lia. assert (t' = 0) by lia. subst. reflexivity.
  - rewrite E1 in He. change (Z.to_nat 1) with 1 in *. assert (e' = 0) by lia. subst. reflexivity.
  - rewrite E2 in Ht. change (Z.to_nat 1) with 1 in *. assert (t' = 0) by lia. subst. reflexivity.
  - reflexivity.
Qed.
Lemma etbin_total m es ts : InRange (md_e m) es -> InRange (md_t m) ts -> exists m', get_etbin_data m es ts = Ok m'.
Proof.
  intros He Ht. destruct (pick_range _ _ He) as (e & eb & Ee), (pick_range _ _ Ht) as (t & tb & Et). unfold get_etbin_data. rewrite Ee. cbn [bind]. rewrite Et. cbn [bind]. eauto.
Qed.
Lemma etbin_out m es ts : ~ InRange (md_e m) es \/ ~ InRange (md_t m) ts -> get_etbin_data m es ts = Err TypeError.
Proof.
  intros H. unfold get_etbin_data. destruct (pick (md_e m) es) as [[e eb]|x] eqn:Ee.
  - destruct H as [H|H]; [rewrite (pick_out _ _ H) in Ee; discriminate Ee|]. cbn [bind]. rewrite (pick_out _ _ H). reflexivity.
  - cbn [bind]. f_equal. destruct es as [i|]; [|discriminate Ee].
    assert (D : InRange (md_e m) (Some i) \/ ~ InRange (md_e m) (Some i)) by (unfold InRange; lia).
    destruct D as [D|D]; [destruct (pick_range _ _ D) as (a & b & E); rewrite E in Ee; discriminate Ee|rewrite (pick_out _ _ D) in Ee; congruence].
Qed.
