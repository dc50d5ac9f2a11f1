(** Proofs for C117. *)
From Coq Require Import Reals Qreals Lra Lia Ascii List.
From Verif Require Import PyBase PyStr RssaModel PyText RssaInfoModel.
From Coq Require Import Lra.
Import ListNotations.
Local Open Scope R_scope.

Lemma sq_expand c : forall l, rsum (map (fun x => (x - c) * (x - c)) l) = rsum (map (fun x => x * x) l) - 2 * c * rsum l + INR (length l) * (c * c).
Proof. induction l as [|x l IH]; [simpl; ring|]. cbn [map rsum fold_right length]. fold (rsum (map (fun x => (x - c) * (x - c)) l)) (rsum (map (fun x => x * x) l)) (rsum l).
  rewrite IH, S_INR. ring. Qed.
Lemma sum_bound e : forall l c, Forall (fun x => Rabs (x - c) < e) l -> l <> [] -> rsum (map (fun x => (x - c) * (x - c)) l) < INR (length l) * (e * e).
Proof. intros l c. assert (S : forall x, Rabs (x - c) < e -> (x - c) * (x - c) < e * e).
  { intros x H. apply Rabs_def2 in H. nra. }
  induction l as [|x l IH]; [congruence|]. intros F _. inversion F; subst. cbn [map rsum fold_right length]. fold (rsum (map (fun x => (x - c) * (x - c)) l)). rewrite S_INR.
  specialize (S x H1). destruct l as [|y l]; [cbn [map rsum fold_right length INR]; rewrite Rplus_0_r, Rplus_0_l, Rmult_1_l; exact S|]. specialize (IH H2 ltac:(discriminate)). lra. Qed.
Lemma len_pos {A} (l : list A) : l <> [] -> 0 < INR (length l).
Proof. intros H. apply lt_0_INR. destruct l; [congruence|cbn [length]; lia]. Qed.
Lemma sum_nonneg c : forall l, 0 <= rsum (map (fun x => (x - c) * (x - c)) l).
Proof. induction l as [|x l IH]; [simpl; lra|]. cbn [map rsum fold_right]. fold (rsum (map (fun x => (x - c) * (x - c)) l)). pose proof (Rle_0_sqr (x - c)) as G. unfold Rsqr in G. lra. Qed.
Lemma var_least l c : l <> [] -> rsum (map (fun x => (x - mean l) * (x - mean l)) l) <= rsum (map (fun x => (x - c) * (x - c)) l).
Proof. intros H. pose proof (len_pos l H) as P. rewrite (sq_expand (mean l)), (sq_expand c). unfold mean. set (n := INR (length l)) in *. set (s := rsum l).
  assert (E : s = n * (s / n)) by (field; lra). set (m := s / n) in *. rewrite E. clearbody m n. pose proof (Rle_0_sqr (m - c)) as G. unfold Rsqr in G.
  assert (G' : 0 <= n * ((m - c) * (m - c))) by (apply Rmult_le_pos; lra). lra. Qed.
Lemma std_small l c e : l <> [] -> 0 < e -> Forall (fun x => Rabs (x - c) < e) l -> std l < e.
Proof. intros H He F. pose proof (len_pos l H) as P. unfold std. rewrite <- (sqrt_square e) by lra. apply sqrt_lt_1.
  - unfold mean at 1. rewrite map_length. apply Rmult_le_pos; [apply sum_nonneg|left; now apply Rinv_0_lt_compat].
  - nra.
  - unfold mean at 1. rewrite map_length. apply (Rmult_lt_reg_r (INR (length l))); [exact P|]. unfold Rdiv. rewrite Rmult_assoc, Rinv_l by lra. rewrite Rmult_1_r.
    eapply Rle_lt_trans; [apply (var_least l c H)|]. pose proof (sum_bound e l c F H). lra. Qed.
Lemma term_le c x : forall l, In x l -> (x - c) * (x - c) <= rsum (map (fun x => (x - c) * (x - c)) l).
Proof. induction l as [|y l IH]; [contradiction|]. cbn [map rsum fold_right]. fold (rsum (map (fun x => (x - c) * (x - c)) l)). pose proof (sum_nonneg c l).
  intros [->|I]; [lra|]. specialize (IH I). pose proof (Rle_0_sqr (y - c)) as G. unfold Rsqr in G. lra. Qed.
Lemma std_means l e : l <> [] -> 0 < e -> std l < e -> Forall (fun x => Rabs (x - mean l) < e * sqrt (INR (length l))) l.
Proof. intros H He S. pose proof (len_pos l H) as P. pose proof (sqrt_lt_R0 _ P) as Q. apply Forall_forall. intros x I. pose proof (term_le (mean l) x l I) as T.
  assert (V : rsum (map (fun x => (x - mean l) * (x - mean l)) l) < INR (length l) * (e * e)).
  { unfold std in S. set (v := mean (map _ l)) in S. assert (Hv : v < e * e).
    { destruct (Rlt_or_le v 0) as [N|N]; [nra|]. rewrite <- (sqrt_sqrt v N). pose proof (sqrt_pos v). nra. }
    unfold v, mean at 1 in Hv. rewrite map_length in Hv. apply (Rmult_lt_compat_r (INR (length l))) in Hv; [|exact P]. unfold Rdiv in Hv. rewrite Rmult_assoc, Rinv_l in Hv by lra. lra. }
  pose proof (sqrt_sqrt (INR (length l)) (Rlt_le _ _ P)) as QQ. set (q := sqrt (INR (length l))) in *.
  assert (G : (x - mean l) * (x - mean l) < (e * q) * (e * q)) by nra. assert (0 < e * q) by nra. apply Rabs_def1; nra. Qed.
Lemma const_std l c : l <> [] -> Forall (eq c) l -> std l < 1 / 10000.
Proof. intros H F. apply (std_small l c); [exact H|lra|]. eapply Forall_impl; [|exact F]. intros x <-. rewrite Rminus_diag_eq by reflexivity. rewrite Rabs_R0. lra. Qed.
