(** Proofs about cross sections of materials. *)
From Coq Require Import Lia ZArith Sorted Lqa.
From Verif Require Import PyBase PyLemmas PyStr PyText D1SProofs2 OutSpec OutProofs MatModel MatProofs XsModel XsSpec XsProofs XsProofs2 AceModel AceSpec.
Open Scope nat_scope.

Section Xs.
  Variable grid : str -> res (list Q).
  Variable table : str -> nat -> Q -> Q.
  Variable points : Q -> Q -> list Q.

  Lemma groups_len f : forall es low, length (groups points f low es) = length es.
  Proof. induction es as [|e r IH]; intros low; [reflexivity|]. cbn [groups length]. f_equal. apply IH. Qed.
  Lemma values_len group es low f : match group with Some g => es = g | None => True end -> length (values points group es low f) = length es.
  Proof. destruct group; intros H; cbn [values]; [subst; apply groups_len|apply map_length]. Qed.
  Lemma addq_nth a b i x y : nth_error a i = Some x -> nth_error b i = Some y -> nth_error (addq a b) i = Some (x + y)%Q.
  Proof. revert b i. induction a as [|p a IH]; intros [|q b] [|i] Ha Hb; try discriminate; unfold addq in *; cbn [combine map nth_error fst snd] in *; [congruence|]. apply IH; assumption. Qed.
  Lemma addq_len a b : length a = length b -> length (addq a b) = length a.
  Proof. intros H. unfold addq. rewrite map_length, combine_length. lia. Qed.
  (* the sum over the nuclides, each with the one before it *)
  Fixpoint chain (nuc : str) (zs : list zaid) (f : str -> Q) : Q := match zs with [] => 0%Q | z :: r => (z_frac z * f nuc + chain (nuc_of z) r f)%Q end.
  Fixpoint last_nuc (nuc : str) (zs : list zaid) : str := match zs with [] => nuc | z :: r => last_nuc (nuc_of z) r end.
  Lemma fold_zaids group es low line : match group with Some g => es = g | None => True end -> forall zs nuc acc, length acc = length es ->
    fst (fold_left (add_zaid table points group es low line) zs (nuc, acc)) = last_nuc nuc zs
    /\ length (snd (fold_left (add_zaid table points group es low line) zs (nuc, acc))) = length es
    /\ forall i v, nth_error (snd (fold_left (add_zaid table points group es low line) zs (nuc, acc))) i = Some v ->
       exists a, nth_error acc i = Some a /\ (v == a + chain nuc zs (fun n => nth i (values points group es (low n) (table n line)) 0%Q))%Q.
  Proof.
    intros HG. induction zs as [|z zs IH]; intros nuc acc L; cbn [fold_left last_nuc chain fst snd].
    - split; [reflexivity|]. split; [exact L|]. intros i v H. exists v. split; [exact H|]. ring.
    - cbn [add_zaid]. set (w := map _ _). assert (Lw : length w = length es) by (unfold w; rewrite map_length; apply values_len; exact HG).
      destruct (IH (nuc_of z) (addq acc w)) as (A & B & C); [rewrite addq_len; congruence|]. split; [exact A|]. split; [exact B|]. intros i v H. destruct (C i v H) as (a & Ha & E).
      assert (Hi : i < length es) by (rewrite <- B; apply nth_error_Some; congruence).
      destruct (nth_error acc i) as [x|] eqn:X; [|apply nth_error_None in X; lia]. destruct (nth_error w i) as [y|] eqn:Y; [|apply nth_error_None in Y; lia].
      rewrite (addq_nth acc w i x y X Y) in Ha. injection Ha as <-. exists x. split; [reflexivity|]. rewrite E.
      unfold w in Y. rewrite nth_error_map in Y. destruct (nth_error (values _ _ _ _ _) i) as [u|] eqn:U; [|discriminate Y]. injection Y as <-. rewrite (nth_error_nth _ _ 0%Q U). ring.
  Qed.
  Lemma last_nuc_app zs z nuc : last_nuc nuc (zs ++ [z]) = nuc_of z.
  Proof. revert nuc. induction zs as [|y zs IH]; intros nuc; [reflexivity|]. cbn [app last_nuc]. apply IH. Qed.
  Lemma chain_before zs f : forall z0, (chain (nuc_of z0) zs f == qsum (map (fun p => (z_frac (snd p) * f (z_elem (fst p) ++ z_iso (fst p)))%Q) (combine (z0 :: zs) zs)))%Q.
  Proof. induction zs as [|z zs IH]; intros z0; [reflexivity|]. cbn [chain combine map fst snd]. rewrite qsum_cons, IH. reflexivity. Qed.
  Lemma combine_cut {A} (a : list A) : forall b t : list A, length a = length b -> combine (a ++ t) b = combine a b.
  Proof. induction a as [|x a IH]; intros [|y b] t H; try discriminate; [destruct t; reflexivity|]. cbn [app combine]. f_equal. apply IH. cbn [length] in H. lia. Qed.
  Lemma chain_weighted zs f z0 : zs <> [] -> rev zs = z0 :: tl (rev zs) -> (chain (nuc_of z0) zs f == weighted_before f zs)%Q.
  Proof.
    intros N E. rewrite chain_before. unfold weighted_before, before_each. rewrite E. set (r := tl (rev zs)) in *. assert (Z : zs = rev r ++ [z0]) by (rewrite <- (rev_involutive zs), E; reflexivity).
    replace (combine (z0 :: zs) zs) with (combine (z0 :: rev r) zs); [reflexivity|]. symmetry. rewrite Z at 1. change (z0 :: rev r ++ [z0]) with ((z0 :: rev r) ++ [z0]).
    apply combine_cut. rewrite Z, app_length. cbn [length]. lia.
  Qed.
  Lemma all_types_ok group es low zs : match group with Some g => es = g | None => True end -> zs <> [] -> forall types line,
    let nuc := match rev zs with z :: _ => nuc_of z | [] => [] end in
    Forall2 (fun t row => length row = length es) types (all_types table points group es low zs nuc line types)
    /\ forall k t row, nth_error types k = Some t -> nth_error (all_types table points group es low zs nuc line types) k = Some row ->
       forall i v, nth_error row i = Some v -> if str_eqb t (s2l "unity") then v = 1%Q else (v == weighted_before (fun n => nth i (values points group es (low n) (table n (line + k))) 0%Q) zs)%Q.
  Proof.
    intros HG N types. destruct (rev zs) as [|z0 r] eqn:E; [apply (f_equal (@rev _)) in E; rewrite rev_involutive in E; contradiction|]. cbn zeta.
    induction types as [|t types IH]; intros line; [split; [constructor|intros k t row H; destruct k; discriminate H]|]. cbn [all_types]. destruct (str_eqb t (s2l "unity")) eqn:U.
    - destruct (IH (S line)) as [A B]. split; [constructor; [apply map_length|exact A]|]. intros [|k] t' row Ht Hr i v Hv; cbn [nth_error] in Ht, Hr.
      + injection Ht as <-. injection Hr as <-. rewrite U. rewrite nth_error_map in Hv. destruct (nth_error es i); [injection Hv as <-; reflexivity|discriminate Hv].
      + replace (line + S k) with (S line + k) by lia. exact (B k t' row Ht Hr i v Hv).
    - destruct (fold_zaids group es low line HG zs (nuc_of z0) (map (fun _ => 0%Q) es) (map_length _ _)) as (P & L & V).
      destruct (fold_left _ zs _) as [nuc' acc]. cbn [fst snd] in P, L, V. assert (nuc' = nuc_of z0) as ->.
      { rewrite P. assert (zs = rev r ++ [z0]) as -> by (rewrite <- (rev_involutive zs), E; reflexivity). apply last_nuc_app. }
      destruct (IH (S line)) as [A B]. split; [constructor; [exact L|exact A]|]. intros [|k] t' row Ht Hr i v Hv; cbn [nth_error] in Ht, Hr.
      + injection Ht as <-. injection Hr as <-. rewrite U. destruct (V i v Hv) as (a & Ha & Ev). rewrite nth_error_map in Ha. destruct (nth_error es i); [injection Ha as <-|discriminate Ha].
        rewrite Ev, (chain_weighted zs _ z0 N) by (rewrite E; reflexivity). rewrite Nat.add_0_r. ring.
      + replace (line + S k) with (S line + k) by lia. exact (B k t' row Ht Hr i v Hv).
  Qed.

  (** the union of the grids *)
  Lemma qins_in x l e : In e (qins x l) -> e = x \/ In e l.
  Proof. induction l as [|y l IH]; cbn [qins]; [intros [<-|[]]; auto|]. destruct (x ?= y)%Q; [auto|intros [<-|H]; auto|]. intros [<-|H]; [right; left; reflexivity|]. destruct (IH H); auto. right. right. assumption. Qed.
  Lemma qins_keeps x l e : In e l -> In e (qins x l).
  Proof. induction l as [|y l IH]; [intros []|]. intros H. cbn [qins]. destruct (x ?= y)%Q; [exact H|right; exact H|]. destruct H as [<-|H]; [left; reflexivity|right; apply IH; exact H]. Qed.
  Lemma qins_new x l : exists e, In e (qins x l) /\ (e == x)%Q.
  Proof.
    induction l as [|y l IH]; cbn [qins]; [exists x; split; [left; reflexivity|reflexivity]|]. destruct (x ?= y)%Q eqn:C.
    - exists y. split; [left; reflexivity|]. apply Qeq_alt in C. symmetry. exact C.
    - exists x. split; [left; reflexivity|reflexivity].
    - destruct IH as (e & H & E). exists e. split; [right; exact H|exact E].
  Qed.
  Lemma qins_sorted x l : StronglySorted Qlt l -> StronglySorted Qlt (qins x l).
  Proof.
    induction 1 as [|y l S IH F]; cbn [qins]; [repeat constructor|]. destruct (x ?= y)%Q eqn:C.
    - constructor; assumption.
    - apply Qlt_alt in C. constructor; [constructor; assumption|]. constructor; [exact C|]. eapply Forall_impl; [|exact F]. intros z Hz. lra.
    - apply Qgt_alt in C. constructor; [exact IH|]. apply Forall_forall. intros z Hz. destruct (qins_in x l z Hz) as [->|Hz']; [exact C|]. rewrite Forall_forall in F. apply F. exact Hz'.
  Qed.
  Lemma union_ok a b : StronglySorted Qlt (union1d a b) /\ (forall e, In e (a ++ b) -> exists e', In e' (union1d a b) /\ (e' == e)%Q) /\ (forall e, In e (union1d a b) -> In e (a ++ b)).
  Proof.
    unfold union1d. induction (a ++ b) as [|x l (S & K & M)]; cbn [fold_right]; [split; [constructor|split; [intros e []|intros e []]]|]. split; [apply qins_sorted; exact S|]. split.
    - intros e [<-|H]; [apply qins_new|]. destruct (K e H) as (e' & H' & E). exists e'. split; [apply qins_keeps; exact H'|exact E].
    - intros e H. apply qins_in in H as [->|H]; [left; reflexivity|right; apply M; exact H].
  Qed.
  Lemma unions_ok gs : forall g, StronglySorted Qlt g -> Union (g :: gs) (fold_left union1d gs g).
  Proof.
    assert (U : forall gs g seen, Union seen g -> Union (seen ++ gs) (fold_left union1d gs g)).
    { clear. induction gs as [|h gs IH]; intros g seen H; cbn [fold_left]; [rewrite app_nil_r; exact H|]. replace (seen ++ h :: gs) with ((seen ++ [h]) ++ gs) by (rewrite <- app_assoc; reflexivity).
      apply IH. destruct H as (S & K & M). destruct (union_ok g h) as (S' & K' & M'). split; [exact S'|]. split.
      - intros e x Hx He. apply in_app_or in Hx as [Hx|[<-|[]]].
        + destruct (K e x Hx He) as (e1 & H1 & E1). destruct (K' e1) as (e2 & H2 & E2); [apply in_or_app; left; exact H1|]. exists e2. split; [exact H2|]. rewrite E2. exact E1.
        + apply K'. apply in_or_app. right. exact He.
      - intros e He. apply M' in He. apply in_app_or in He as [He|He].
        + destruct (M e He) as (x & e' & Hx & H' & E). exists x, e'. split; [apply in_or_app; left; exact Hx|auto].
        + exists h, e. split; [apply in_or_app; right; left; reflexivity|]. split; [exact He|reflexivity]. }
    intros g S. change (g :: gs) with ([g] ++ gs). apply U. split; [exact S|]. split.
    - intros e x [<-|[]] He. exists e. split; [exact He|reflexivity].
    - intros e He. exists g, e. split; [left; reflexivity|]. split; [exact He|reflexivity].
  Qed.

  (** integrals *)
  Lemma trapz_bounds f lo hi : (forall e, (lo <= f e)%Q /\ (f e <= hi)%Q) -> forall l a, StronglySorted Qle (a :: l) ->
    (lo * (last l a - a) <= trapz f (a :: l))%Q /\ (trapz f (a :: l) <= hi * (last l a - a))%Q.
  Proof.
    intros H. induction l as [|b l IH]; intros a S.
    - cbn [trapz last]. split; ring_simplify; lra.
    - inversion S as [|? ? S' F]; subst. inversion F as [|? ? Fb _]; subst. specialize (IH b S'). assert (L : last (b :: l) a = last l b) by (clear; revert b; induction l as [|c l IH]; intros b; [reflexivity|]; cbn [last] in *; destruct l; [reflexivity|]; apply IH).
      rewrite L. change (trapz f (a :: b :: l)) with ((b - a) * (f a + f b) / 2 + trapz f (b :: l))%Q. destruct (H a) as [H1 H2], (H b) as [H3 H4]. set (t := trapz f (b :: l)) in *. set (z := last l b) in *.
      assert (Q1 : (lo * (b - a) <= (b - a) * (f a + f b) / 2)%Q). { unfold Qdiv. setoid_replace ((b - a) * (f a + f b) * / 2)%Q with ((b - a) * ((f a + f b) * (1 # 2)))%Q by (change (/ 2)%Q with (1 # 2)%Q; ring). rewrite (Qmult_comm lo). rewrite !(Qmult_comm (b - a)). apply Qmult_le_compat_r; lra. }
      assert (Q2 : ((b - a) * (f a + f b) / 2 <= hi * (b - a))%Q). { unfold Qdiv. setoid_replace ((b - a) * (f a + f b) * / 2)%Q with ((b - a) * ((f a + f b) * (1 # 2)))%Q by (change (/ 2)%Q with (1 # 2)%Q; ring). rewrite !(Qmult_comm (b - a)). apply Qmult_le_compat_r; lra. }
      split; lra.
  Qed.
End Xs.
