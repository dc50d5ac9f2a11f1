(** Proofs for C124. *)
From Coq Require Import ZArith Lia.
From Verif Require Import PyBase PyStr PyLemmas D1SProofs2 InpModel InpProofs FillModel FillSpec.
Open Scope nat_scope.

Lemma dset_mid key l l' (a b : cdict) : ~ In key (map fst a) -> dset str_eqb key l' (a ++ (key, l) :: b) = a ++ (key, l') :: b.
Proof.
  induction a as [|[k v] a IH]; intros H; cbn [app dset].
  - rewrite (proj2 (str_eqb_eq key key) eq_refl). reflexivity.
  - destruct (str_eqb key k) eqn:E; [apply str_eqb_eq in E; subst k; destruct H; left; reflexivity|]. rewrite IH; [reflexivity|]. intros X. apply H. right. exact X.
Qed.

Section Fill.
  Context (remove_fill again : card -> res card).
  Notation del := (delete_fill remove_fill again).
  (* what became of one cell *)
  Definition became (h h' : heap) (kl kl' : str * loc) : Prop := fst kl' = fst kl /\ exists c, nth_error h (snd kl) = Some c /\
    ((get_f c = None /\ snd kl' = snd kl /\ nth_error h' (snd kl) = Some c)
     \/ (has_fill c /\ length h <= snd kl' /\ exists c1 n, remove_fill c = Ok c1 /\ again c1 = Ok n /\ get_f n = None /\ nth_error h' (snd kl) = Some c1 /\ nth_error h' (snd kl') = Some n)).
  Definition ready (h : heap) (kl : str * loc) : Prop := exists c n, nth_error h (snd kl) = Some c /\ c_name c = Some n /\ key_num (fst kl) = str_of_Z n
    /\ (has_fill c -> exists c1 m, unfilled remove_fill again c c1 m).
  Lemma run items : forall h a z, NoDup (map fst (a ++ items)) -> NoDup (map snd items) -> Forall (ready h) items ->
    exists h' b, del h (a ++ items ++ z) items = ((h', a ++ b ++ z), None) /\ Forall2 (became h h') items b /\ length h <= length h'
      /\ (forall l, l < length h -> ~ In l (map snd items) -> nth_error h' l = nth_error h l).
  Proof.
    induction items as [|[key l] items IH]; intros h a z Nk Nl R.
    { exists h, []. split; [reflexivity|]. split; [constructor|]. split; [lia|auto]. }
    { inversion R as [|? ? (c & n & G & Cn & Kn & F) R']; subst. cbn [map] in Nl. inversion Nl as [|? ? Nl1 Nl2]; subst. cbn [fst snd] in *.
      assert (Hl : l < length h) by (apply nth_error_Some; congruence).
      cbn [delete_fill app]. unfold hget. rewrite G. cbn [of_opt].
      destruct (get_f c) as [f|] eqn:GF.
      + destruct (F ltac:(unfold has_fill; congruence)) as (c1 & m & RF & AG & GM & NM). rewrite RF, AG. cbv zeta.
        set (h1 := hset h l c1). assert (L1 : length h1 = length h) by apply hset_length.
        assert (Kin : ~ In key (map fst a)). { rewrite map_app in Nk. cbn [map] in Nk. apply NoDup_remove_2 in Nk. intros X. apply Nk. apply in_or_app. left. exact X. }
        rewrite (setitem_settled Kcel (h1 ++ [m]) (a ++ (key, l) :: items ++ z) key (length h1)).
        2:{ exists m, n. split; [rewrite nth_error_app2 by lia; rewrite Nat.sub_diag; reflexivity|]. split; [congruence|exact Kn]. }
        rewrite dset_mid by exact Kin.
        assert (same : forall x, x < length h -> x <> l -> nth_error (h1 ++ [m]) x = nth_error h x).
        { intros x Hx N. rewrite nth_error_app1 by lia. unfold h1. apply hset_other. congruence. }
        destruct (IH (h1 ++ [m]) (a ++ [(key, length h1)]) z) as (h' & b & E & B & LL & O).
        * rewrite !map_app in *. cbn [map fst] in *. rewrite <- app_assoc. exact Nk.
        * exact Nl2.
        * rewrite Forall_forall in R' |- *. intros [k x] I. destruct (R' _ I) as (c' & n' & G' & H'). exists c', n'. cbn [snd] in *. split; [|exact H'].
          rewrite same; [exact G'|apply nth_error_Some; congruence|]. intros ->. apply Nl1. apply in_map_iff. exists (k, l). auto.
        * exists h', ((key, length h1) :: b). rewrite <- !app_assoc in E. cbn [app] in E |- *. split; [exact E|]. rewrite app_length in LL, O. cbn [length] in LL, O. split; [|split; [lia|]].
          { constructor.
            - split; [reflexivity|]. exists c. split; [exact G|]. right. split; [unfold has_fill; congruence|]. cbn [fst snd]. split; [lia|]. exists c1, m. split; [exact RF|]. split; [exact AG|]. split; [exact GM|]. split.
              + rewrite O; [rewrite nth_error_app1 by lia; apply hset_same; exact Hl|lia|exact Nl1].
              + rewrite O; [rewrite nth_error_app2 by lia; rewrite Nat.sub_diag; reflexivity|lia|].
                intros X. apply in_map_iff in X as ([k x] & Ex & Ix). cbn [snd] in Ex. subst x. rewrite Forall_forall in R'. destruct (R' _ Ix) as (c' & n' & G' & _). cbn [snd] in G'. assert (length h1 < length h) by (apply nth_error_Some; congruence). lia.
            - clear -B same Nl1 R' L1. assert (W : forall kl, In kl items -> snd kl < length h /\ snd kl <> l).
              { intros kl I. rewrite Forall_forall in R'. destruct (R' _ I) as (c' & n' & G' & _). split; [apply nth_error_Some; congruence|]. intros X. apply Nl1. rewrite <- X. apply in_map. exact I. }
              clear R' Nl1. induction B as [|kl kl' items b (E & c & G & H) B IHB]; constructor.
              + destruct (W kl (or_introl eq_refl)) as [W1 W2]. split; [exact E|]. exists c. rewrite same in G by assumption. split; [exact G|]. destruct H as [H|(H1 & H2 & H3)]; [left; exact H|right]. split; [exact H1|]. split; [rewrite app_length in H2; cbn [length] in H2; lia|exact H3].
              + apply IHB. intros x I. apply W. right. exact I. }
          { intros x Hx N. cbn [map In snd] in N. rewrite O; [apply same; [exact Hx|intros ->; apply N; left; reflexivity]|lia|intros X; apply N; right; exact X]. }
      +
        assert (Nk' : NoDup (map fst ((a ++ [(key, l)]) ++ items))) by (rewrite <- app_assoc; exact Nk).
        destruct (IH h (a ++ [(key, l)]) z Nk' Nl2 R') as (h' & b & E & B & LL & O). exists h', ((key, l) :: b). rewrite <- !app_assoc in E. cbn [app] in E |- *. rewrite E. split; [reflexivity|]. split; [|split; [exact LL|]].
        * constructor; [|exact B]. split; [reflexivity|]. exists c. split; [exact G|]. left. cbn [snd]. split; [exact GF|]. split; [reflexivity|]. rewrite (O l Hl Nl1). exact G.
        * intros x Hx N. apply O; [exact Hx|]. intros X. apply N. right. exact X. }
  Qed.
  Lemma none_filled items : forall h d, Forall (fun kl => exists c, nth_error h (snd kl) = Some c /\ get_f c = None) items -> del h d items = ((h, d), None).
  Proof. induction items as [|[key l] items IH]; intros h d F; cbn [delete_fill]; [reflexivity|]. inversion F as [|? ? (c & G & H) F']; subst. cbn [snd] in G. unfold hget. rewrite G. cbn [of_opt]. rewrite H. apply IH. exact F'. Qed.
  Lemma del_app a b : forall h d, del h d (a ++ b) = match del h d a with ((h', d'), None) => del h' d' b | x => x end.
  Proof.
    induction a as [|[key l] a IH]; intros h d; cbn [app delete_fill]; [reflexivity|]. destruct (hget h l) as [c|e]; [|reflexivity]. destruct (get_f c); [|apply IH]. destruct (remove_fill c) as [c1|]; [|reflexivity]. cbv zeta.
    destruct (again c1) as [n|]; [|reflexivity]. destruct (setitem _ _ _ _ _) as [[h2 d2]|]; [apply IH|reflexivity].
  Qed.
End Fill.
Lemma nodup_left {A} (a b : list A) : NoDup (a ++ b) -> NoDup a.
Proof. induction a as [|x a IH]; intros H; [constructor|]. cbn [app] in H. inversion H as [|? ? H1 H2]; subst. constructor; [|exact (IH H2)]. intros X. apply H1, in_or_app. left. exact X. Qed.
