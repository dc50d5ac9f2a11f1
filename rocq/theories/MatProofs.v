From Coq Require Import Lia Lqa.
From Verif Require Import PyBase PyLemmas PyStr PyStrLemmas PyText WWTextProofs D1SProofs2 LibModel LibSpec LibProofs LibProofs2 LibProofs3 MatModel MatSpec.
Open Scope nat_scope.

(** sums *)
Lemma qsum_cons x l : qsum (x :: l) = (x + qsum l)%Q. Proof. reflexivity. Qed.
Lemma qsum_app a b : (qsum (a ++ b) == qsum a + qsum b)%Q.
Proof. induction a as [|x a IH]; cbn [app]; [change (qsum []) with 0%Q; ring|]. rewrite !qsum_cons, IH. ring. Qed.
Lemma qsum_map_ext {A} (f g : A -> Q) l : (forall x, In x l -> (f x == g x)%Q) -> (qsum (map f l) == qsum (map g l))%Q.
Proof. induction l as [|x l IH]; intros H; [reflexivity|]. cbn [map]. rewrite !qsum_cons. rewrite IH by (intros; apply H; right; assumption). rewrite (H x) by (left; reflexivity). reflexivity. Qed.
Lemma qsum_scale {A} (f : A -> Q) k l : (qsum (map (fun x => f x * k) l) == qsum (map f l) * k)%Q.
Proof. induction l as [|x l IH]; cbn [map]; [cbn; lra|]. rewrite !qsum_cons, IH. lra. Qed.
Lemma qsum_nonneg l : Forall (fun x => (0 <= x)%Q) l -> (0 <= qsum l)%Q.
Proof. induction 1; [cbn; lra|]. rewrite qsum_cons. lra. Qed.
Lemma qsum_Forall2 {A B} (f : A -> Q) (g : B -> Q) l l' : Forall2 (fun x y => (f x == g y)%Q) l l' -> (qsum (map f l) == qsum (map g l'))%Q.
Proof. induction 1 as [|x y l l' H _ IH]; [reflexivity|]. cbn [map]. rewrite !qsum_cons, H, IH. reflexivity. Qed.

(** names *)
Lemma split_dot_aux_no cur s : ~ In dot s -> split_dot_aux cur s = [rev cur ++ s].
Proof. revert cur; induction s as [|c s IH]; intros cur H; cbn [split_dot_aux]; [now rewrite app_nil_r|].
  destruct (Ascii.eqb_spec c dot) as [->|_]; [exfalso; apply H; left; reflexivity|]. rewrite IH by (intros Q; apply H; right; exact Q). cbn [rev]. now rewrite <- app_assoc. Qed.
Lemma split_dot_aux_dot cur s r : ~ In dot s -> split_dot_aux cur (s ++ dot :: r) = (rev cur ++ s) :: split_dot_aux [] r.
Proof. revert cur; induction s as [|c s IH]; intros cur H; cbn [app split_dot_aux].
  - rewrite Ascii.eqb_refl. now rewrite app_nil_r.
  - destruct (Ascii.eqb_spec c dot) as [->|_]; [exfalso; apply H; left; reflexivity|]. rewrite IH by (intros Q; apply H; right; exact Q). cbn [rev]. now rewrite <- app_assoc. Qed.
Lemma zaid_of_name_ok z f : wf_zaid z -> zaid_of_name (z_name z) f = with_frac z f.
Proof. intros (L & H1 & H2 & H3). unfold zaid_of_name, split_dot, z_name, with_frac.
  assert (N : ~ In dot (z_elem z ++ z_iso z)) by (intros Q; apply in_app_or in Q; tauto).
  destruct (z_lib z) as [l|] eqn:El.
  - rewrite app_assoc, split_dot_aux_dot by exact N. cbn [rev app]. rewrite (split_dot_aux_no [] l H3). cbn [rev app].
    destruct (but3_app (z_elem z) (z_iso z) L) as [-> ->]. reflexivity.
  - rewrite app_nil_r. rewrite split_dot_aux_no by exact N. cbn [rev app]. destruct (but3_app (z_elem z) (z_iso z) L) as [-> ->]. reflexivity. Qed.
Lemma name_nuclide z z' : wf_zaid z -> wf_zaid z' -> (z_name z = z_name z' <-> nuclide z = nuclide z').
Proof. intros W W'. split.
  - intros E. pose proof (zaid_of_name_ok z 0 W) as H. pose proof (zaid_of_name_ok z' 0 W') as H'. rewrite E, H' in H. unfold with_frac in H. unfold nuclide. congruence.
  - unfold nuclide, z_name. intros E. injection E as -> -> ->. reflexivity. Qed.

Lemma str_eqb_refl x : str_eqb x x = true. Proof. now apply str_eqb_eq. Qed.
Lemma str_eqb_neq x y : x <> y -> str_eqb x y = false.
Proof. intros H. destruct (str_eqb x y) eqn:E; [apply str_eqb_eq in E; contradiction|reflexivity]. Qed.
Lemma str_dec (a b : str) : {a = b} + {a <> b}.
Proof. destruct (str_eqb a b) eqn:E; [left; now apply str_eqb_eq|right]. intros ->. rewrite str_eqb_refl in E. discriminate. Qed.

(** firsts *)
Lemma firsts_aux_in l : forall seen x, In x (firsts_aux seen l) <-> In x l /\ ~ In x seen.
Proof. induction l as [|y l IH]; intros seen x; cbn [firsts_aux]; [simpl; tauto|].
  destruct (memb str_eqb y seen) eqn:E.
  - apply memb_str in E. rewrite IH. simpl. split; [tauto|]. intros [[->|H] N]; tauto.
  - assert (Ny : ~ In y seen) by (intros Q; apply memb_str in Q; congruence). simpl. rewrite IH. simpl.
    split; [intros [->|[H1 H2]]; [tauto|]; split; [tauto|]; intros Q; apply H2; tauto|].
    intros [[->|H] N]; [tauto|]. destruct (str_dec y x) as [->|D]; [tauto|]. right. split; [exact H|]. intros [Q|Q]; contradiction. Qed.
Lemma firsts_aux_nodup l : forall seen, NoDup (firsts_aux seen l).
Proof. induction l as [|y l IH]; intros seen; cbn [firsts_aux]; [constructor|]. destruct (memb str_eqb y seen); [apply IH|]. constructor; [|apply IH].
  rewrite firsts_aux_in. simpl. tauto. Qed.

(** keys of an accumulating dictionary *)
Section Acc.
  Context {A V : Type} (key : A -> str) (up : option V -> A -> V).
  Definition acc (d : list (str * V)) (l : list A) := fold_left (fun d z => dset str_eqb (key z) (up (dget str_eqb (key z) d) z) d) l d.
  Lemma dset_keys_eq (d : list (str * V)) k v : map fst (dset str_eqb k v d) = map fst d ++ (if memb str_eqb k (map fst d) then [] else [k]).
  Proof. induction d as [|[k' v'] d IH]; cbn [dset map fst memb app]; [reflexivity|]. destruct (str_eqb k k') eqn:E; cbn [map fst orb].
    - now rewrite app_nil_r.
    - rewrite IH. reflexivity. Qed.
  Lemma acc_keys l : forall d, map fst (acc d l) = map fst d ++ firsts_aux (rev (map fst d)) (map key l).
  Proof. induction l as [|z l IH]; intros d; cbn [acc fold_left map firsts_aux]; [now rewrite app_nil_r|].
    fold (acc (dset str_eqb (key z) (up (dget str_eqb (key z) d) z) d) l). rewrite IH, dset_keys_eq.
    assert (M : memb str_eqb (key z) (rev (map fst d)) = memb str_eqb (key z) (map fst d)).
    { apply eq_true_iff_eq. rewrite !memb_str. symmetry. apply in_rev. }
    rewrite M. destruct (memb str_eqb (key z) (map fst d)); [now rewrite app_nil_r|].
    rewrite rev_app_distr. cbn [rev app]. now rewrite <- app_assoc. Qed.
  Definition feed (o : option V) (l : list A) : option V := fold_left (fun o z => Some (up o z)) l o.
  Lemma acc_get k l : forall d, dget str_eqb k (acc d l) = feed (dget str_eqb k d) (filter (fun z => str_eqb (key z) k) l).
  Proof. induction l as [|z l IH]; intros d; cbn [acc fold_left filter]; [reflexivity|].
    fold (acc (dset str_eqb (key z) (up (dget str_eqb (key z) d) z) d) l). rewrite IH. destruct (str_eqb (key z) k) eqn:E.
    - apply str_eqb_eq in E. subst k. rewrite (dget_dset_same str_eqb str_eqb_eq). reflexivity.
    - rewrite (dget_dset_other str_eqb str_eqb_eq); [reflexivity|]. intros ->. rewrite str_eqb_refl in E. discriminate. Qed.
End Acc.

Definition upq (o : option Q) (z : zaid) : Q := match o with Some f => (f + z_frac z)%Q | None => z_frac z end.
Definition upl (o : option (list zaid)) (z : zaid) : list zaid := match o with Some l => l ++ [z] | None => [z] end.
Lemma collapse_names_acc zs : collapse_names zs = acc z_name upq [] zs. Proof. reflexivity. Qed.
Lemma group_elements_acc zs : group_elements zs = acc z_elem upl [] zs. Proof. reflexivity. Qed.
Lemma feed_upl l : forall o, feed upl o l = match l with [] => o | _ => Some (match o with Some a => a | None => [] end ++ l) end.
Proof. induction l as [|z l IH]; intros o; [reflexivity|]. cbn [feed fold_left]. fold (feed upl (Some (upl o z)) l). rewrite IH.
  destruct l; destruct o; cbn [upl app]; try reflexivity; now rewrite <- ?app_assoc. Qed.
Lemma feed_upq l : forall o, exists q, feed upq o l = match l with [] => o | _ => Some q end /\ (l <> [] -> (q == match o with Some a => a | None => 0 end + total l)%Q).
Proof. induction l as [|z l IH]; intros o; [exists 0%Q; split; [reflexivity|congruence]|]. cbn [feed fold_left]. fold (feed upq (Some (upq o z)) l).
  destruct (IH (Some (upq o z))) as [q [E H]]. unfold total in *. cbn [map] in *. rewrite qsum_cons. destruct l as [|z' l].
  - exists (upq o z). split; [exact E|]. intros _. cbn [map qsum fold_right]. destruct o; cbn [upq]; lra.
  - exists q. split; [exact E|]. intros _. rewrite H by discriminate. destruct o; cbn [upq]; lra. Qed.

Lemma dget_in_iff {V} (d : list (str * V)) k v : NoDup (map fst d) -> (dget str_eqb k d = Some v <-> In (k, v) d).
Proof. intros N. split; [apply (dget_some_in str_eqb str_eqb_eq)|now apply (in_dget str_eqb str_eqb_eq)]. Qed.

Lemma assoc_by_keys {V} (d : list (str * V)) (ks : list str) (f : str -> V) : map fst d = ks -> NoDup ks ->
  (forall k, In k ks -> dget str_eqb k d = Some (f k)) -> d = map (fun k => (k, f k)) ks.
Proof. intros <- N H. induction d as [|[k v] d IH]; [reflexivity|]. cbn [map fst] in *. inversion N; subst. f_equal.
  - specialize (H k (or_introl eq_refl)). cbn [dget] in H. rewrite str_eqb_refl in H. congruence.
  - apply IH; [assumption|]. intros k' Hk. specialize (H k' (or_intror Hk)). cbn [dget] in H. rewrite str_eqb_neq in H; [exact H|]. intros ->. contradiction. Qed.

Lemma group_spec zs : group_elements zs = map (fun e => (e, filter (fun z => str_eqb (z_elem z) e) zs)) (firsts (map z_elem zs)).
Proof. rewrite group_elements_acc. apply assoc_by_keys.
  - rewrite acc_keys. reflexivity.
  - apply firsts_aux_nodup.
  - intros k Hk. apply firsts_aux_in in Hk. destruct Hk as [Hk _]. rewrite acc_get. cbn [dget]. rewrite feed_upl. cbn [app].
    destruct (filter _ zs) eqn:E; [|reflexivity]. exfalso. apply in_map_iff in Hk. destruct Hk as [z [Ez Hz]].
    assert (Q : In z (filter (fun z => str_eqb (z_elem z) k) zs)) by (apply filter_In; split; [exact Hz|subst; apply str_eqb_refl]). rewrite E in Q. destruct Q. Qed.

Definition named (n : str) (zs : list zaid) := filter (fun z => str_eqb (z_name z) n) zs.
Lemma element_spec zs : Forall wf_zaid zs ->
  map z_name (element_zaids zs) = firsts (map z_name zs) /\
  Forall (fun z => wf_zaid z /\ (exists z0, In z0 zs /\ nuclide z0 = nuclide z) /\ (z_frac z == total (named (z_name z) zs))%Q) (element_zaids zs).
Proof. intros W. unfold element_zaids. rewrite collapse_names_acc.
  assert (K : map fst (acc z_name upq [] zs) = firsts (map z_name zs)) by (rewrite acc_keys; reflexivity).
  assert (G : forall nf, In nf (acc z_name upq [] zs) -> exists z0, In z0 zs /\ z_name z0 = fst nf /\ zaid_of_name (fst nf) (snd nf) = with_frac z0 (snd nf)).
  { intros nf H. assert (Hn : In (fst nf) (firsts (map z_name zs))) by (rewrite <- K; now apply in_map). apply firsts_aux_in in Hn. destruct Hn as [Hn _].
    apply in_map_iff in Hn. destruct Hn as [z0 [E0 H0]]. exists z0. split; [exact H0|]. split; [exact E0|]. rewrite <- E0. apply zaid_of_name_ok. rewrite Forall_forall in W. now apply W. }
  assert (NM : forall nf, In nf (acc z_name upq [] zs) -> z_name (zaid_of_name (fst nf) (snd nf)) = fst nf).
  { intros nf H. destruct (G nf H) as [z0 [_ [E0 ->]]]. exact E0. }
  split.
  - rewrite map_map, <- K. apply map_ext_in. exact NM.
  - rewrite Forall_map. apply Forall_forall. intros nf H. destruct (G nf H) as [z0 [H0 [E0 Ez]]]. rewrite (NM nf H). rewrite Ez. split; [|split].
    + rewrite Forall_forall in W. specialize (W z0 H0). exact W.
    + exists z0. split; [exact H0|reflexivity].
    + cbn [with_frac z_frac]. destruct nf as [n f]. cbn [fst snd] in *.
      assert (N : NoDup (map fst (acc z_name upq [] zs))) by (rewrite K; apply firsts_aux_nodup).
      apply (dget_in_iff _ _ _ N) in H. rewrite acc_get in H. cbn [dget] in H. unfold named.
      destruct (feed_upq (filter (fun z => str_eqb (z_name z) n) zs) None) as [q [E Hq]]. rewrite E in H.
      destruct (filter _ zs) as [|z1 l1]; [discriminate|]. injection H as <-. rewrite Hq by discriminate. lra. Qed.

Lemma filter_wf (p : zaid -> bool) zs : Forall wf_zaid zs -> Forall wf_zaid (filter p zs).
Proof. rewrite !Forall_forall. intros H z Hz. apply filter_In in Hz. apply H. tauto. Qed.

Lemma collapse_names_order zs : Forall wf_zaid zs ->
  map (map z_name) (collapse zs) = map (fun e => firsts (map z_name (filter (fun z => str_eqb (z_elem z) e) zs))) (firsts (map z_elem zs)).
Proof. intros W. unfold collapse. rewrite group_spec, !map_map. apply map_ext. intros e. cbn [snd]. apply element_spec. now apply filter_wf. Qed.

Lemma named_in_elem z zs : Forall wf_zaid zs -> wf_zaid z -> named (z_name z) (filter (fun z' => str_eqb (z_elem z') (z_elem z)) zs) = named (z_name z) zs.
Proof. intros W Wz. unfold named. induction W as [|y zs Wy W IH]; [reflexivity|]. cbn [filter]. destruct (str_eqb (z_elem y) (z_elem z)) eqn:E; cbn [filter].
  - destruct (str_eqb (z_name y) (z_name z)); now rewrite IH.
  - rewrite IH. destruct (str_eqb (z_name y) (z_name z)) eqn:En; [|reflexivity]. exfalso. apply str_eqb_eq in En. apply name_nuclide in En; [|assumption|assumption].
    unfold nuclide in En. injection En as E1 _ _. rewrite E1, str_eqb_refl in E. discriminate. Qed.

Lemma collapse_spec zs : Forall wf_zaid zs ->
  NoDup (map z_name (concat (collapse zs))) /\
  (forall n, In n (map z_name (concat (collapse zs))) <-> In n (map z_name zs)) /\
  Forall (fun z => wf_zaid z /\ (exists z0, In z0 zs /\ nuclide z0 = nuclide z) /\ (z_frac z == total (named (z_name z) zs))%Q) (concat (collapse zs)).
Proof. intros W.
  assert (F : Forall (fun z => wf_zaid z /\ (exists z0, In z0 zs /\ nuclide z0 = nuclide z) /\ (z_frac z == total (named (z_name z) zs))%Q) (concat (collapse zs))).
  { apply Forall_concat. unfold collapse. rewrite group_spec, map_map, Forall_map. apply Forall_forall. intros e He. cbn [snd].
    destruct (element_spec (filter (fun z => str_eqb (z_elem z) e) zs) (filter_wf _ _ W)) as [_ G]. revert G. apply Forall_impl.
    intros z [Wz [[z0 [H0 E0]] Hf]]. split; [exact Wz|]. apply filter_In in H0. destruct H0 as [H0 H1]. split; [eauto|]. apply str_eqb_eq in H1.
    assert (z_elem z = e) by (unfold nuclide in E0; injection E0 as E1 _ _; congruence). subst e. rewrite <- (named_in_elem z zs W Wz), H. exact Hf. }
  split; [|split; [|exact F]].
  - rewrite concat_map, collapse_names_order by exact W. pose proof (firsts_aux_nodup (map z_elem zs) []) as N. fold (firsts (map z_elem zs)) in N.
    induction (firsts (map z_elem zs)) as [|e es IH]; [constructor|]. cbn [map concat]. inversion N; subst. specialize (IH H2).
    assert (D : forall n, In n (firsts (map z_name (filter (fun z => str_eqb (z_elem z) e) zs))) ->
        ~ In n (concat (map (fun e => firsts (map z_name (filter (fun z => str_eqb (z_elem z) e) zs))) es))).
    { intros n Hn Q. apply in_concat in Q. destruct Q as [l [Hl Hnl]]. apply in_map_iff in Hl. destruct Hl as [e' [<- He']].
      apply firsts_aux_in in Hn, Hnl. destruct Hn as [Hn _], Hnl as [Hnl _]. apply in_map_iff in Hn, Hnl. destruct Hn as [z [En Hz]], Hnl as [z' [En' Hz']].
      apply filter_In in Hz, Hz'. destruct Hz as [Hz1 Hz2], Hz' as [Hz1' Hz2']. apply str_eqb_eq in Hz2, Hz2'.
      rewrite Forall_forall in W. assert (nuclide z = nuclide z') by (apply name_nuclide; [now apply W|now apply W|congruence]).
      unfold nuclide in H. injection H as E1 _ _. apply H1. congruence. }
    clear - D IH. revert IH D. pose proof (firsts_aux_nodup (map z_name (filter (fun z => str_eqb (z_elem z) e) zs)) []) as N. fold (firsts (map z_name (filter (fun z => str_eqb (z_elem z) e) zs))) in N.
    generalize (concat (map (fun e => firsts (map z_name (filter (fun z => str_eqb (z_elem z) e) zs))) es)). intros B NB D.
    induction N as [|x A Hx NA IHA]; [exact NB|]. cbn [app]. constructor.
    + rewrite in_app_iff. intros [Q|Q]; [contradiction|]. exact (D x (or_introl eq_refl) Q).
    + apply IHA. intros n Hn. apply D. right. exact Hn.
  - intros n. rewrite concat_map, collapse_names_order by exact W. rewrite in_concat. split.
    + intros [l [Hl Hn]]. apply in_map_iff in Hl. destruct Hl as [e [<- _]]. apply firsts_aux_in in Hn. destruct Hn as [Hn _]. apply in_map_iff in Hn. destruct Hn as [z [E Hz]].
      apply filter_In in Hz. apply in_map_iff. exists z. tauto.
    + intros H. apply in_map_iff in H. destruct H as [z [E Hz]]. eexists. split.
      * apply in_map_iff. exists (z_elem z). split; [reflexivity|]. apply firsts_aux_in. split; [now apply in_map|intros []].
      * apply firsts_aux_in. split; [|intros []]. apply in_map_iff. exists z. split; [exact E|]. apply filter_In. split; [exact Hz|apply str_eqb_refl]. Qed.

(** total conserved: sum over names of the sums *)
Lemma total_named_remove n zs : (total zs == total (named n zs) + total (filter (fun z => negb (str_eqb (z_name z) n)) zs))%Q.
Proof. unfold total, named. induction zs as [|z zs IH]; [cbn; lra|]. cbn [map filter]. destruct (str_eqb (z_name z) n); cbn [negb map]; rewrite !qsum_cons, IH; lra. Qed.
Lemma total_by_names ns : forall zs, NoDup ns -> (forall z, In z zs -> In (z_name z) ns) ->
  (qsum (map (fun n => total (named n zs)) ns) == total zs)%Q.
Proof. induction ns as [|n ns IH]; intros zs N H.
  - destruct zs as [|z zs]; [cbn; lra|]. exfalso. exact (H z (or_introl eq_refl)).
  - cbn [map]. rewrite qsum_cons. inversion N; subst. rewrite (total_named_remove n zs). rewrite <- (IH (filter (fun z => negb (str_eqb (z_name z) n)) zs)).
    + assert (E : (qsum (map (fun n0 => total (named n0 zs)) ns) == qsum (map (fun n0 => total (named n0 (filter (fun z => negb (str_eqb (z_name z) n)) zs))) ns))%Q); [|lra].
      apply qsum_map_ext. intros n0 Hn0. assert (n0 <> n) by (intros ->; contradiction). unfold named, total. clear - H0.
      induction zs as [|z zs IHz]; [reflexivity|]. cbn [filter]. destruct (str_eqb (z_name z) n) eqn:E1; cbn [negb filter].
      * apply str_eqb_eq in E1. rewrite (str_eqb_neq (z_name z) n0) by congruence. exact IHz.
      * destruct (str_eqb (z_name z) n0); [cbn [map]; rewrite !qsum_cons, IHz; reflexivity|exact IHz].
    + assumption.
    + intros z Hz. apply filter_In in Hz. destruct Hz as [Hz1 Hz2]. destruct (H z Hz1) as [->|Q]; [rewrite str_eqb_refl in Hz2; discriminate|exact Q]. Qed.
Lemma collapse_total zs : Forall wf_zaid zs -> (total (concat (collapse zs)) == total zs)%Q.
Proof. intros W. destruct (collapse_spec zs W) as [N [I F]].
  rewrite <- (total_by_names (map z_name (concat (collapse zs))) zs N).
  - unfold total at 1. rewrite map_map. apply qsum_map_ext. intros z Hz. rewrite Forall_forall in F. now apply F.
  - intros z Hz. apply I. now apply in_map. Qed.
