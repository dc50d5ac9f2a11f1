From Coq Require Import Lia Lqa Sorted.
From Verif Require Import PyBase PyLemmas PyStr PyStrLemmas PyText D1SModel D1SProofs2 LibModel LibSpec MatModel MatSpec MatProofs MatProofs2 MatProofs3 MatInfoModel MatInfoSpec MatInfoProofs MatInfoProofs2.
Open Scope nat_scope.

(** ** the element table *)
Lemma ndiv_ratio a b a' b' : (a == a')%Q -> (b == b')%Q -> ratio (ndiv a b) a' b'.
Proof. intros Ha Hb. unfold ratio, ndiv. destruct (Qeq_bool b 0) eqn:Q.
  - apply Qeq_bool_eq in Q. split; [reflexivity|]. intros N. exfalso. apply N. rewrite <- Hb. exact Q.
  - apply Qeq_bool_neq in Q. split; [intros Z; exfalso; apply Q; rewrite Hb; exact Z|]. intros _. exists (a / b)%Q. split; [reflexivity|]. rewrite Ha, Hb. reflexivity. Qed.
Lemma fsum_ext p q l : (forall r, In r l -> p r = q r) -> fsum p l = fsum q l.
Proof. intros H. unfold fsum. rewrite (filter_ext_in p q l H). reflexivity. Qed.
Lemma elem_table_in df r : In r (elem_table df) -> In (e_sub r, e_elem r) (map s_key df) /\
  e_frac r = fsum (fun x => Nat.eqb (fst x) (e_sub r) && esel (e_elem r) (snd x)) df /\
  e_subfrac r = ndiv (e_frac r) (fsum (fun x => Nat.eqb (fst x) (e_sub r) && (fun _ => true) (snd x)) df) /\
  e_matfrac r = ndiv (e_frac r) (fsum (fun _ => true) df).
Proof. unfold elem_table. intros H. apply in_map_iff in H. destruct H as [[k e] [<- H]]. apply (proj1 (keys_in _ _)) in H. cbn [e_sub e_elem e_frac e_subfrac e_matfrac fst snd]. split; [exact H|]. split; [reflexivity|]. split; [|reflexivity]. f_equal. apply fsum_ext. intros x _. now rewrite andb_true_r. Qed.
Lemma elem_table_all df k e : In (k, e) (map s_key df) -> exists r, In r (elem_table df) /\ e_sub r = k /\ e_elem r = e.
Proof. intros H. eexists. split; [unfold elem_table; apply in_map, keys_in, H|]. split; reflexivity. Qed.
Lemma elem_table_sorted df : StronglySorted row_lt (elem_table df).
Proof. unfold elem_table. pose proof (keys_sorted (map s_key df)) as S. induction S as [|k l S IH F]; [constructor|]. cbn [map]. constructor; [exact IH|]. rewrite Forall_map. revert F. apply Forall_impl. intros k' H. exact H. Qed.
Lemma all_wf m s : wf_material m -> In s (mt_subs m) -> Forall wf_zaid (s_zaids s).
Proof. intros W H. unfold wf_material in W. rewrite Forall_forall in *. intros z Hz. apply W. eapply in_all; eassumption. Qed.
Lemma picked_total (p q : zaid -> bool) zs : (forall y, In y zs -> p y = q y) -> total (filter p zs) = total (filter q zs).
Proof. intros H. unfold total. rewrite (filter_ext_in p q zs H). reflexivity. Qed.
(** the symbols of all the zaids of a material whose tables exist *)
Lemma zaid_symbols E s : Forall wf_zaid (s_zaids s) -> consistent s -> (forall z, In z (shown s) -> symbol_of E z (symb E z)) -> forall z, In z (s_zaids s) -> symbol_of E z (symb E z).
Proof. intros W C H z Hz. destruct (collapse_spec _ W) as [_ [I F]]. rewrite <- C in I, F. fold (shown s) in I, F.
  assert (Q : In (z_name z) (map z_name (shown s))) by (apply I; now apply in_map). apply in_map_iff in Q. destruct Q as [y [Ey Hy]]. rewrite Forall_forall in F, W.
  assert (N : z_elem y = z_elem z) by (apply nuclide_elem, name_nuclide; [apply (F y Hy)|now apply W|exact Ey]).
  destruct (H y Hy) as [n [r [P [R Er]]]]. exists n, r. rewrite <- N. split; [exact P|]. split; [exact R|]. rewrite Er. now apply symb_elem. Qed.
Lemma info_elem E b m rows el : wf_table (l_iso (m_lib E)) -> wf_material m -> Forall consistent (mt_subs m) -> mat_info E b m = Ok (rows, el) ->
  StronglySorted row_lt el /\
  (forall k e, (exists r, In r el /\ e_sub r = k /\ e_elem r = e) <-> exists s z, nth_sub m k s /\ In z (s_zaids s) /\ symbol_of E z e) /\
  (forall r, In r el -> exists s, nth_sub m (e_sub r) s /\
    (forall p, picks p (fun y => symbol_of E y (e_elem r)) (s_zaids s) -> (e_frac r == total (filter p (s_zaids s)))%Q) /\
    ratio (e_subfrac r) (e_frac r) (total (s_zaids s)) /\ ratio (e_matfrac r) (e_frac r) (tot_fraction m)).
Proof. intros W WM C H. destruct (mat_info_ok E b m rows el W H) as [sa [sm [SA [SM [LA [LM [NE [_ [-> G]]]]]]]]]. rewrite Forall_forall in C.
  assert (S : forall k s, nth_sub m k s -> In s (mt_subs m)) by (intros k s [_ Hs]; eapply nth_error_In; eassumption).
  assert (Y : forall s, In s (mt_subs m) -> forall z, In z (s_zaids s) -> symbol_of E z (symb E z)).
  { intros s Hs. apply zaid_symbols; [now apply (all_wf m)|now apply C|]. intros z Hz. now apply (G s Hs). }
  assert (Z : forall s e z, In s (mt_subs m) -> In z (s_zaids s) -> (symb E z = e <-> symbol_of E z e)).
  { intros s e z Hs Hz. split; [intros <-; now apply (Y s Hs)|intros Q; symmetry; now apply symbol_symb]. }
  split; [apply elem_table_sorted|]. split.
  - intros k e. assert (K : In (k, e) (map s_key (raw (lvl E b) 1 (mt_subs m))) <-> exists s z, nth_sub m k s /\ In z (s_zaids s) /\ symbol_of E z e).
    { rewrite raw_keys. split.
      - intros [s [Hs He]]. apply nth_at in Hs. apply (lvl_elems E b s e) in He; [|now apply (all_wf m), (S k)|now apply C, (S k)|now apply G, (S k)]. destruct He as [z [Hz Hsy]]. exists s, z. split; [exact Hs|]. split; [exact Hz|]. now apply (Z s e z (S k s Hs) Hz).
      - intros [s [z [Hs [Hz Hsy]]]]. exists s. split; [now apply nth_at|]. apply (lvl_elems E b s e); [now apply (all_wf m), (S k)|now apply C, (S k)|now apply G, (S k)|]. exists z. split; [exact Hz|]. now apply (Z s e z (S k s Hs) Hz). }
    rewrite <- K. split; [|apply elem_table_all]. intros [r [Hr [<- <-]]]. now apply elem_table_in in Hr.
  - intros r Hr. apply elem_table_in in Hr. destruct Hr as [K [F [R1 R2]]]. apply raw_keys in K. destruct K as [s [Hs He]]. exists s. split; [now apply nth_at|].
    pose proof (proj2 (nth_at m (e_sub r) s) Hs) as Hn. specialize (S _ s Hn). destruct (lvl_sum E b s (e_elem r) (all_wf m s WM S) (C s S) (proj1 (G s S))) as [L1 L2].
    assert (Ef : (e_frac r == total (filter (fun z => str_eqb (symb E z) (e_elem r)) (s_zaids s)))%Q) by (rewrite F, raw_sum, Hs; exact L1). split; [|split].
    + intros p Hp. rewrite Ef. rewrite (picked_total p (fun z => str_eqb (symb E z) (e_elem r))); [reflexivity|]. intros y Hy. apply eq_true_iff_eq. rewrite (Hp y Hy), str_eqb_eq. symmetry. exact (Z s (e_elem r) y S Hy).
    + rewrite R1. apply ndiv_ratio; [reflexivity|]. refine (Qeq_trans _ _ _ (raw_sum (lvl E b) (e_sub r) (fun _ => true) (mt_subs m) 1) _). rewrite Hs. exact L2.
    + rewrite R2. apply ndiv_ratio; [reflexivity|]. rewrite raw_all. unfold tot_fraction, all_zaids. rewrite concat_map. clear -G C WM. unfold wf_material, all_zaids in WM.
      induction (mt_subs m) as [|s l IH]; [reflexivity|]. cbn [map concat]. rewrite qsum_cons, qsum_app. cbn [map concat] in WM. apply Forall_app in WM. destruct WM as [W1 W2]. apply Qplus_comp.
      * apply (lvl_sum E b s []); [exact W1|apply C; now left|apply G; now left].
      * apply IH; [exact W2|intros x Hx; apply C; now right|intros x Hx; apply G; now right]. Qed.

(** sums of the fractions over the rows of a submaterial, and over all of them *)
Lemma sum_by_key (q : ekey -> bool) df : forall ks, NoDup ks -> (forall r, In r df -> q (s_key r) = true -> In (s_key r) ks) ->
  (qsum (map (fun k => fsum (fun r => key_eqb (s_key r) k) df) (filter q ks)) == fsum (fun r => q (s_key r)) df)%Q.
Proof. induction df as [|r df IH]; intros ks N H.
  - unfold fsum. cbn [filter map]. clear. induction (filter q ks) as [|k l IHl]; [reflexivity|]. cbn [map]. rewrite qsum_cons, IHl. reflexivity.
  - assert (P : forall p : srow -> bool, (fsum p (r :: df) == (if p r then i_frac (snd r) else 0) + fsum p df)%Q).
    { intros p. unfold fsum. cbn [filter]. destruct (p r); [cbn [map]; rewrite qsum_cons; reflexivity|lra]. }
    rewrite (P (fun r => q (s_key r))). rewrite <- (IH ks N (fun x Hx => H x (or_intror Hx))).
    rewrite (qsum_map_ext _ (fun k => (if key_eqb (s_key r) k then i_frac (snd r) else 0) + fsum (fun r0 => key_eqb (s_key r0) k) df)%Q) by (intros k _; apply P).
    assert (A : forall f g (l : list ekey), (qsum (map (fun k => f k + g k) l) == qsum (map f l) + qsum (map g l))%Q).
    { intros f g l. induction l as [|k l IHl]; [cbn; lra|]. cbn [map]. rewrite !qsum_cons, IHl. lra. }
    rewrite A. apply Qplus_comp; [|reflexivity]. destruct (q (s_key r)) eqn:Qr.
    + assert (I : In (s_key r) (filter q ks)) by (apply filter_In; split; [apply H; [now left|exact Qr]|exact Qr]). assert (ND : NoDup (filter q ks)) by now apply NoDup_filter.
      clear -I ND. induction ND as [|k l Nk ND IHl]; [destruct I|]. cbn [map]. rewrite qsum_cons. destruct (key_eqb (s_key r) k) eqn:Ek.
      * apply key_eqb_iff in Ek. assert (Z : (qsum (map (fun k0 => if key_eqb (s_key r) k0 then i_frac (snd r) else 0) l) == 0)%Q); [|lra].
        clear -Nk Ek. induction l as [|k' l IH]; [reflexivity|]. cbn [map]. rewrite qsum_cons. destruct (key_eqb (s_key r) k') eqn:E'; [apply key_eqb_iff in E'; exfalso; apply Nk; left; congruence|]. rewrite IH; [lra|]. intros Q. apply Nk. now right.
      * destruct I as [->|I]; [exfalso; assert (key_eqb (s_key r) (s_key r) = true) by (apply key_eqb_iff; reflexivity); congruence|]. rewrite (IHl I). lra.
    + clear -Qr. induction ks as [|k l IHl]; [reflexivity|]. cbn [filter]. destruct (q k) eqn:Qk; [|exact IHl]. cbn [map]. rewrite qsum_cons, IHl. destruct (key_eqb (s_key r) k) eqn:E; [apply key_eqb_iff in E; congruence|lra]. Qed.
Lemma osum_ratio (l : list erow) (f : erow -> option Q) (b : Q) : ~ (b == 0)%Q -> (forall r, In r l -> ratio (f r) (e_frac r) b) -> (osum (map f l) == qsum (map e_frac l) / b)%Q.
Proof. intros N H. unfold osum. rewrite map_map. induction l as [|r l IH]; [cbn; field; exact N|]. cbn [map]. rewrite !qsum_cons, IH by (intros x Hx; apply H; now right). destruct (proj2 (H r (or_introl eq_refl)) N) as [q [-> ->]]. field. exact N. Qed.
Lemma filter_map_key (p : erow -> bool) (f : ekey -> erow) l : filter p (map f l) = map f (filter (fun k => p (f k)) l).
Proof. induction l as [|k l IH]; [reflexivity|]. cbn [map filter]. destruct (p (f k)); [cbn [map]|]; now rewrite IH. Qed.
Lemma info_sums E b m rows el : wf_table (l_iso (m_lib E)) -> wf_material m -> Forall consistent (mt_subs m) -> mat_info E b m = Ok (rows, el) ->
  (forall k s, nth_sub m k s -> ~ (total (s_zaids s) == 0)%Q -> (osum (map e_subfrac (filter (fun r => Nat.eqb (e_sub r) k) el)) == 1)%Q) /\
  (~ (tot_fraction m == 0)%Q -> (osum (map e_matfrac el) == 1)%Q).
Proof. intros W WM C H. destruct (info_elem E b m rows el W WM C H) as [_ [_ R]]. destruct (mat_info_ok E b m rows el W H) as [sa [sm [SA [SM [LA [LM [NE [_ [E1 G]]]]]]]]]. rewrite Forall_forall in C.
  assert (PQ : forall q, (qsum (map e_frac (filter (fun r => q (e_sub r, e_elem r)) el)) == fsum (fun r => q (s_key r)) (raw (lvl E b) 1 (mt_subs m)))%Q).
  { intros q. rewrite E1. unfold elem_table. rewrite filter_map_key, map_map. cbn [e_frac e_sub e_elem]. rewrite <- (sum_by_key q _ (keys (map s_key (raw (lvl E b) 1 (mt_subs m))))).
    - rewrite (filter_ext (fun k : ekey => q (fst k, snd k)) q) by (intros [? ?]; reflexivity). reflexivity.
    - apply keys_nodup.
    - intros r Hr _. apply keys_in. now apply in_map. }
  split.
  - intros k s Hs N. rewrite (osum_ratio _ e_subfrac (total (s_zaids s)) N).
    + rewrite (PQ (fun k' => Nat.eqb (fst k') k)). rewrite (fsum_ext _ (fun r => Nat.eqb (fst r) k && (fun _ => true) (snd r))) by (intros r _; now rewrite andb_true_r).
      rewrite (raw_sum (lvl E b) k (fun _ => true) (mt_subs m) 1). rewrite (proj1 (nth_at m k s) Hs). assert (In s (mt_subs m)) by (destruct Hs as [_ Hs]; eapply nth_error_In; eassumption).
      destruct (lvl_sum E b s [] (all_wf m s WM H0) (C s H0) (proj1 (G s H0))) as [_ L2]. rewrite L2. field. exact N.
    + intros r Hr. apply filter_In in Hr. destruct Hr as [Hr Hk]. apply Nat.eqb_eq in Hk. destruct (R r Hr) as [s' [Hs' [_ [Q _]]]]. rewrite Hk in Hs'. destruct Hs as [_ Hs], Hs' as [_ Hs']. assert (s' = s) by congruence. subst s'. exact Q.
  - intros N. rewrite (osum_ratio _ e_matfrac (tot_fraction m) N) by (intros r Hr; destruct (R r Hr) as [s [_ [_ [_ Q]]]]; exact Q).
    assert (Q : (qsum (map e_frac el) == tot_fraction m)%Q); [|rewrite Q; field; exact N].
    assert (F : filter (fun r => (fun _ => true) (e_sub r, e_elem r)) el = el) by (clear; induction el as [|r l IH]; [reflexivity|cbn [filter]; now rewrite IH]).
    rewrite <- F, (PQ (fun _ => true)), raw_all. clear -G C WM. unfold tot_fraction, all_zaids. rewrite concat_map. unfold wf_material, all_zaids in WM.
    induction (mt_subs m) as [|s l IH]; [reflexivity|]. cbn [map concat]. rewrite qsum_cons, qsum_app. cbn [map concat] in WM. apply Forall_app in WM. destruct WM as [W1 W2]. apply Qplus_comp.
    * apply (lvl_sum E b s []); [exact W1|apply C; now left|apply G; now left].
    * apply IH; [exact W2|intros x Hx; apply C; now right|intros x Hx; apply G; now right]. Qed.
