(** Proofs about grids (C57) *)
From Coq Require Import Lia ZArith Qabs Lqa.
From Verif Require Import PyBase PyLemmas PyStr PyStrLemmas D1SProofs2 LibModel LibProofs2 MeshModel MeshProofs FmeshModel FmeshSpec FmeshProofs.
Open Scope nat_scope.

(** ** shapes are kept *)
Lemma etbin_shaped m es ts m' : Shaped m -> get_etbin_data m es ts = Ok m' -> Shaped m'.
Proof.
  intros HS H. destruct (etbin_ok m es ts m' H) as ((Hc & H1 & H2 & H3) & oe & ot & Se & St & Ha).
  assert (Be : forall n, n < ne m' -> oe n < ne m).
  { intros n Hn. unfold ne in *. destruct es as [i|].
    - destruct Se as ((Hb & _) & _ & _ & H1'). rewrite H1' in Hn. change (Z.to_nat 1) with 1 in Hn. assert (n = 0) by lia. subst. lia.
    - destruct Se as [E F]. rewrite E in Hn. rewrite F. exact Hn. }
  assert (Bt : forall n, n < nt m' -> ot n < nt m).
  { intros n Hn. unfold nt in *. destruct ts as [i|].
    - destruct St as ((Hb & _) & _ & _ & H1'). rewrite H1' in Hn. change (Z.to_nat 1) with 1 in Hn. assert (n = 0) by lia. subst. lia.
    - destruct St as [E F]. rewrite E in Hn. rewrite F. exact Hn. }
  assert (X : nx1 m' = nx1 m /\ nx2 m' = nx2 m /\ nx3 m' = nx3 m) by (unfold nx1, nx2, nx3; rewrite H1, H2, H3; auto).
  destruct X as (X1 & X2 & X3).
  intros t e k j i. rewrite X1, X2, X3. split.
  - intros [p Hp].
    assert (Hte : t < nt m' /\ e < ne m').
    { revert Hp. clear - HS H. unfold get_etbin_data in H. destruct (pick (md_e m) es) as [[e0 eb]|] eqn:Ee; [|discriminate]. cbn [bind] in H.
      destruct (pick (md_t m) ts) as [[t0 tb]|] eqn:Et; [|discriminate]. cbn [bind] in H. injection H as <-. unfold nt, ne. cbn [md_a md_e md_t].
      assert (Ne : nbins eb = 1%Z \/ eb = md_e m). { destruct es; [left; apply (pick_some _ _ _ _ Ee)|right; injection Ee as _ <-; reflexivity]. }
      assert (Nt : nbins tb = 1%Z \/ tb = md_t m). { destruct ts; [left; apply (pick_some _ _ _ _ Et)|right; injection Et as _ <-; reflexivity]. }
      destruct (Z.eqb_spec (nbins eb) 1) as [E1|E1]; destruct (Z.eqb_spec (nbins tb) 1) as [E2|E2]; cbn [andb].
      - destruct (Nat.eqb_spec t 0); [|discriminate]. destruct (Nat.eqb_spec e 0); [|discriminate]. intros _. rewrite E1, E2. cbn. lia.
      - destruct (Nat.eqb_spec e 0); [|discriminate]. intros Hp. destruct Nt as [|Nt]; [contradiction|].
        destruct (proj1 (HS t e0 k j i) (ex_intro _ p Hp)) as (Q1 & _). unfold nt in Q1. rewrite Nt, E1. split; [exact Q1|cbn; lia].
      - destruct (Nat.eqb_spec t 0); [|discriminate]. intros Hp. destruct Ne as [|Ne]; [contradiction|].
        destruct (proj1 (HS t0 e k j i) (ex_intro _ p Hp)) as (_ & Q1 & _). unfold ne in Q1. rewrite Ne, E2. split; [cbn; lia|exact Q1].
      - intros Hp. destruct Ne as [|Ne]; [contradiction|]. destruct Nt as [|Nt]; [contradiction|].
        destruct (proj1 (HS t e k j i) (ex_intro _ p Hp)) as (Q1 & Q2 & _). unfold nt, ne in *. rewrite Ne, Nt. auto. }
    destruct Hte as [Ht He]. rewrite (Ha t e k j i Ht He) in Hp. destruct (proj1 (HS _ _ _ _ _) (ex_intro _ p Hp)) as (_ & _ & ?). tauto.
  - intros (Ht & He & Hk & Hj & Hi). rewrite (Ha t e k j i Ht He). apply HS. auto.
Qed.

(** ** labels *)
Lemma digits_no_us n : ~ In "_"%char (fmt03 n).
Proof. intros H. pose proof (fmt03_digits n) as D. unfold digits in D. rewrite Forall_forall in D. specialize (D _ H). discriminate D. Qed.
Lemma uncons_eq (a b : str) x y : ~ In "_"%char a -> ~ In "_"%char b -> a ++ "_"%char :: x = b ++ "_"%char :: y -> a = b /\ x = y.
Proof.
  revert b. induction a as [|c a IH]; intros [|d b] Ha Hb H; cbn [app] in H.
  - injection H as ->. auto.
  - injection H as E _. exfalso. apply Hb. left. congruence.
  - injection H as E _. exfalso. apply Ha. left. congruence.
  - injection H as -> H. destruct (IH b) as [-> ->]; auto; intros X; [apply Ha|apply Hb]; right; exact X.
Qed.
Definition code (n i : nat) : str := if S i =? n then s2l "Tot" else fmt03 (N.of_nat (S i)).
Lemma code_us n i : ~ In "_"%char (code n i).
Proof. unfold code. destruct (S i =? n); [cbn; intuition discriminate|apply digits_no_us]. Qed.
Lemma code_inj n i i' : i < n -> i' < n -> code n i = code n i' -> i = i'.
Proof.
  unfold code. intros H H' E. destruct (Nat.eqb_spec (S i) n) as [A|A]; destruct (Nat.eqb_spec (S i') n) as [B|B]; [lia| | |].
  - exfalso. pose proof (fmt03_digits (N.of_nat (S i'))) as D. rewrite <- E in D. inversion D as [|? ? D1 _]. discriminate D1.
  - exfalso. pose proof (fmt03_digits (N.of_nat (S i))) as D. rewrite E in D. inversion D as [|? ? D1 _]. discriminate D1.
  - apply (f_equal num_of) in E. rewrite !fmt03_num in E. lia.
Qed.
Lemma part_code c n i : 1 < n -> part c n i = s2l c ++ code n i.
Proof. intros H. unfold part. destruct (Nat.ltb_spec 1 n); [reflexivity|lia]. Qed.
Lemma part_one c n i : n <= 1 -> part c n i = [].
Proof. intros H. unfold part. destruct (Nat.ltb_spec 1 n); [lia|reflexivity]. Qed.
Lemma parts_inj nt ne t e t' e' : t < nt -> t' < nt -> e < ne -> e' < ne ->
  part "_t" nt t ++ part "_e" ne e = part "_t" nt t' ++ part "_e" ne e' -> t = t' /\ e = e'.
Proof.
  intros Ht Ht' He He' H.
  destruct (Nat.le_gt_cases nt 1) as [N|N]; destruct (Nat.le_gt_cases ne 1) as [M|M].
  - lia.
  - rewrite !(part_one "_t") in H by exact N. rewrite !part_code in H by exact M. cbn [app s2l list_ascii_of_string] in H. injection H as H. split; [lia|]. apply (code_inj ne); auto.
  - rewrite !(part_one "_e") in H by exact M. rewrite !part_code in H by exact N. rewrite !app_nil_r in H. cbn [app s2l list_ascii_of_string] in H. injection H as H. split; [|lia]. apply (code_inj nt); auto.
  - rewrite !part_code in H by assumption. cbn [app s2l list_ascii_of_string] in H. injection H as H.
    apply uncons_eq in H as [H1 H2]; try apply code_us. injection H2 as H2. split; eapply code_inj; eauto.
Qed.
Lemma label_inj base nt ne t e t' e' : t < nt -> t' < nt -> e < ne -> e' < ne -> label base nt ne t e = label base nt ne t' e' -> t = t' /\ e = e'.
Proof. intros ? ? ? ? H. unfold label in H. apply app_inv_head in H. eapply parts_inj; eauto. Qed.
Lemma prefix_cases {A} (a b x y : list A) : a ++ x = b ++ y -> (exists s, a = b ++ s) \/ (exists s, b = a ++ s).
Proof.
  revert b. induction a as [|c a IH]; intros b H; [right; exists b; reflexivity|].
  destruct b as [|d b]; [left; exists (c :: a); reflexivity|]. cbn [app] in H. injection H as -> H. destruct (IH b H) as [[s ->]|[s ->]]; [left|right]; exists s; reflexivity.
Qed.
Lemma label_base a b nt ne t e t' e' : Unrelated a b -> label a nt ne t e <> label b nt ne t' e'.
Proof. intros [H1 H2] E. unfold label in E. apply prefix_cases in E as [[s E]|[s E]]; [exact (H2 s E)|exact (H1 s E)]. Qed.

Lemma nth_map_last {A} (f : nat -> A) n x : forall i, i < n -> nth_error (map f (seq 0 (n - 1)) ++ [x]) i = Some (if S i =? n then x else f i).
Proof.
  intros i Hi. assert (L : length (map f (seq 0 (n - 1))) = n - 1) by (rewrite map_length, seq_length; reflexivity).
  destruct (Nat.eqb_spec (S i) n) as [E|E].
  - rewrite nth_error_app2 by lia. rewrite L. replace (i - (n - 1)) with 0 by lia. reflexivity.
  - rewrite nth_error_app1 by lia. rewrite nth_error_map, (nth_error_nth' (seq 0 (n - 1)) 0) by (rewrite seq_length; lia). rewrite seq_nth by lia. reflexivity.
Qed.
Lemma labels_ok nt ne l t e : t < nt -> e < ne -> exists row, nth_error (get_labels nt ne l) t = Some row
  /\ nth_error row e = Some (label (fst l) nt ne t e, label (snd l) nt ne t e).
Proof.
  intros Ht He. unfold get_labels, label, lab, bin_name.
  destruct (Nat.ltb_spec 1 nt) as [N|N]; destruct (Nat.ltb_spec 1 ne) as [M|M]; cbn [andb].
  - rewrite nth_map_last by exact Ht. rewrite !part_code by assumption. unfold code. destruct (S t =? nt).
    + eexists. split; [reflexivity|]. rewrite nth_map_last by exact He. destruct (S e =? ne); cbn [lab fst snd]; rewrite <- ?app_assoc; reflexivity.
    + eexists. split; [reflexivity|]. rewrite nth_map_last by exact He. destruct (S e =? ne); cbn [lab fst snd]; rewrite <- ?app_assoc; reflexivity.
  - rewrite nth_map_last by exact Ht. rewrite !(part_one "_e") by exact M. rewrite !part_code by assumption. unfold code. assert (e = 0) by lia. subst e.
    destruct (S t =? nt); (eexists; split; [reflexivity|]); cbn [nth_error]; rewrite ?app_nil_r; reflexivity.
  - assert (t = 0) by lia. subst t. eexists. split; [reflexivity|]. rewrite nth_map_last by exact He. rewrite !(part_one "_t") by exact N. rewrite !part_code by assumption. unfold code.
    destruct (S e =? ne); reflexivity.
  - assert (t = 0) by lia. assert (e = 0) by lia. subst. eexists. split; [reflexivity|]. rewrite !part_one by assumption. reflexivity.
Qed.

(** ** the arrays *)
Definition entries (m : mdata) (l : str * str) (te : nat * nat) : list (str * list Q) :=
  [(label (fst l) (nt m) (ne m) (fst te) (snd te), ravel m (fst te) (snd te) fst);
   (label (snd l) (nt m) (ne m) (fst te) (snd te), ravel m (fst te) (snd te) snd)].
Lemma in_bins a b t e : In (t, e) (bins a b) <-> t < a /\ e < b.
Proof.
  unfold bins. rewrite in_concat. split.
  - intros (l & Hl & Hin). apply in_map_iff in Hl as (t' & <- & Ht). apply in_map_iff in Hin as (e' & E & He). injection E as <- <-.
    apply in_seq in Ht, He. lia.
  - intros [Ht He]. exists (map (fun e => (t, e)) (seq 0 b)). split; [apply in_map_iff; exists t; split; [reflexivity|apply in_seq; lia]|apply in_map_iff; exists e; split; [reflexivity|apply in_seq; lia]].
Qed.
Lemma nodup_app {A} (l l' : list A) : NoDup l -> NoDup l' -> (forall x, In x l -> In x l' -> False) -> NoDup (l ++ l').
Proof.
  induction l as [|x l IH]; intros H H' D; [exact H'|]. inversion H as [|? ? Hn H2]; subst. cbn [app]. constructor.
  - intros Hin. apply in_app_or in Hin as [Hin|Hin]; [contradiction|]. exact (D x (or_introl eq_refl) Hin).
  - apply IH; auto. intros y H3 H4. exact (D y (or_intror H3) H4).
Qed.
Lemma nodup_bins a b : NoDup (bins a b).
Proof.
  unfold bins. assert (G : forall l : list nat, NoDup l -> NoDup (concat (map (fun t => map (fun e => (t, e)) (seq 0 b)) l))).
  { induction l as [|t l IH]; intros H; [constructor|]. inversion H as [|? ? Hn H']; subst. cbn [map concat].
    apply nodup_app; [|apply IH; exact H'|].
    - apply FinFun.Injective_map_NoDup; [intros x y E; congruence|apply seq_NoDup].
    - intros [t' e'] H1 H2. apply in_map_iff in H1 as (x & E & _). injection E as -> ->.
      apply in_concat in H2 as (l2 & Hl2 & Hin). apply in_map_iff in Hl2 as (t2 & <- & Ht2). apply in_map_iff in Hin as (x & E & _). injection E as -> ->. contradiction. }
  apply G. apply seq_NoDup.
Qed.

Lemma dget_not {V} n (d : list (str * V)) : ~ In n (map fst d) -> dget str_eqb n d = None.
Proof.
  induction d as [|[k v] d IH]; intros H; [reflexivity|]. cbn [dget]. destruct (str_eqb n k) eqn:E.
  - apply str_eqb_eq in E. subst. contradiction H. left. reflexivity.
  - apply IH. intros X. apply H. right. exact X.
Qed.
Lemma arrays_fold m l ls : Unrelated (fst l) (snd l) -> ls = get_labels (nt m) (ne m) l ->
  forall bs d, NoDup bs -> (forall te, In te bs -> fst te < nt m /\ snd te < ne m) ->
  (forall te, In te bs -> ~ In (label (fst l) (nt m) (ne m) (fst te) (snd te)) (map fst d) /\ ~ In (label (snd l) (nt m) (ne m) (fst te) (snd te)) (map fst d)) ->
  fold_left (add_bin m ls) bs (Ok d) = Ok (d ++ concat (map (entries m l) bs)).
Proof.
  intros U ->. induction bs as [|[t e] bs IH]; intros d ND HB HD; [cbn [fold_left map concat]; rewrite app_nil_r; reflexivity|].
  inversion ND as [|? ? Hn ND']; subst. destruct (HB (t, e) (or_introl eq_refl)) as [Ht He]. cbn [fst snd] in Ht, He.
  destruct (HD (t, e) (or_introl eq_refl)) as [Hv Her]. cbn [fst snd] in Hv, Her.
  cbn [fold_left map concat]. unfold add_bin at 2. cbn [bind fst snd].
  destruct (labels_ok (nt m) (ne m) l t e Ht He) as (row & Er & El). rewrite Er, El.
  rewrite (dset_new str_eqb _ _ d) by (apply dget_not; exact Hv).
  rewrite (dset_new str_eqb).
  2:{ apply dget_not. rewrite map_app, in_app_iff. intros [X|[X|[]]]; [exact (Her X)|]. cbn [fst] in X. exact (label_base _ _ _ _ _ _ _ _ U X). }
  rewrite IH.
  - rewrite <- !app_assoc. reflexivity.
  - exact ND'.
  - intros te H. apply HB. right. exact H.
  - intros [t' e'] Hin. destruct (HB (t', e') (or_intror Hin)) as [Ht' He']. cbn [fst snd] in *.
    destruct (HD (t', e') (or_intror Hin)) as [Hv' He2']. cbn [fst snd] in Hv', He2'.
    assert (NE : (t', e') <> (t, e)) by (intros E; rewrite E in Hin; contradiction).
    rewrite !map_app, !in_app_iff. cbn [map fst In].
    split; intros [[X|[X|[]]]|[X|[]]].
    + exact (Hv' X).
    + apply label_inj in X as [-> ->]; auto.
    + symmetry in X. exact (label_base _ _ _ _ _ _ _ _ U X).
    + exact (He2' X).
    + exact (label_base _ _ _ _ _ _ _ _ U X).
    + apply label_inj in X as [-> ->]; auto.
Qed.
Lemma arrays_ok m l : Unrelated (fst l) (snd l) -> bin_arrays m l = Ok (concat (map (entries m l) (bins (nt m) (ne m)))).
Proof.
  intros U. unfold bin_arrays. rewrite (arrays_fold m l _ U eq_refl (bins (nt m) (ne m)) []); [reflexivity|apply nodup_bins| |auto].
  intros [t e] H. apply in_bins in H. exact H.
Qed.
Lemma names_nodup m l : Unrelated (fst l) (snd l) -> NoDup (map fst (concat (map (entries m l) (bins (nt m) (ne m))))).
Proof.
  intros U. pose proof (nodup_bins (nt m) (ne m)) as ND.
  assert (HB : forall te, In te (bins (nt m) (ne m)) -> fst te < nt m /\ snd te < ne m) by (intros [t e] H; apply in_bins in H; exact H).
  revert ND HB. generalize (bins (nt m) (ne m)) as bs. induction bs as [|[t e] bs IH]; intros ND HB; [constructor|].
  inversion ND as [|? ? Hn ND']; subst. cbn [map concat]. rewrite map_app. destruct (HB (t, e) (or_introl eq_refl)) as [Ht He]. cbn [fst snd] in Ht, He.
  apply nodup_app.
  - cbn [entries map fst snd]. repeat constructor; cbn [In]; [|tauto]. intros [X|[]]. symmetry in X. exact (label_base _ _ _ _ _ _ _ _ U X).
  - apply IH; [exact ND'|]. intros te H. apply HB. right. exact H.
  - intros x H1 H2. apply in_map_iff in H2 as (y & <- & H2). apply in_concat in H2 as (l2 & Hl2 & H2). apply in_map_iff in Hl2 as ([t' e'] & <- & Hin).
    destruct (HB (t', e') (or_intror Hin)) as [Ht' He']. cbn [fst snd] in Ht', He'.
    assert (NE : (t', e') <> (t, e)) by (intros E; rewrite E in Hin; contradiction).
    cbn [entries map fst snd In] in H1, H2. destruct H2 as [<-|[<-|[]]]; cbn [fst] in H1; destruct H1 as [X|[X|[]]].
    + apply label_inj in X as [-> ->]; auto.
    + symmetry in X. exact (label_base _ _ _ _ _ _ _ _ U X).
    + exact (label_base _ _ _ _ _ _ _ _ U X).
    + apply label_inj in X as [-> ->]; auto.
Qed.
Lemma dget_in {V} n v (d : list (str * V)) : NoDup (map fst d) -> In (n, v) d -> dget str_eqb n d = Some v.
Proof.
  induction d as [|[k w] d IH]; intros H Hin; [contradiction|]. cbn [map fst] in H. inversion H as [|? ? Hn H']; subst. cbn [dget].
  destruct Hin as [E|Hin].
  - injection E as -> ->. rewrite (proj2 (str_eqb_eq n n) eq_refl). reflexivity.
  - destruct (str_eqb n k) eqn:E; [|apply IH; auto]. apply str_eqb_eq in E. subst. contradiction Hn. apply in_map_iff. exists (k, v). auto.
Qed.

(** ** flattening *)
Lemma nth_concat_map {A} (g : nat -> list A) n w : (forall x, length (g x) = w) ->
  length (concat (map g (seq 0 n))) = n * w /\ forall a b, a < n -> b < w -> nth_error (concat (map g (seq 0 n))) (a * w + b) = nth_error (g a) b.
Proof.
  intros L. assert (G : forall n s, length (concat (map g (seq s n))) = n * w /\ forall a b, a < n -> b < w -> nth_error (concat (map g (seq s n))) (a * w + b) = nth_error (g (s + a)) b).
  { clear n. induction n as [|n IH]; intros s; [split; [reflexivity|lia]|]. cbn [seq map concat]. destruct (IH (S s)) as [L1 N1].
    split; [rewrite app_length, L, L1; lia|]. intros [|a] b Ha Hb.
    - rewrite nth_error_app1 by (rewrite L; lia). rewrite Nat.add_0_r. reflexivity.
    - rewrite nth_error_app2 by (rewrite L; nia). rewrite L. replace (S a * w + b - w) with (a * w + b) by nia. rewrite N1 by lia. f_equal. f_equal. lia. }
  exact (G n 0).
Qed.
Lemma ravel_ok m t e side : Listing m t e side (ravel m t e side).
Proof.
  unfold Listing, ravel.
  assert (L0 : forall k j, length (map (fun i => side (cell (md_a m) t e k j i)) (seq 0 (nx1 m))) = nx1 m) by (intros; rewrite map_length, seq_length; reflexivity).
  assert (L1 : forall k, length (concat (map (fun j => map (fun i => side (cell (md_a m) t e k j i)) (seq 0 (nx1 m))) (seq 0 (nx2 m)))) = nx2 m * nx1 m) by (intros k; apply nth_concat_map; intros j; apply L0).
  destruct (nth_concat_map (fun k => concat (map (fun j => map (fun i => side (cell (md_a m) t e k j i)) (seq 0 (nx1 m))) (seq 0 (nx2 m)))) (nx3 m) (nx2 m * nx1 m) L1) as [L N].
  split; [rewrite L; lia|]. intros k j i p Hk Hj Hi Hp. replace ((k * nx2 m + j) * nx1 m + i) with (k * (nx2 m * nx1 m) + (j * nx1 m + i)) by lia.
  rewrite N; [|exact Hk|nia].
  destruct (nth_concat_map (fun j => map (fun i => side (cell (md_a m) t e k j i)) (seq 0 (nx1 m))) (nx2 m) (nx1 m) (L0 k)) as [_ N2].
  rewrite N2 by assumption. rewrite nth_error_map, (nth_error_nth' (seq 0 (nx1 m)) 0) by (rewrite seq_length; exact Hi). rewrite seq_nth by exact Hi.
  cbn [option_map Nat.add]. unfold cell. rewrite Hp. reflexivity.
Qed.

(** ** cutting the first angular bin *)
Lemma cut_ok m m' : cut_turn m = Ok m' -> md_cyl m = true -> (exists x, nth_error (md_x3 m) 0 = Some x /\ x < 1 # 2)%Q ->
  md_x1 m' = md_x1 m /\ md_x2 m' = md_x2 m /\ md_e m' = md_e m /\ md_t m' = md_t m /\ md_cyl m' = true /\
  (forall theta k, InBin (md_x3 m') k theta -> exists k0, InBin (md_x3 m) k0 theta /\ forall t e j i, md_a m' t e k j i = md_a m t e k0 j i) /\
  (forall theta k0, InBin (md_x3 m) k0 theta -> exists k, InBin (md_x3 m') k theta /\ forall t e j i, md_a m' t e k j i = md_a m t e k0 j i) /\
  (forall b, nth_error (md_x3 m') 1 = Some b -> b <= 1 # 2)%Q.
Proof.
  unfold cut_turn. intros H C (x & Hx & Hx2). rewrite C in H. destruct (md_x3 m) as [|x0 [|y xs]] eqn:X; try discriminate H.
  injection Hx as ->. destruct (Qle_bool y (1 # 2)) eqn:Y.
  - injection H as <-. rewrite X. do 5 (split; [auto|]). split; [intros theta k Hk; exists k; auto|]. split; [intros theta k Hk; exists k; auto|]. intros b Hb. cbn [nth_error] in Hb. injection Hb as <-. apply Qle_bool_iff. exact Y.
  - assert (Y2 : (1 # 2 < y)%Q). { destruct (Qlt_le_dec (1 # 2) y) as [L|L]; [exact L|]. apply Qle_bool_iff in L. congruence. }
    injection H as <-. cbn [md_x1 md_x2 md_x3 md_e md_t md_cyl md_a]. do 5 (split; [auto|]). split; [|split].
    + intros theta k (a & b & Ha & Hb & Hab). destruct k as [|[|k]]; cbn [nth_error] in Ha, Hb.
      * injection Ha as <-. injection Hb as <-. exists 0. split; [|reflexivity]. exists x, y. repeat split; try reflexivity; lra.
      * injection Ha as <-. injection Hb as <-. exists 0. split; [|reflexivity]. exists x, y. repeat split; try reflexivity; lra.
      * exists (S k). split; [|reflexivity]. exists a, b. auto.
    + intros theta k0 (a & b & Ha & Hb & Hab). destruct k0 as [|k0]; cbn [nth_error] in Ha, Hb.
      * injection Ha as <-. injection Hb as <-. destruct (Qlt_le_dec theta (1 # 2)) as [L|L].
        { exists 0. split; [|reflexivity]. exists x, (1 # 2)%Q. repeat split; try reflexivity; lra. }
        { exists 1. split; [|reflexivity]. exists (1 # 2)%Q, y. repeat split; try reflexivity; lra. }
      * exists (S (S k0)). split; [|reflexivity]. exists a, b. auto.
    + intros b Hb. cbn [nth_error] in Hb. injection Hb as <-. lra.
Qed.
