(** C121: the cross section of a material. *)
From Coq Require Import Lia ZArith Sorted Lqa.
From Verif Require Import PyBase PyLemmas PyStr PyText D1SProofs2 OutSpec OutProofs MatModel MatSpec MatProofs MatProofs2 MatProofs3 MatProps AceModel AceSpec AceProofs AceProps XsMatModel XsMatSpec XsMatProofs.
Open Scope nat_scope.

(* C121: the fractions are turned into normalised atom fractions, and every value is the mean over the nuclides weighted by their atoms *)
Theorem C121_mean : forall E grid table points m a gs types, has_masses E m -> Amounts E m a -> InLibrary grid (all_zaids m) gs ->
  exists m' es rows, get_xs E grid table points m types None = Ok (m', (es, rows)) /\ refrac (fun z => a z / sum_over a m)%Q m m' /\ Union gs es /\ length rows = length types
    /\ forall k t row i e, nth_error types k = Some t -> nth_error rows k = Some row -> nth_error es i = Some e ->
       exists v, nth_error row i = Some v /\ (v == if str_eqb t (s2l "unity") then 1 else mean_before a (fun n => table n k e) (all_zaids m))%Q.
Proof. exact get_xs_mean. Qed.
Print Assumptions C121_mean.

(* C121: only the proportions between the atoms of the nuclides count: neither the kind of the fractions nor their total *)
Theorem C121_only_proportions : forall E grid table points m1 m2 a1 a2 k gs types r1 es1 rows1 r2 es2 rows2,
  has_masses E m1 -> has_masses E m2 -> Amounts E m1 a1 -> Amounts E m2 a2 -> InLibrary grid (all_zaids m1) gs ->
  (0 < k)%Q -> Forall2 (fun x y => z_elem y = z_elem x /\ z_iso y = z_iso x /\ (a2 y == k * a1 x)%Q) (all_zaids m1) (all_zaids m2) ->
  get_xs E grid table points m1 types None = Ok (r1, (es1, rows1)) -> get_xs E grid table points m2 types None = Ok (r2, (es2, rows2)) ->
  es1 = es2 /\ same_rows rows1 rows2.
Proof.
  intros E grid table points m1 m2 a1 a2 k gs types r1 es1 rows1 r2 es2 rows2 H1 H2 A1 A2 L1 Hk F X1 X2.
  assert (L2 : InLibrary grid (all_zaids m2) gs). { clear -L1 F. unfold InLibrary in *. revert gs L1. induction F as [|x y l1 l2 (A & B & _) _ IH]; intros gs L; inversion L as [|? g ? gs' [G S] L']; subst; constructor; [|apply IH; exact L']. split; [|exact S]. rewrite A, B. exact G. }
  destruct (get_xs_mean E grid table points m1 a1 gs types H1 A1 L1) as (? & ? & ? & Y1 & _ & _ & N1 & V1). rewrite X1 in Y1. injection Y1 as <- <- <-.
  destruct (get_xs_mean E grid table points m2 a2 gs types H2 A2 L2) as (? & ? & ? & Y2 & _ & _ & N2 & V2). rewrite X2 in Y2. injection Y2 as <- <- <-.
  pose proof (get_xs_ok_rows _ _ _ _ _ _ _ _ _ _ _ H1 A1 L1 X1) as R1. pose proof (get_xs_ok_rows _ _ _ _ _ _ _ _ _ _ _ H2 A2 L2 X2) as R2. rewrite Forall_forall in R1, R2.
  assert (Es : es1 = es2).
  { clear -X1 X2 H1 H2 A1 A2 F. destruct (switches E m1 a1 H1 A1) as (g1 & ? & ? & ? & S1 & S2 & _). destruct (switches E m2 a2 H2 A2) as (g2 & ? & ? & ? & S3 & S4 & _).
    unfold get_xs in X1, X2. rewrite S1 in X1. rewrite S3 in X2. cbn [bind] in X1, X2. rewrite S2 in X1. rewrite S4 in X2. cbn [bind] in X1, X2. rewrite all_zaids_rebuild in X1, X2. unfold get_xs_list in X1, X2.
    assert (M : mapM (fun z => grid (nuc_of z)) (map (fun z => with_frac z (g1 z)) (all_zaids m1)) = mapM (fun z => grid (nuc_of z)) (map (fun z => with_frac z (g2 z)) (all_zaids m2))).
    { clear -F. induction F as [|x y l1 l2 (A & B & _) _ IH]; [reflexivity|]. cbn [map mapM]. replace (nuc_of (with_frac y (g2 y))) with (nuc_of (with_frac x (g1 x))) by (unfold nuc_of; cbn [with_frac z_elem z_iso]; rewrite A, B; reflexivity). rewrite IH. reflexivity. }
    rewrite M in X1. destruct (mapM _ _) as [gg|]; [|discriminate X1]. cbn [bind] in X1, X2. destruct gg as [|g gg]; [discriminate X1|]. cbn [bind] in X1, X2. congruence. }
  subst es2. split; [reflexivity|].
  assert (Gen : forall (a b : list (list Q)), length a = length b -> (forall k x y, nth_error a k = Some x -> nth_error b k = Some y -> Forall2 Qeq x y) -> Forall2 (Forall2 Qeq) a b).
  { clear. induction a as [|x a IH]; intros [|y b] HL HH; try discriminate HL; constructor; [exact (HH 0 x y eq_refl eq_refl)|]. apply IH; [cbn in HL; congruence|]. intros k. exact (HH (S k)). }
  assert (Gen1 : forall (a b : list Q), length a = length b -> (forall i x y, nth_error a i = Some x -> nth_error b i = Some y -> (x == y)%Q) -> Forall2 Qeq a b).
  { clear. induction a as [|x a IH]; intros [|y b] HL HH; try discriminate HL; constructor; [exact (HH 0 x y eq_refl eq_refl)|]. apply IH; [cbn in HL; congruence|]. intros k. exact (HH (S k)). }
  apply Gen; [congruence|]. intros j row1 row2 Hr1 Hr2. pose proof (R1 row1 (nth_error_In _ _ Hr1)) as E1. pose proof (R2 row2 (nth_error_In _ _ Hr2)) as E2. apply Gen1; [congruence|].
  intros i x y Hx Hy. assert (Ht : exists t, nth_error types j = Some t). { destruct (nth_error types j) as [t|] eqn:T; [exists t; reflexivity|]. apply nth_error_None in T. assert (j < length rows1) by (apply nth_error_Some; congruence). lia. }
  assert (He : exists e, nth_error es1 i = Some e). { destruct (nth_error es1 i) as [e|] eqn:T; [exists e; reflexivity|]. apply nth_error_None in T. assert (i < length row1) by (apply nth_error_Some; congruence). lia. }
  destruct Ht as [t Ht], He as [e He]. destruct (V1 j t row1 i e Ht Hr1 He) as (v1 & W1 & Q1). destruct (V2 j t row2 i e Ht Hr2 He) as (v2 & W2 & Q2). rewrite Hx in W1. rewrite Hy in W2. injection W1 as <-. injection W2 as <-. rewrite Q1, Q2.
  destruct (str_eqb t (s2l "unity")); [reflexivity|]. apply (mean_same k); [exact Hk|exact (proj2 (amounts_pos E m1 a1 H1 A1))|exact F].
Qed.
Print Assumptions C121_only_proportions.

(* C121: the value at an energy is never below the smallest nor above the largest value of the nuclides there *)
Theorem C121_between : forall E grid table points m a gs types m' es rows, has_masses E m -> Amounts E m a -> InLibrary grid (all_zaids m) gs -> get_xs E grid table points m types None = Ok (m', (es, rows)) ->
  forall k t row i e v lo hi, nth_error types k = Some t -> t <> s2l "unity" -> nth_error rows k = Some row -> nth_error es i = Some e -> nth_error row i = Some v ->
  (forall z, In z (all_zaids m) -> (lo <= table (z_elem z ++ z_iso z) k e)%Q /\ (table (z_elem z ++ z_iso z) k e <= hi)%Q) -> (lo <= v)%Q /\ (v <= hi)%Q.
Proof.
  intros E grid table points m a gs types m' es rows H A L X k t row i e v lo hi Ht U Hr He Hv B.
  destruct (get_xs_mean E grid table points m a gs types H A L) as (? & ? & ? & Y & _ & _ & _ & V). rewrite X in Y. injection Y as <- <- <-.
  destruct (V k t row i e Ht Hr He) as (v' & W & Qv). rewrite Hv in W. injection W as <-. destruct (str_eqb t (s2l "unity")) eqn:T; [apply str_eqb_eq in T; contradiction|]. rewrite Qv.
  destruct (amounts_pos E m a H A) as [P1 P2]. apply (mean_between a (fun n => table n k e)); assumption.
Qed.
Print Assumptions C121_between.

(* C121: the material of the caller is changed: one given in mass fractions comes back in atom fractions that add up to 1 *)
Theorem C121_the_material_is_changed_refuted : forall E grid table points m gs types m' r, has_masses E m -> mass_material m -> InLibrary grid (all_zaids m) gs -> get_xs E grid table points m types None = Ok (m', r) ->
  m' <> m /\ atom_material m' /\ (tot_fraction m' == 1)%Q.
Proof.
  intros E grid table points m gs types m' r H A L X. unfold get_xs, switch_inplace at 1 in X. rewrite no_must_mass in X by (destruct A; lra). cbn [bind] in X. rewrite (inplace_atom E m H A) in X. cbn [bind] in X.
  destruct (get_xs_list _ _ _ _ _ _) as [y|]; [|discriminate X]. cbn [bind] in X. assert (Em : m' = rebuild (fr Atom E m) m) by congruence. pose proof (switched_atom E m H A) as At. rewrite <- Em in At. split; [|split; [exact At|]].
  - intros Y. rewrite Y in At. destruct A, At. lra.
  - rewrite Em. apply tot_fr_atom. pose proof (norm_atom_pos E m H A). lra.
Qed.
Print Assumptions C121_the_material_is_changed_refuted.

(* water, in atoms 2 to 1 and in mass fractions *)
Definition w1 : material := mkmat (s2l "m1") [mk_submat [zd 2 "1" "001" "31c"; zd 1 "8" "016" "31c"]].
Definition w2 : material := mkmat (s2l "m2") [mk_submat [zd (-1#4) "1" "001" "31c"; zd (-3#4) "8" "016" "31c"]].
Definition wgrid (n : str) : res (list Q) := Ok [1; 2]%Q.
Definition wtable (n : str) (k : nat) (e : Q) : Q := if str_eqb n (s2l "1001") then e else (3 * e)%Q.
Example C121_witness : has_masses denv w1 /\ Amounts denv w1 z_frac /\ has_masses denv w2 /\ mass_material w2 /\ InLibrary wgrid (all_zaids w1) [[1; 2]%Q; [1; 2]%Q]
  /\ exists m' v, get_xs denv wgrid wtable (fun a b => [a; b]) w1 [s2l "total"] None = Ok (m', ([1; 2]%Q, [v])) /\ Forall2 Qeq v [7 # 3; 14 # 3]%Q.
Proof.
  split; [intros z [<-|[<-|[]]]; eexists; (split; [vm_compute; reflexivity|vm_compute; reflexivity])|].
  split; [left; split; [split; [intros z [<-|[<-|[]]]; vm_compute; discriminate|vm_compute; reflexivity]|reflexivity]|].
  split; [intros z [<-|[<-|[]]]; eexists; (split; [vm_compute; reflexivity|vm_compute; reflexivity])|].
  split; [split; [intros z [<-|[<-|[]]]; vm_compute; discriminate|vm_compute; reflexivity]|].
  split. { unfold InLibrary. repeat (constructor; [split; [reflexivity|repeat constructor]|]). constructor. }
  eexists. eexists. split; [vm_compute; reflexivity|]. repeat constructor.
Qed.
