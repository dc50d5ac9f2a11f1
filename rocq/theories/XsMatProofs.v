(** The cross section of a material: proofs. *)
From Coq Require Import Lia ZArith Sorted Lqa.
From Verif Require Import PyBase PyLemmas PyStr PyText OutSpec OutProofs MatModel MatSpec MatProofs MatProofs2 MatProofs3 AceModel AceSpec AceProofs AceProps XsMatModel XsMatSpec.
Open Scope nat_scope.

Lemma amounts_pos E m a : has_masses E m -> Amounts E m a -> (forall z, In z (all_zaids m) -> (0 <= a z)%Q) /\ (0 < sum_over a m)%Q.
Proof.
  intros H [[A Ea]|[A Ea]].
  - split; [intros z Hz; rewrite Ea; exact (proj1 A z Hz)|]. unfold sum_over. rewrite (map_ext a z_frac) by (intros; apply Ea). exact (proj2 A).
  - split.
    + intros z Hz. rewrite Ea. pose proof (massof_pos E m z H Hz). pose proof (proj1 A z Hz). apply Qle_shift_div_l; lra.
    + unfold sum_over. rewrite (map_ext a (wt Atom E)) by (intros; rewrite Ea; reflexivity). exact (norm_atom_pos E m H A).
Qed.
Lemma switches E m a : has_masses E m -> Amounts E m a -> exists g r1 m1 r2, switch_inplace Mass E m = Ok (m1, r1) /\ switch_inplace Atom E m1 = Ok (rebuild g m, r2)
  /\ (forall z, In z (all_zaids m) -> (g z == a z / sum_over a m)%Q).
Proof.
  intros H [[A Ea]|[A Ea]].
  - rewrite (inplace_mass E m H A). do 4 eexists. split; [reflexivity|].
    rewrite (inplace_atom E _ (has_masses_rebuild _ _ _ H) (switched_mass E m H A)), rebuild_rebuild. split; [reflexivity|]. cbv beta. intros z Hz. rewrite (atom_of_mass E m z H A Hz), Ea. unfold sum_over. rewrite (map_ext a z_frac) by (intros; apply Ea). reflexivity.
  - unfold switch_inplace at 1. rewrite no_must_mass by (destruct A; lra). do 4 eexists. split; [reflexivity|]. rewrite (inplace_atom E m H A). split; [reflexivity|].
    intros z Hz. unfold fr, norm, sum_over. rewrite Ea. rewrite (map_ext a (wt Atom E)) by (intros; rewrite Ea; reflexivity). reflexivity.
Qed.
Lemma before_map (h : zaid -> zaid) l : before_each (map h l) = map h (before_each l).
Proof. unfold before_each. rewrite <- map_rev. destruct (rev l) as [|z r]; [reflexivity|]. cbn [map]. rewrite <- map_rev. reflexivity. Qed.
Lemma combine_maps {A B} (h : A -> B) l : forall l', combine (map h l) (map h l') = map (fun p => (h (fst p), h (snd p))) (combine l l').
Proof. induction l as [|x l IH]; intros [|y l']; cbn [map combine]; [reflexivity..|]. rewrite IH. reflexivity. Qed.
Lemma weighted_rebuild g m a f : (forall z, In z (all_zaids m) -> (g z == a z / sum_over a m)%Q) -> (0 < sum_over a m)%Q ->
  (weighted_before f (map (fun z => with_frac z (g z)) (all_zaids m)) == mean_before a f (all_zaids m))%Q.
Proof.
  intros G P. unfold weighted_before, mean_before. fold (sum_over a m). rewrite before_map, combine_maps, map_map. cbn [fst snd].
  transitivity (qsum (map (fun p => (a (snd p) * f (z_elem (fst p) ++ z_iso (fst p))) * / sum_over a m)%Q (combine (before_each (all_zaids m)) (all_zaids m)))).
  - apply qsum_map_ext. intros [z0 z] Hp. apply in_combine_r in Hp. cbn [fst snd with_frac z_frac z_elem z_iso]. rewrite (G z Hp). field. lra.
  - generalize (combine (before_each (all_zaids m)) (all_zaids m)). intros l. unfold Qdiv. induction l as [|p l IH]; [cbn; ring|]. cbn [map]. rewrite !qsum_cons, IH. ring.
Qed.
Lemma lib_rebuild grid g m gs : InLibrary grid (all_zaids m) gs -> Forall2 (fun z g0 => grid (z_elem z ++ z_iso z) = Ok g0 /\ StronglySorted Qlt g0) (map (fun z => with_frac z (g z)) (all_zaids m)) gs.
Proof. unfold InLibrary. intros H. induction H as [|z g0 zs gs [A B] _ IH]; [constructor|]. cbn [map]. constructor; [split; assumption|exact IH]. Qed.
Lemma amounts_ne E m a : Amounts E m a -> all_zaids m <> [].
Proof. intros [[[_ P] _]|[[_ P] _]] X; unfold tot_fraction in P; rewrite X in P; cbn in P; lra. Qed.

Lemma get_xs_mean E grid table points m a gs types : has_masses E m -> Amounts E m a -> InLibrary grid (all_zaids m) gs ->
  exists m' es rows, get_xs E grid table points m types None = Ok (m', (es, rows)) /\ refrac (fun z => a z / sum_over a m)%Q m m' /\ Union gs es /\ length rows = length types
    /\ forall k t row i e, nth_error types k = Some t -> nth_error rows k = Some row -> nth_error es i = Some e ->
       exists v, nth_error row i = Some v /\ (v == if str_eqb t (s2l "unity") then 1 else mean_before a (fun n => table n k e) (all_zaids m))%Q.
Proof.
  intros H A L. destruct (switches E m a H A) as (g & r1 & m1 & r2 & S1 & S2 & G). destruct (amounts_pos E m a H A) as [_ P].
  unfold get_xs. rewrite S1. cbn [bind]. rewrite S2. cbn [bind]. rewrite all_zaids_rebuild.
  destruct (C88_many_nuclides grid table points _ gs types (lib_rebuild grid g m gs L)) as (es & rows & X & U & Len & V).
  { pose proof (amounts_ne E m a A). destruct (all_zaids m); [congruence|discriminate]. }
  rewrite X. cbn [bind]. exists (rebuild g m), es, rows. split; [reflexivity|]. split; [apply refrac_rebuild; exact G|]. split; [exact U|]. split; [exact Len|].
  intros k t row i e Ht Hr He. destruct (V k t row i e Ht Hr He) as (v & Hv & Ev). exists v. split; [exact Hv|]. rewrite Ev. destruct (str_eqb t (s2l "unity")); [reflexivity|]. apply weighted_rebuild; assumption.
Qed.
Lemma rows_len grid table points zs types gs es rows : Forall2 (fun z g => grid (z_elem z ++ z_iso z) = Ok g /\ StronglySorted Qlt g) zs gs -> zs <> [] -> get_xs_list grid table points zs types None = Ok (es, rows) -> Forall (fun row => length row = length es) rows.
Proof.
  intros F N X. unfold get_xs_list in X.
  destruct (mapM (fun z => grid (nuc_of z)) zs) as [gs'|] eqn:M; [|discriminate X]. cbn [bind] in X. destruct gs' as [|g gs']; [discriminate X|]. cbn [bind] in X. injection X as <- <-.
  set (low := fun n => match grid n with Ok g0 => qmin g0 | Err _ => 0%Q end).
  destruct (all_types_ok table points None (fold_left union1d gs' g) low zs I N types 0) as [L _]. cbn zeta in L.
  assert (K : forall (T : list str) R, Forall2 (fun _ (row : list Q) => length row = length (fold_left union1d gs' g)) T R -> Forall (fun row => length row = length (fold_left union1d gs' g)) R) by (induction 1; constructor; assumption). exact (K _ _ L).
Qed.
Lemma get_xs_ok_rows E grid table points m a gs types m' es rows : has_masses E m -> Amounts E m a -> InLibrary grid (all_zaids m) gs -> get_xs E grid table points m types None = Ok (m', (es, rows)) ->
  Forall (fun row => length row = length es) rows.
Proof.
  intros H A L X. destruct (switches E m a H A) as (g & r1 & m1 & r2 & S1 & S2 & _). unfold get_xs in X. rewrite S1 in X. cbn [bind] in X. rewrite S2 in X. cbn [bind] in X. rewrite all_zaids_rebuild in X.
  destruct (get_xs_list _ _ _ _ _ _) as [[es' rows']|] eqn:Y; [|discriminate X]. cbn [bind] in X. injection X as <- <- <-. eapply rows_len; [|  |exact Y].
  - apply lib_rebuild. exact L.
  - pose proof (amounts_ne E m a A). destruct (all_zaids m); [congruence|discriminate].
Qed.
Lemma qsum_le {A} (f g : A -> Q) l : (forall x, In x l -> (f x <= g x)%Q) -> (qsum (map f l) <= qsum (map g l))%Q.
Proof. induction l as [|x l IH]; intros H; [cbn; lra|]. cbn [map]. rewrite !qsum_cons. pose proof (H x (or_introl eq_refl)). pose proof (IH (fun y Hy => H y (or_intror Hy))). lra. Qed.
Lemma qsum_const {A} (f : A -> Q) c l : (qsum (map (fun x => f x * c)%Q l) == qsum (map f l) * c)%Q.
Proof. induction l as [|x l IH]; [cbn; ring|]. cbn [map]. rewrite !qsum_cons, IH. ring. Qed.
Lemma before_len zs : length (before_each zs) = length zs.
Proof. unfold before_each. destruct (rev zs) as [|z r] eqn:X. { apply (f_equal (@length _)) in X. rewrite rev_length in X. cbn in *. congruence. } apply (f_equal (@length _)) in X. rewrite rev_length in X. cbn [length] in *. rewrite rev_length. congruence. Qed.
Lemma combine_snd {A B} (a : list A) : forall b : list B, length a = length b -> map snd (combine a b) = b.
Proof. induction a as [|x a IH]; intros [|y b] H; try discriminate H; [reflexivity|]. cbn [combine map snd]. rewrite IH by (cbn in H; congruence). reflexivity. Qed.
Lemma mean_between a f lo hi zs : (forall z, In z zs -> (0 <= a z)%Q) -> (0 < qsum (map a zs))%Q -> (forall z, In z zs -> (lo <= f (z_elem z ++ z_iso z))%Q /\ (f (z_elem z ++ z_iso z) <= hi)%Q) ->
  (lo <= mean_before a f zs)%Q /\ (mean_before a f zs <= hi)%Q.
Proof.
  intros Pa Ps B. unfold mean_before.
  assert (Ia : forall z, In z (before_each zs) -> In z zs). { intros z. unfold before_each. destruct (rev zs) as [|y r] eqn:X; [intros []|]. intros Hz. apply in_rev. rewrite X. destruct Hz as [<-|Hz]; [left; reflexivity|right; apply in_rev in Hz; exact Hz]. }
  assert (Sa : qsum (map a zs) = qsum (map (fun p : zaid * zaid => a (snd p)) (combine (before_each zs) zs))). { rewrite <- (map_map snd a). rewrite combine_snd by apply before_len. reflexivity. }
  split.
  - apply Qle_shift_div_l; [exact Ps|]. rewrite Sa, Qmult_comm, <- (qsum_const (fun p : zaid * zaid => a (snd p))). apply qsum_le. intros [z0 z] Hp. cbn [fst snd]. pose proof (in_combine_l _ _ _ _ Hp) as H0. pose proof (in_combine_r _ _ _ _ Hp) as H1. pose proof (Pa z H1). destruct (B z0 (Ia z0 H0)). nra.
  - apply Qle_shift_div_r; [exact Ps|]. rewrite Sa, Qmult_comm, <- (qsum_const (fun p : zaid * zaid => a (snd p))). apply qsum_le. intros [z0 z] Hp. cbn [fst snd]. pose proof (in_combine_l _ _ _ _ Hp) as H0. pose proof (in_combine_r _ _ _ _ Hp) as H1. pose proof (Pa z H1). destruct (B z0 (Ia z0 H0)). nra.
Qed.

Lemma mean_same k a1 a2 f zs1 zs2 : (0 < k)%Q -> (0 < qsum (map a1 zs1))%Q -> Forall2 (fun x y => z_elem y = z_elem x /\ z_iso y = z_iso x /\ (a2 y == k * a1 x)%Q) zs1 zs2 -> (mean_before a1 f zs1 == mean_before a2 f zs2)%Q.
Proof.
  intros Hk P F. unfold mean_before.
  assert (Sm : (qsum (map a2 zs2) == k * qsum (map a1 zs1))%Q). { clear P. induction F as [|x y l1 l2 (_ & _ & E) _ IH]; [cbn; ring|]. cbn [map]. rewrite !qsum_cons, IH, E. ring. }
  assert (B : Forall2 (fun x y => z_elem y = z_elem x /\ z_iso y = z_iso x) (before_each zs1) (before_each zs2)).
  { assert (R : Forall2 (fun x y => z_elem y = z_elem x /\ z_iso y = z_iso x) (rev zs1) (rev zs2)). { clear P Sm. induction F as [|x y l1 l2 (A1 & A2 & _) _ IH]; [constructor|]. cbn [rev]. apply Forall2_app; [exact IH|repeat constructor; assumption]. }
    unfold before_each. destruct R as [|x y l1 l2 A R]; [constructor|]. constructor; [exact A|]. clear -R. induction R as [|x y l1 l2 A R IH]; [constructor|]. cbn [rev]. apply Forall2_app; [exact IH|repeat constructor; tauto]. }
  assert (N : (qsum (map (fun p => a2 (snd p) * f (z_elem (fst p) ++ z_iso (fst p)))%Q (combine (before_each zs2) zs2)) == k * qsum (map (fun p => a1 (snd p) * f (z_elem (fst p) ++ z_iso (fst p)))%Q (combine (before_each zs1) zs1)))%Q).
  { clear P Sm. revert B. generalize (before_each zs1), (before_each zs2). induction F as [|x y l1 l2 (_ & _ & E) _ IH]; intros b1 b2 B; destruct B as [|x0 y0 b1 b2 [B1 B2] B]; cbn [combine map]; try (cbn; ring). rewrite !qsum_cons, IH by exact B. cbn [fst snd]. rewrite B1, B2, E. ring. }
  rewrite N, Sm. field. split; lra.
Qed.
