(** Lemmas for C132. *)
From Coq Require Import Lia ZArith QArith Qabs Lqa.
From Verif Require Import PyBase PyLemmas PyStr MatProofs MatProofs4 RssaModel RssaSpec RssaAllSpec RssaProofs RssaProofs2.
Open Scope nat_scope.

Lemma amin_some l : l <> [] -> exists a, amin l = Ok a.
Proof. destruct l; [intros H; now elim H|]. intros _. eexists. reflexivity. Qed.
Lemma amax_some l : l <> [] -> exists a, amax l = Ok a.
Proof. destruct l; [intros H; now elim H|]. intros _. eexists. reflexivity. Qed.
Lemma add_at_some nz nt items : Forall (fun it => exists i j w, it = (Z.of_nat i, Z.of_nat j, w) /\ i < nz /\ j < nt) items ->
  forall g, exists g', add_at nz nt g items = Ok g'.
Proof. induction 1 as [|it items [i [j [w [-> [Hi Hj]]]]] _ IH]; intros g; [exists g; reflexivity|].
  unfold add_at in *. cbn [foldM]. rewrite !index_ok by assumption. cbn [bind]. apply IH. Qed.
Lemma pairs_ok nz nt kz kt (w : track -> Q) sel : Forall (fun i => i < nz) kz -> Forall (fun i => i < nt) kt ->
  Forall (fun it => exists i j q, it = (Z.of_nat i, Z.of_nat j, q) /\ i < nz /\ j < nt) (combine (combine (map Z.of_nat kz) (map Z.of_nat kt)) (map w sel)).
Proof. intros F. revert kt sel. induction F as [|i kz Hi _ IH]; intros kt sel G; [constructor|]. destruct G as [|j kt Hj G]; [constructor|].
  destruct sel as [|s sel]; [constructor|]. cbn [map combine]. constructor; [exists i, j, (w s); auto|now apply IH]. Qed.
Lemma Forall2_fst {A B} (P : A -> B -> Prop) (R : B -> Prop) l k : (forall a b, P a b -> R b) -> Forall2 P l k -> Forall R k.
Proof. intros H. induction 1; constructor; eauto. Qed.
(** least below greatest when two values differ *)
Lemma least_lt (f : track -> Q) sel a b t u : least (map f sel) a -> greatest (map f sel) b -> In t sel -> In u sel -> ~ (f t == f u)%Q -> (a < b)%Q.
Proof. intros [_ A] [_ B] T U N. rewrite Forall_forall in A, B. pose proof (A _ (in_map f _ _ T)). pose proof (A _ (in_map f _ _ U)). pose proof (B _ (in_map f _ _ T)). pose proof (B _ (in_map f _ _ U)). cbv beta in *.
  destruct (Qlt_le_dec a b) as [|G]; [assumption|]. exfalso. apply N. lra. Qed.
Lemma least_diff (f : track -> Q) sel a b : least (map f sel) a -> greatest (map f sel) b -> (a < b)%Q -> exists t u, In t sel /\ In u sel /\ ~ (f t == f u)%Q.
Proof. intros [A _] [B _] L. apply in_map_iff in A as [t [<- T]]. apply in_map_iff in B as [u [<- U]]. exists t, u. repeat split; try assumption. lra. Qed.

Section All.
  Context (angle radius : Q -> Q -> Q).
  Notation th := (t_theta angle).
  Lemma figures_ok p ts part nz nt I mask pm : particle_mask part ts = Ok pm -> ts <> [] -> 0 < nz -> 0 < nt ->
    spread angle (pick ts (match mask with None => pm | Some m => intersect pm m end)) -> exists pl, figures angle radius p ts part nz nt I mask = Ok pl.
  Proof using. intros PM TS NZ NT [[t [u [T [U NE]]]] [t' [u' [T' [U' NE']]]]]. unfold figures. rewrite PM. cbn [bind]. set (sel := pick ts _) in *.
    assert (ZN : map t_z sel <> []) by (intros E; apply map_eq_nil in E; rewrite E in T; destruct T). assert (TN : map th sel <> []) by (intros E; apply map_eq_nil in E; rewrite E in T; destruct T).
    destruct (amin_some _ ZN) as [z0 A0]. destruct (amax_some _ ZN) as [z1 A1]. destruct (amin_some _ TN) as [t0 B0]. destruct (amax_some _ TN) as [t1 B1]. rewrite A0, A1, B0, B1. cbn [bind].
    apply amin_ok in A0, B0. apply amax_ok in A1, B1.
    assert (ZL : (z0 < z1)%Q) by exact (least_lt t_z sel z0 z1 t u A0 A1 T U NE). assert (TL : (t0 < t1)%Q) by exact (least_lt th sel t0 t1 t' u' B0 B1 T' U' NE').
    assert (ZR : Forall (fun v => (z0 <= v <= z1)%Q) (map t_z sel)). { destruct A0 as [_ F0], A1 as [_ F1]. rewrite Forall_forall in *. intros v Q. split; auto. }
    assert (TR : Forall (fun v => (t0 <= v <= t1)%Q) (map th sel)). { destruct B0 as [_ F0], B1 as [_ F1]. rewrite Forall_forall in *. intros v Q. split; auto. }
    destruct (closest_ok z0 z1 nz _ ZL NZ ZR) as [kz [CZ KZ]]. rewrite CZ. cbn [bind]. destruct (closest_ok t0 t1 nt _ TL NT TR) as [kt [CT KT]]. rewrite CT. cbn [bind].
    assert (FZ : Forall (fun i => i < nz) kz) by (eapply Forall2_fst; [|exact KZ]; now intros ? ? []). assert (FT : Forall (fun i => i < nt) kt) by (eapply Forall2_fst; [|exact KT]; now intros ? ? []).
    destruct (add_at_some nz nt _ (pairs_ok nz nt kz kt t_wgt sel FZ FT) (zeros nz nt)) as [g G]. destruct (add_at_some nz nt _ (pairs_ok nz nt kz kt (fun _ => 1%Q) sel FZ FT) (zeros nz nt)) as [n N].
    rewrite G. cbn [bind]. rewrite N. cbn [bind]. destruct ts as [|x ts']; [now elim TS|]. cbn [bind]. eexists. reflexivity. Qed.
  (** the masks of a plot *)
  Lemma plot_masks p ts part nz nt norm xr zr : part <> BadParticle -> ts <> [] -> askable xr zr ->
    exists mask pm, plot_cyl angle radius p ts part nz nt norm xr zr = figures angle radius p ts part nz nt norm mask /\ particle_mask part ts = Ok pm /\
      selects part xr zr (perimeter angle radius ts) (pick ts (match mask with None => pm | Some m => intersect pm m end)) ts.
  Proof using. intros BP TS AS. unfold plot_cyl.
    set (pp := fun t => match part with Neutron => abs_lt (word_b t) | Photon => abs_ge (word_b t) | BadParticle => false end).
    assert (PP : forall t, pp t = true <-> is_particle part t). { intros t. unfold pp. destruct part; cbn [is_particle]; [| |split; [discriminate|tauto]].
      - unfold abs_lt. destruct (word_b t) as [q| |]; [|split; [discriminate|intros [q [Q _]]; discriminate]..]. split.
        + intros P. exists q. split; [reflexivity|]. apply negb_true_iff in P. apply Qnot_le_lt. intros Q. apply Qle_bool_iff in Q. unfold nine8 in P. change (900000000 # 1)%Q with (inject_Z 900000000) in Q. congruence.
        + intros [q' [Q L]]. injection Q as <-. apply negb_true_iff. destruct (Qle_bool nine8 (Qabs q)) eqn:E; [|reflexivity]. apply Qle_bool_iff in E. exfalso. apply (Qlt_not_le _ _ L). exact E.
      - unfold abs_ge. destruct (word_b t) as [q|s|]; [| |split; [discriminate|intros [[q [Q _]]|[s Q]]; discriminate]].
        + split; [intros P; left; exists q; split; [reflexivity|]; apply Qle_bool_iff in P; exact P|]. intros [[q' [Q L]]|[s Q]]; [|discriminate]. injection Q as <-. apply Qle_bool_iff. exact L.
        + split; [intros _; right; now exists s|reflexivity]. }
    assert (LT : forall a b : Q, negb (Qle_bool a b) = true <-> (b < a)%Q). { intros a b. rewrite negb_true_iff. split; [intros E; apply Qnot_le_lt; intros Q; apply Qle_bool_iff in Q; congruence|]. intros L. destruct (Qle_bool a b) eqn:E; [|reflexivity]. apply Qle_bool_iff in E. exfalso. now apply (Qlt_not_le _ _ L). }
    assert (PM : particle_mask part ts = Ok (where_ pp ts)) by (unfold pp; destruct part; [reflexivity|reflexivity|now elim BP]).
    destruct zr as [[za zb]|]; destruct xr as [[xa xb]|].
    - destruct ts as [|t0 ts']; [now elim TS|]. cbn [bind]. set (ts := t0 :: ts') in *. eexists. exists (where_ pp ts). split; [reflexivity|]. split; [exact PM|]. rewrite !combine_where.
      eexists. split; [|apply pick_where]. intros t. cbv beta. rewrite !andb_true_iff, !LT, PP. unfold perimeter, ts. cbn [within]. tauto.
    - cbn [bind]. eexists. exists (where_ pp ts). split; [reflexivity|]. split; [exact PM|]. rewrite !combine_where. eexists. split; [|apply pick_where]. intros t. cbv beta. rewrite !andb_true_iff, !LT, PP. cbn [within]. tauto.
    - destruct AS as [AS|AS]; [discriminate|now elim AS].
    - cbn [bind]. eexists. exists (where_ pp ts). split; [reflexivity|]. split; [exact PM|]. cbv iota. exists pp. split; [|apply pick_where]. intros t. rewrite PP. cbn [within]. tauto. Qed.
End All.
(** the tracks selected are determined *)
Lemma selects_fun part xr zr x s s' ts : selects part xr zr x s ts -> selects part xr zr x s' ts -> s = s'.
Proof. intros [k [K ->]] [k' [K' ->]]. apply filter_ext. intros t. destruct (k t) eqn:E; symmetry.
  - apply K', K, E.
  - destruct (k' t) eqn:E'; [|reflexivity]. apply K', K in E'. congruence. Qed.
(** every track with a particle is in one of the two selections *)
Lemma both_sum x ts n f : Forall (fun t => word_b t <> NaN) ts -> selects Neutron None None x n ts -> selects Photon None None x f ts ->
  (qsum (map t_wgt n) + qsum (map t_wgt f) == qsum (map t_wgt ts))%Q.
Proof. intros W [k [K ->]] [k' [K' ->]]. assert (C : forall t, word_b t <> NaN -> k' t = negb (k t)).
  { intros t N. assert (D : is_particle Neutron t \/ is_particle Photon t). { cbn [is_particle]. destruct (word_b t) as [q|s|] eqn:E; [|right; right; now exists s|now elim N]. destruct (Qlt_le_dec (Qabs q) 900000000) as [L|L]; [left; now exists q|right; left; now exists q]. }
    assert (X : ~ (is_particle Neutron t /\ is_particle Photon t)). { cbn [is_particle]. intros [[q [E L]] [[q' [E' L']]|[s E']]]; rewrite E in E'; [injection E' as <-; now apply (Qlt_not_le _ _ L)|discriminate]. }
    destruct (k t) eqn:E; cbn [negb].
    - destruct (k' t) eqn:E'; [|reflexivity]. apply K in E. apply K' in E'. tauto.
    - destruct D as [D|D]; [|apply K'; cbn [within]; auto]. assert (k t = true) by (apply K; cbn [within]; auto). congruence. }
  clear K K'. induction W as [|t ts N _ IH]; [reflexivity|]. cbn [filter]. rewrite (C t N). destruct (k t); cbn [negb map]; rewrite !qsum_cons, <- IH; ring. Qed.
Lemma values_words l : Forall track_ok l -> Forall has_particle l -> Forall (fun t => word_b t <> NaN) (values l) /\ (qsum (map t_wgt (values l)) == qsum (map weight_word l))%Q.
Proof. induction 1 as [|t l [L _] _ IH]; intros P; [split; [constructor|reflexivity]|]. inversion P as [|? ? Pt P']; subst. destruct (IH P') as [A B]. cbn [values map].
  assert (LT : forall i, i < 11 -> nth i (map f64 t) NaN = f64 (nth i t 0%Z)). { intros i Hi. rewrite (nth_indep _ NaN (f64 0%Z)) by (rewrite map_length; lia). apply map_nth. }
  split; [constructor; [|exact A]; unfold word_b; rewrite LT by lia; exact Pt|]. rewrite !qsum_cons. fold (values l). rewrite B. unfold t_wgt at 1, weight_word at 2, fin. rewrite LT by lia. reflexivity. Qed.
