(** C123: the files and the colour scale of the plots of an RSSA file. *)
From Coq Require Import ZArith QArith Lia Lqa.
From Verif Require Import PyBase PyStr PyText PyStrLemmas AceModel RssaModel RssaInfoModel RssaPlotModel RssaPlotSpec RssaPlotProofs.
Open Scope nat_scope.

(** Without a folder nothing is written; with one, the values are at NAME.jpeg, NAME being the given one or
    FILE_PARTICLE_zN_thetaM. *)
Theorem C123_files : forall file p nz nt name,
  plot_files file p nz nt None name = []
  /\ forall folder, folder <> [] ->
     (exists e, plot_files file p nz nt (Some folder) None = [folder ++ s2l "/" ++ rssa_name file ++ s2l "_" ++ particle_text p ++ s2l "_z" ++ str_of_Z nz ++ s2l "_theta" ++ str_of_Z nt ++ s2l ".jpeg"; e])
     /\ (forall n, n <> [] -> (forall r, n <> "/"%char :: r) -> name = Some n -> exists e, plot_files file p nz nt (Some folder) name = [folder ++ s2l "/" ++ n ++ s2l ".jpeg"; e]).
Proof.
  intros file p nz nt name. split; [reflexivity|]. intros folder N. split.
  - rewrite default_files. eexists. f_equal. destruct folder as [|c folder]; [congruence|]. unfold before_path, settings. rewrite <- app_assoc. reflexivity.
  - intros n Nn H ->. cbn [plot_files]. cbv zeta. eexists. f_equal. rewrite join_here.
    + destruct folder as [|c folder]; [congruence|]. unfold before_path. rewrite <- app_assoc. reflexivity.
    + destruct n; [congruence|discriminate].
    + intros r E. destruct n as [|c n]; [congruence|]. injection E as -> _. exact (H n eq_refl).
Qed.
(** Plots of one RSSA file with different settings are never written over one another, and the two pictures of a plot are two files. *)
Theorem C123_not_overwritten : forall folder file p q nz mz nt mt,
  NoDup (plot_files file p nz nt (Some folder) None)
  /\ (p <> q \/ nz <> mz \/ nt <> mt -> forall f, In f (plot_files file p nz nt (Some folder) None) -> ~ In f (plot_files file q mz mt (Some folder) None)).
Proof. intros. split; [apply files_nodup|]. intros D f A B. destruct (files_apart _ _ _ _ _ _ _ _ _ A B) as (E1 & E2 & E3). tauto. Qed.
(** The errors are not at NAME_errors.jpeg: the ending is written twice. *)
Theorem C123_errors_file_refuted : forall folder file p nz nt n, folder <> [] -> n <> [] -> (forall r, n <> "/"%char :: r) ->
  exists v, plot_files file p nz nt (Some folder) (Some n) = [v; folder ++ s2l "/" ++ n ++ s2l "_errors.jpeg" ++ s2l "_errors.jpeg"]
  /\ ~ In (folder ++ s2l "/" ++ n ++ s2l "_errors.jpeg") (plot_files file p nz nt (Some folder) (Some n)).
Proof.
  intros folder file p nz nt n N Nn H. cbn [plot_files]. cbv zeta.
  assert (J : forall t, join_path folder (n ++ t) = folder ++ s2l "/" ++ n ++ t).
  { intros t. rewrite join_here; [destruct folder as [|c folder]; [congruence|]; unfold before_path; rewrite <- app_assoc; reflexivity|destruct n; [congruence|discriminate]|].
    intros r E. destruct n as [|c n]; [congruence|]. injection E as -> _. exact (H n eq_refl). }
  rewrite !J. eexists. split; [f_equal; f_equal; rewrite <- !app_assoc; reflexivity|]. rewrite <- !app_assoc. intros [E|[E|[]]]; apply app_inv_head in E; apply app_inv_head in E; apply app_inv_head in E; discriminate E.
Qed.
(** The colours cover ten decades, up to a power of ten not below the largest value, and not more than a hundred times it. *)
Theorem C123_scale : forall top, (0 < top)%Q -> exists lo hi, colour_scale None top = Ok (lo, hi) /\ (hi - lo = 10)%Z /\ on_scale lo hi top /\ (ten hi <= 100 * top)%Q
  /\ ((1 <= top)%Q -> (top < ten hi <= 10 * top)%Q).
Proof.
  intros top H. destruct (int_log10_spec top H) as (m & E & A & B). cbn [colour_scale]. rewrite E. cbn [bind]. exists (m + 1 - 10)%Z, (m + 1)%Z. split; [reflexivity|]. split; [lia|].
  assert (T : (ten (m + 1) == 10 * ten m)%Q) by (change ten with p10; apply p10_succ).
  assert (T1 : (ten m == 10 * ten (m - 1))%Q) by (replace m with (m - 1 + 1)%Z at 1 by lia; change ten with p10; apply p10_succ).
  pose proof (ten_le (m + 1 - 10) (m - 1)%Z ltac:(lia)) as L. unfold on_scale. destruct (Qlt_le_dec top 1) as [X|X].
  - destruct (B X) as [[B1 B2] _]. pose proof (ten_le m m ltac:(lia)). assert (0 < ten m)%Q by lra. repeat split; try lra.
  - destruct (A X) as [[A1 A2] _]. assert (0 < ten (m - 1))%Q by (change ten with p10; apply p10_pos). repeat split; try lra; intros _; lra.
Qed.
(** A plot without any track in it is refused. *)
Theorem C123_empty : forall top, (top <= 0)%Q -> exists e, colour_scale None top = Err e.
Proof. intros top H. cbn [colour_scale]. unfold int_log10. destruct (Qeq_bool top 0); [eexists; reflexivity|]. destruct (Qle_bool top 0) eqn:E; [eexists; reflexivity|]. exfalso. apply Qle_bool_iff in H. congruence. Qed.
(** A given range is rounded to powers of ten: down when above one, up when below. *)
Theorem C123_given_range : forall a b top, (0 < a)%Q -> (0 < b)%Q -> exists lo hi, colour_scale (Some (a, b)) top = Ok (lo, hi)
  /\ ((1 <= a)%Q -> (ten lo <= a < 10 * ten lo)%Q) /\ ((a < 1)%Q -> (a <= ten lo < 10 * a)%Q) /\ ((1 <= b)%Q -> (ten hi <= b < 10 * ten hi)%Q) /\ ((b < 1)%Q -> (b <= ten hi < 10 * b)%Q).
Proof.
  assert (G : forall v, (0 < v)%Q -> exists m, int_log10 v = Ok m /\ ((1 <= v)%Q -> (ten m <= v < 10 * ten m)%Q) /\ ((v < 1)%Q -> (v <= ten m < 10 * v)%Q)).
  { intros v H. destruct (int_log10_spec v H) as (m & E & A & B). exists m. split; [exact E|].
    assert (T : (ten (m + 1) == 10 * ten m)%Q) by (change ten with p10; apply p10_succ).
    assert (T1 : (ten m == 10 * ten (m - 1))%Q) by (replace m with (m - 1 + 1)%Z at 1 by lia; change ten with p10; apply p10_succ).
    split; intros X; [destruct (A X) as [[? ?] _]|destruct (B X) as [[? ?] _]]; split; lra. }
  intros a b top Ha Hb. destruct (G a Ha) as (lo & E1 & A1 & A2). destruct (G b Hb) as (hi & E2 & B1 & B2). exists lo, hi. cbn [colour_scale]. rewrite E1, E2. cbn [bind]. repeat split; try reflexivity; try (apply A1; assumption); try (apply A2; assumption); try (apply B1; assumption); try (apply B2; assumption).
Qed.
(** so that the ends of the range the user asked for are off the scale *)
Theorem C123_range_is_covered_refuted : exists a b lo hi top, (0 < a < b)%Q /\ colour_scale (Some (a, b)) top = Ok (lo, hi) /\ ~ on_scale lo hi a /\ ~ on_scale lo hi b.
Proof. exists (1#200)%Q, 5000%Q, (-2)%Z, 3%Z, 1%Q. repeat split; try (vm_compute; reflexivity); intros [A B]; vm_compute in A, B; auto. Qed.
Example C123_witness : plot_files (s2l "runs/w.rssa") Neutron 10 20 (Some (s2l "out")) None = [s2l "out/w_n_z10_theta20.jpeg"; s2l "out/w_n_z10_theta20_errors.jpeg_errors.jpeg"]
  /\ colour_scale None 1234%Q = Ok ((-6)%Z, 4%Z) /\ colour_scale None (1#20)%Q = Ok ((-10)%Z, 0%Z).
Proof. repeat split; vm_compute; reflexivity. Qed.
Print Assumptions C123_files.
Print Assumptions C123_not_overwritten.
Print Assumptions C123_errors_file_refuted.
Print Assumptions C123_scale.
Print Assumptions C123_empty.
Print Assumptions C123_given_range.
Print Assumptions C123_range_is_covered_refuted.
