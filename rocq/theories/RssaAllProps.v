(** C132: from the bytes of an RSSA file to the maps of current. *)
From Coq Require Import Lia ZArith QArith Qabs Lqa.
From Verif Require Import PyBase PyLemmas PyStr MatProofs MatProofs4 RssaModel RssaSpec RssaAllSpec RssaProofs RssaProofs2 RssaProps RssaAllProofs.
Open Scope nat_scope.

Section C132.
  (** np.angle and np.linalg.norm *)
  Context (angle radius : Q -> Q -> Q).
  (** a plot exists exactly when there is at least one cell in each direction and the selected tracks
      do not all have the same z or the same angle *)
  Theorem C132_plots_iff : forall p ts part nz nt norm xr zr sel, (Z.of_nat nz < 2 ^ 63)%Z -> (Z.of_nat nt < 2 ^ 63)%Z ->
    part <> BadParticle -> askable xr zr -> selects part xr zr (perimeter angle radius ts) sel ts ->
    ((exists pl, plot_cyl angle radius p ts part nz nt norm xr zr = Ok pl) <-> 0 < nz /\ 0 < nt /\ spread angle sel).
  Proof using. intros p ts part nz nt norm xr zr sel HZ HT BP AS SE. split.
    - intros [pl H]. destruct (selected_tracks angle radius _ _ _ _ _ _ _ _ _ H) as [mask [pm [F [PM S]]]]. pose proof (selects_fun _ _ _ _ _ _ _ SE S) as E.
      destruct (figures_sel angle radius p ts part nz nt norm mask pl pm HZ HT F PM) as [z0 [z1 [t0 [t1 [t [rest [g [n [_ [A0 [A1 [B0 [B1 [ZL [TL [NZ [NT _]]]]]]]]]]]]]]]]]. rewrite <- E in A0, A1, B0, B1.
      split; [exact NZ|]. split; [exact NT|]. split; [exact (least_diff t_z sel z0 z1 A0 A1 ZL)|exact (least_diff (t_theta angle) sel t0 t1 B0 B1 TL)].
    - intros [NZ [NT SP]]. assert (TS : ts <> []). { intros ->. destruct SE as [k [_ ->]]. destruct SP as [[t [u [[] _]]] _]. }
      destruct (plot_masks angle radius p ts part nz nt norm xr zr BP TS AS) as [mask [pm [-> [PM S]]]]. pose proof (selects_fun _ _ _ _ _ _ _ SE S) as E. subst sel. eapply figures_ok; eassumption. Qed.
  (** whatever D1S-UNED writes, the two maps made of the file share out the whole weight of the tracks
      in it *)
  Theorem C132_no_weight_lost : forall title p pad2 pad3 summary tracks q ts nz nt mz mt norm a b,
    params_ok p -> title_ok title -> Forall track_ok tracks -> Forall has_particle tracks ->
    record_ok title -> record_ok (header2 p pad2) -> record_ok (header3 p pad3) -> record_ok summary ->
    (Z.of_nat nz < 2 ^ 63)%Z -> (Z.of_nat nt < 2 ^ 63)%Z -> (Z.of_nat mz < 2 ^ 63)%Z -> (Z.of_nat mt < 2 ^ 63)%Z ->
    read_rssa (rssa_file title p pad2 pad3 summary tracks) = Ok (q, ts) ->
    plot_cyl angle radius q (values ts) Neutron nz nt norm None None = Ok a -> ~ (pl_area a == 0)%Q ->
    plot_cyl angle radius q (values ts) Photon mz mt norm None None = Ok b -> ~ (pl_area b == 0)%Q ->
    (current a (np1 p) + current b (np1 p) == norm * qsum (map weight_word tracks))%Q.
  Proof using. intros title p pad2 pad3 summary tracks q ts nz nt mz mt norm a b P T F HP K1 K2 K3 K4 HZ HT MZ MT R A NA B NB.
    rewrite C38_reads_every_file in R by assumption. apply Ok_inj in R. assert (E1 : q = p) by congruence. assert (E2 : ts = tracks) by congruence. subst q ts. clear R.
    assert (NP : np1 p <> 0%Z). { destruct P as [_ [_ [_ [_ [_ [_ [_ [_ [X _]]]]]]]]]. lia. }
    destruct (C40_total angle radius _ _ _ _ _ _ _ _ _ HZ HT A NP NA) as [sa [SA QA]]. destruct (C40_total angle radius _ _ _ _ _ _ _ _ _ MZ MT B NP NB) as [sb [SB QB]].
    unfold current. rewrite QA, QB. destruct (values_words tracks F HP) as [W V]. rewrite <- V, <- (both_sum _ _ _ _ W SA SB). ring. Qed.
  (** refuted: maps of two adjacent ranges of z do not share out the tracks: one whose z is the common
      limit is in neither *)
  Theorem C132_adjacent_ranges_refuted : forall part x zl zm zh s s' t ts, selects part None (Some (zl, zm)) x s ts -> selects part None (Some (zm, zh)) x s' ts ->
    (t_z t == zm)%Q -> ~ In t s /\ ~ In t s'.
  Proof using. intros part x zl zm zh s s' t ts [k [K ->]] [k' [K' ->]] E. split; intros I; apply filter_In in I as [_ I]; [apply K in I|apply K' in I]; destruct I as [_ [[L G] _]]; lra. Qed.
End C132.
Print Assumptions C132_plots_iff.
Print Assumptions C132_no_weight_lost.
Print Assumptions C132_adjacent_ranges_refuted.
(** two neutrons and two photons in a file (z and y - x differ): weights 1/2, 2 and 1, 4 *)
Definition y_f (s e : Z) : Z := (s * 2 ^ 63 + (1023 + e) * 2 ^ 52)%Z.
Definition y_trk (b w x y z : Z) : list Z := [y_f 0 0; b; w; y_f 0 0; 0; x; y; z; 0; 0; 0]%Z.
Definition y_tracks : list (list Z) := [y_trk (y_f 0 20) (y_f 0 (-1)) (y_f 0 0) 0 0; y_trk (y_f 0 31) (y_f 0 0) (y_f 0 0) 0 (y_f 0 1); y_trk (y_f 1 29) (y_f 0 1) 0 (y_f 0 0) (y_f 0 3); y_trk (y_f 1 30) (y_f 0 2) 0 (y_f 0 0) (y_f 0 4)].
Example C132_witness : Forall track_ok y_tracks /\ Forall has_particle y_tracks /\ (qsum (map weight_word y_tracks) == 15 # 2)%Q.
Proof. split; [repeat constructor; cbn; lia|]. split; [|vm_compute; reflexivity]. repeat constructor; unfold has_particle; vm_compute; discriminate. Qed.
Example C132_witness_maps : exists q ts a b, read_rssa (rssa_file x_title x_params [] [] [] y_tracks) = Ok (q, ts) /\
  plot_cyl (fun x y => y - x)%Q (fun _ _ => 1%Q) q (values ts) Neutron 2 3 1 None None = Ok a /\ plot_cyl (fun x y => y - x)%Q (fun _ _ => 1%Q) q (values ts) Photon 2 2 1 None None = Ok b /\
  Qeq_bool (pl_area a) 0 = false /\ Qeq_bool (pl_area b) 0 = false /\ Qred (current a (np1 x_params) + current b (np1 x_params)) = (15 # 2)%Q.
Proof. eexists. eexists. eexists. eexists. split; [vm_compute; reflexivity|]. split; [vm_compute; reflexivity|]. split; [vm_compute; reflexivity|]. repeat split; vm_compute; reflexivity. Qed.
