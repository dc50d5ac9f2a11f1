(** C117: the surface type and the description of an RSSA file. *)
From Coq Require Import Reals Qreals Qabs Lia.
From Verif Require Import PyBase PyStr RssaModel RssaSpec PyText RssaInfoModel RssaInfoSpec RssaInfoProofs RssaInfoProofs2.
From Coq Require Import Lra.
Open Scope nat_scope.

(** C117: a file of several surfaces is "multiple" whatever its tracks. *)
Theorem C117_multiple : forall p ts, rssa_type p ts = Multiple <-> 2 <= length (surfaces p).
Proof. exact type_multiple. Qed.
Print Assumptions C117_multiple.
(** C117: tracks recorded on a cylinder around the z axis are recognised: whenever all of them are less than 1e-4 from one radius. *)
Theorem C117_cylinder_is_recognised : forall p ts r, length (surfaces p) <= 1 -> ts <> [] -> on_cylinder r ts -> rssa_type p ts = Cyl.
Proof. exact type_cyl. Qed.
Print Assumptions C117_cylinder_is_recognised.
(** C117: conversely n tracks that are said to be on a cylinder are all closer than 1e-4 times the root of n to their mean radius, so that
    any two of them with radii further apart than twice that make the file a plane. *)
Theorem C117_what_cylinder_means : forall p ts, rssa_type p ts = Cyl ->
  length (surfaces p) <= 1 /\ ts <> [] /\
  forall t, In t ts -> (Rabs (distance t - average (map distance ts)) < 1 / 10000 * sqrt (INR (length ts)))%R.
Proof. exact type_cyl_means. Qed.
Print Assumptions C117_what_cylinder_means.
Theorem C117_plane : forall p ts t u, length (surfaces p) <= 1 -> In t ts -> In u ts ->
  (2 / 10000 * sqrt (INR (length ts)) <= distance t - distance u)%R -> rssa_type p ts = Plane.
Proof. exact type_plane. Qed.
Print Assumptions C117_plane.
(** C117 is false for a plane with one track, or with tracks on one ring: it is called a cylinder. *)
Definition flat_track (x y z : Q) : track := [Fin 1; Fin 800000001; Fin 1; Fin 1; Fin 0; Fin x; Fin y; Fin z; Fin 0; Fin 0; Fin 1]%Q.
Theorem C117_plane_is_recognised_refuted : exists p ts, length (surfaces p) = 1 /\ length ts = 3 /\ (forall t, In t ts -> t_z t = 5%Q) /\ rssa_type p ts = Cyl.
Proof. exists (mkParams (-1000) 3 11 1 3 0 1 0 [mkSurf 7 (-1) 12 1 []]), [flat_track 3 4 5; flat_track (-3) 4 5; flat_track 5 0 5]%Q. split; [reflexivity|]. split; [reflexivity|].
  split; [intros t [<-|[<-|[<-|[]]]]; reflexivity|]. apply (C117_cylinder_is_recognised _ _ 5%R); [cbn; lia|discriminate|].
  assert (E : forall x y z, (x * x + y * y == 25)%Q -> (Rabs (distance (flat_track x y z) - 5) < 1 / 10000)%R).
  { intros x y z H. unfold distance, Rsqr. change (t_x (flat_track x y z)) with x. change (t_y (flat_track x y z)) with y. rewrite <- !Q2R_mult, <- Q2R_plus. rewrite (Qeq_eqR _ _ H).
    replace (Q2R 25) with (5 * 5)%R by (unfold Q2R; cbn [Qnum Qden]; field). rewrite sqrt_square by lra. rewrite Rminus_diag_eq by reflexivity. rewrite Rabs_R0. lra. }
  repeat (apply Forall_cons; [apply E; reflexivity|]). apply Forall_nil. Qed.
Print Assumptions C117_plane_is_recognised_refuted.
Example C117_both_types : (forall p, length (surfaces p) <= 1 -> rssa_type p [flat_track 3 4 5; flat_track 0 0 5]%Q = Plane) /\ (forall p, length (surfaces p) <= 1 -> rssa_type p [] = Plane).
Proof. split; intros p Hp.
  - apply (C117_plane p _ (flat_track 3 4 5)%Q (flat_track 0 0 5)%Q Hp); [left; reflexivity|right; left; reflexivity|].
    unfold distance, Rsqr. change (t_x (flat_track 3 4 5)) with 3%Q. change (t_y (flat_track 3 4 5)) with 4%Q. change (t_x (flat_track 0 0 5)) with 0%Q. change (t_y (flat_track 0 0 5)) with 0%Q.
    replace (Q2R 3) with 3%R by (unfold Q2R; cbn [Qnum Qden]; field). replace (Q2R 4) with 4%R by (unfold Q2R; cbn [Qnum Qden]; field). replace (Q2R 0) with 0%R by (unfold Q2R; cbn [Qnum Qden]; field).
    replace (3 * 3 + 4 * 4)%R with (5 * 5)%R by ring. rewrite sqrt_square by lra. replace (0 * 0 + 0 * 0)%R with 0%R by ring. rewrite sqrt_0.
    cbn [length INR]. assert (sqrt (1 + 1) <= sqrt (2 * 2))%R by (apply sqrt_le_1; lra). rewrite sqrt_square in H by lra. lra.
  - unfold rssa_type. destruct (Nat.ltb_spec 1 (length (surfaces p))); [lia|reflexivity]. Qed.

(** C117: the description names the file and each of its surfaces, and the type; it gives the numbers of neutron and photon tracks read,
    which add up to the number of tracks when every packed word is a number, and the numbers of tracks, histories and contributing histories of the header. *)
Theorem C117_description : forall f2 file p ts, let text := rssa_info f2 file p ts in
  within (s2l "RSSA file " ++ rssa_name file ++ s2l " was") text /\
  (forall s, In s (surfaces p) -> within ([nl] ++ s2l "  Surface id: " ++ str_of_Z (su_id s) ++ [nl]) text) /\
  (rssa_type p ts = Plane -> within ([nl] ++ s2l "The surface type is a plane..." ++ [nl]) text) /\
  (rssa_type p ts = Cyl -> exists t, In t ts /\ within ([nl] ++ s2l "The surface type is a cylinder with a radius of " ++ f2 (distance t) ++ [nl]) text) /\
  within (s2l "recorded is " ++ str_of_Z (nrss p) ++ s2l ", of which " ++ str_of_N (N.of_nat (count is_neutron ts)) ++ s2l " were neutrons and " ++ str_of_N (N.of_nat (count is_photon ts)) ++ s2l " were photons.") text /\
  within (s2l "run " ++ str_of_Z (Z.abs (np1 p)) ++ s2l " histories") text /\
  within (s2l "surfaces was " ++ str_of_Z (niss p) ++ s2l ".") text.
Proof. exact info_text. Qed.
Print Assumptions C117_description.
Theorem C117_tracks_add_up : forall ts, (forall t, In t ts -> word_b t <> NaN) -> count is_neutron ts + count is_photon ts = length ts.
Proof. exact counts_add. Qed.
Print Assumptions C117_tracks_add_up.
(** C117: the name is the last part of the path up to its first dot ... *)
Theorem C117_name : forall folder base, ~ In "/"%char base -> rssa_name (folder ++ "/"%char :: base) = before_dot base /\ rssa_name base = before_dot base.
Proof. exact name_of. Qed.
Print Assumptions C117_name.
(** ... so two files of one folder can share it, and with it the default names of their plots. *)
Theorem C117_names_differ_refuted : exists a b, a <> b /\ rssa_name a = rssa_name b.
Proof. exists (s2l "run.1.w"), (s2l "run.2.w"). split; [discriminate|reflexivity]. Qed.
Print Assumptions C117_names_differ_refuted.
Theorem C117_histories : forall ts i t, nth_error ts i = Some t -> exists q, nth_error (histories ts) i = Some q /\ (q == Qabs (fin (nth 0 t NaN)))%Q.
Proof. intros ts i t H. exists (Qabs (fin (nth 0 t NaN))). split; [|reflexivity]. unfold histories. exact (map_nth_error _ i ts H). Qed.
Print Assumptions C117_histories.
Example C117_case : rssa_name (s2l "/tmp/runs/small_cyl.w") = s2l "small_cyl" /\ count is_neutron [flat_track 3 4 5; flat_track 0 0 5]%Q = 2.
Proof. vm_compute. auto. Qed.
