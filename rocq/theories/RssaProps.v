(** C38: RSSA files are read exactly.  C39: neutrons and photons.  C40: histograms. *)
From Coq Require Import Lia ZArith QArith Qabs Qpower Lqa.
From Verif Require Import PyBase PyLemmas PyStr MatProofs MatProofs4 RssaModel RssaSpec RssaProofs RssaProofs2.
Open Scope nat_scope.

(** ** C38 *)
(** every file in the format of D1S-UNED is read exactly: the header numbers, the surfaces, and the
    eleven words of every track, in order *)
Theorem C38_reads_every_file : forall title p pad2 pad3 summary tracks, params_ok p -> title_ok title -> Forall track_ok tracks ->
  record_ok title -> record_ok (header2 p pad2) -> record_ok (header3 p pad3) -> record_ok summary ->
  read_rssa (rssa_file title p pad2 pad3 summary tracks) = Ok (p, tracks).
Proof. intros title p pad2 pad3 summary tracks P T F K1 K2 K3 K4. unfold read_rssa, rssa_file. rewrite read_header_ok by assumption. cbn [bind]. rewrite read_tracks_ok by exact F. reflexivity. Qed.
Print Assumptions C38_reads_every_file.
(** whatever the bytes, the word j of the track i is the one stored at offset 96*i + 4 + 8*j after the
    header, and there are as many tracks as 96-byte records *)
Theorem C38_tracks_of_any_bytes : forall f t, read_tracks f = Ok t -> length f = 96 * length t /\ Forall (fun w => length w = 11) t /\
  forall i j, i < length t -> j < 11 -> exists w, nth_error t i = Some w /\ nth_error w j = Some (le (firstn 8 (skipn (96 * i + 4 + 8 * j) f))).
Proof. exact read_tracks_words. Qed.
Print Assumptions C38_tracks_of_any_bytes.
(** the number of a 64-bit word: IEEE 754 binary64 *)
Theorem C38_number_of_a_word : forall (s : bool) e m, (0 < e < 2047)%Z -> (0 <= m < 2 ^ 52)%Z ->
  exists q, f64 ((if s then 1 else 0) * 2 ^ 63 + e * 2 ^ 52 + m)%Z = Fin q /\ (q == (if s then -1 else 1) * (1 + inject_Z m / inject_Z (2 ^ 52)) * Qpower 2 (e - 1023))%Q.
Proof. intros s e m He Hm. set (w := ((if s then 1 else 0) * 2 ^ 63 + e * 2 ^ 52 + m)%Z). unfold f64.
  assert (B0 : (0 <= (if s then 1 else 0) <= 1)%Z) by (destruct s; lia).
  assert (M : (w mod 2 ^ 52 = m)%Z). { unfold w. replace ((if s then 1 else 0) * 2 ^ 63 + e * 2 ^ 52 + m)%Z with (m + ((if s then 1 else 0) * 2 ^ 11 + e) * 2 ^ 52)%Z by lia. rewrite Z.mod_add by lia. apply Z.mod_small. lia. }
  assert (D : (w / 2 ^ 52 = e + (if s then 1 else 0) * 2 ^ 11)%Z). { unfold w. replace ((if s then 1 else 0) * 2 ^ 63 + e * 2 ^ 52 + m)%Z with (m + ((if s then 1 else 0) * 2 ^ 11 + e) * 2 ^ 52)%Z by lia. rewrite Z.div_add by lia. rewrite Z.div_small by lia. lia. }
  assert (E : (w / 2 ^ 52 mod 2 ^ 11 = e)%Z). { rewrite D, Z.mod_add by lia. apply Z.mod_small. lia. }
  assert (S : (w / 2 ^ 63 mod 2 = if s then 1 else 0)%Z). { assert (X : (w / 2 ^ 63 = if s then 1 else 0)%Z). { unfold w. rewrite <- Z.add_assoc, Z.div_add_l by lia. rewrite (Z.div_small (e * 2 ^ 52 + m)) by lia. lia. } rewrite X. destruct s; reflexivity. }
  rewrite M, E, S. cbv zeta. destruct (Z.eqb_spec e 2047); [lia|]. destruct (Z.eqb_spec e 0); [lia|]. eexists. split; [reflexivity|].
  assert (V : ((if (0 <=? e - 1075)%Z then inject_Z ((2 ^ 52 + m) * 2 ^ (e - 1075)) else Qmake (2 ^ 52 + m) (Z.to_pos (2 ^ (- (e - 1075))))) == (1 + inject_Z m / inject_Z (2 ^ 52)) * Qpower 2 (e - 1023))%Q).
  { assert (P : (Qpower 2 (e - 1023) == Qpower 2 (e - 1075) * inject_Z (2 ^ 52))%Q). { replace (e - 1023)%Z with (e - 1075 + 52)%Z by lia. rewrite Qpower_plus by discriminate. reflexivity. }
    rewrite P. assert (R : ((1 + inject_Z m / inject_Z (2 ^ 52)) * (Qpower 2 (e - 1075) * inject_Z (2 ^ 52)) == inject_Z (2 ^ 52 + m) * Qpower 2 (e - 1075))%Q). { rewrite inject_Z_plus. field. discriminate. } rewrite R.
    destruct (Z.leb_spec 0 (e - 1075)) as [L|L].
    - rewrite inject_Z_mult. apply Qmult_comp; [reflexivity|]. change 2%Q with (inject_Z 2). rewrite <- Zpower_Qpower by exact L. reflexivity.
    - assert (N : (e - 1075 = - (1075 - e))%Z) by lia. rewrite N, Qpower_opp, Z.opp_involutive. change 2%Q with (inject_Z 2). rewrite <- Zpower_Qpower by lia. assert (PP : (0 < 2 ^ (1075 - e))%Z) by (apply Z.pow_pos_nonneg; lia).
      rewrite (Qmake_Qdiv (2 ^ 52 + m)). rewrite Z2Pos.id by exact PP. reflexivity. }
  destruct s; cbv iota.
  - change (1 =? 1)%Z with true. cbv iota. rewrite V. ring.
  - change (0 =? 1)%Z with false. cbv iota. rewrite V. ring. Qed.
Print Assumptions C38_number_of_a_word.
(** a file cut anywhere in its header is rejected *)
Theorem C38_truncated_header : forall title p pad2 pad3 summary k, params_ok p -> title_ok title ->
  record_ok title -> record_ok (header2 p pad2) -> record_ok (header3 p pad3) -> record_ok summary ->
  k < length (header_file title p pad2 pad3 summary) -> exists e, read_rssa (firstn k (header_file title p pad2 pad3 summary)) = Err e.
Proof. intros title p pad2 pad3 summary k P T K1 K2 K3 K4 L. set (h := header_file title p pad2 pad3 summary) in *. unfold read_rssa. destruct (read_header (firstn k h)) as [[p' r]|e] eqn:R; [|exists e; reflexivity]. exfalso.
  apply (read_header_ext _ _ _ (skipn k h)) in R. rewrite firstn_skipn in R. pose proof (read_header_ok title p pad2 pad3 summary [] P T K1 K2 K3 K4) as G. rewrite app_nil_r in G. fold h in G. rewrite G in R. injection R as _ R. symmetry in R. apply app_eq_nil in R as [_ R].
  assert (X : length (skipn k h) = 0) by now rewrite R. rewrite skipn_length in X. lia. Qed.
Print Assumptions C38_truncated_header.
(** a file cut inside a track is rejected *)
Theorem C38_truncated_track : forall title p pad2 pad3 summary tracks k, params_ok p -> title_ok title -> Forall track_ok tracks ->
  record_ok title -> record_ok (header2 p pad2) -> record_ok (header3 p pad3) -> record_ok summary ->
  k < 96 * length tracks -> k mod 96 <> 0 ->
  read_rssa (header_file title p pad2 pad3 summary ++ firstn k (concat (map track_record tracks))) = Err ValueError.
Proof. intros title p pad2 pad3 summary tracks k P T F K1 K2 K3 K4 L M. unfold read_rssa. rewrite read_header_ok by assumption. cbn [bind]. rewrite read_tracks_partial; [reflexivity|]. rewrite firstn_length_le; [exact M|].
  rewrite (concat_len 96); [rewrite map_length; lia|]. apply Forall_forall. intros r Q. apply in_map_iff in Q as [t [<- Q]]. rewrite Forall_forall in F. apply track_record_len, F, Q. Qed.
Print Assumptions C38_truncated_track.
(** a record whose two lengths differ is rejected *)
Theorem C38_unequal_lengths : forall data n r, record_ok data -> fits 32 n -> n <> Z.of_nat (length data) ->
  read_record (le_bytes 4 (Z.of_nat (length data)) ++ data ++ le_bytes 4 n ++ r) = Err ValueError.
Proof. intros data n r K F N. unfold read_record. rewrite read_int_ok by now apply fits_len. cbn [bind]. destruct (Z.ltb_spec (Z.of_nat (length data)) 0); [lia|]. rewrite Nat2Z.id, skipn_app, skipn_all, Nat.sub_diag, skipn_O, app_nil_l, read_int_ok by exact F. cbn [bind]. destruct (Z.eqb_spec (Z.of_nat (length data)) n); [congruence|reflexivity]. Qed.
Print Assumptions C38_unequal_lengths.
(** files of other codes are rejected as such *)
Theorem C38_other_codes : forall title r, record_ok title -> utf8 title = true -> ~ (exists a b, title = a ++ ascii_bytes (s2l "d1suned") ++ b) ->
  read_rssa (record title ++ r) = Err NotImplementedError.
Proof. intros title r K U N. unfold read_rssa, read_header. rewrite read_record_ok by exact K. cbn [bind]. rewrite U. cbn [negb]. destruct (zcontains _ title) eqn:Z; [apply zcontains_spec in Z; contradiction|]. reflexivity. Qed.
Print Assumptions C38_other_codes.
(** refuted: the number of tracks announced in the header is not compared with the number read, so a
    file cut between two tracks is read without complaint *)
Theorem C38_lost_tracks_refuted : forall title p pad2 pad3 summary tracks k, params_ok p -> title_ok title -> Forall track_ok tracks ->
  record_ok title -> record_ok (header2 p pad2) -> record_ok (header3 p pad3) -> record_ok summary ->
  read_rssa (header_file title p pad2 pad3 summary ++ concat (map track_record (firstn k tracks))) = Ok (p, firstn k tracks).
Proof. intros title p pad2 pad3 summary tracks k P T F K1 K2 K3 K4. apply (C38_reads_every_file title p pad2 pad3 summary (firstn k tracks)); try assumption. apply Forall_forall. intros t Q. rewrite Forall_forall in F. apply F. rewrite <- (firstn_skipn k tracks). apply in_or_app. now left. Qed.
Print Assumptions C38_lost_tracks_refuted.
(** refuted: the record lengths around a track are not looked at *)
Theorem C38_track_lengths_unchecked_refuted : forall a b w, length a = 4 -> length b = 4 -> track_ok w -> read_tracks (a ++ concat (map (le_bytes 8) w) ++ b) = Ok [w].
Proof. intros a b w LA LB [L F]. unfold read_tracks. set (C := concat (map (le_bytes 8) w)). assert (LC : length C = 88) by (unfold C; rewrite (concat_len 8) by apply words_len; rewrite map_length, L; reflexivity).
  assert (LL : length (a ++ C ++ b) = 96) by (rewrite !app_length; lia). rewrite LL. change (96 mod 96 =? 0) with true. cbv iota. assert (P : packs 96 (a ++ C ++ b) = [a ++ C ++ b]). { pose proof (packs_blocks 96 [a ++ C ++ b] ltac:(lia) ltac:(constructor; [exact LL|constructor])) as X. cbn [concat] in X. now rewrite app_nil_r in X. }
  rewrite P. cbn [map concat]. rewrite (middle a C b 4 88 LA LC). rewrite app_nil_r. unfold C. rewrite packs_blocks by (try apply words_len; lia). rewrite map_map. f_equal.
  assert (I : map (fun x => le (le_bytes 8 x)) w = w). { transitivity (map (fun z => z) w); [|apply map_id]. apply map_ext_in. intros x Q. rewrite Forall_forall in F. apply le_word, F, Q. } rewrite I.
  pose proof (packs_blocks 11 [w] ltac:(lia) ltac:(constructor; [exact L|constructor])) as X. cbn [concat] in X. now rewrite app_nil_r in X. Qed.
Print Assumptions C38_track_lengths_unchecked_refuted.
(** refuted: the last four bytes of the first record are the number of the last dump, and the whole
    record is decoded as text: a correct file whose last dump is between 128 and 255 cannot be read *)
Theorem C38_dump_number_refuted : forall text dump r, Forall (fun x => 0 <= x < 128)%Z text -> (128 <= dump < 256)%Z -> record_ok (text ++ le_bytes 4 dump) ->
  read_rssa (record (text ++ le_bytes 4 dump) ++ r) = Err ValueError.
Proof. intros text dump r A D K. unfold read_rssa, read_header. rewrite read_record_ok by exact K. cbn [bind]. rewrite utf8_ascii by exact A. rewrite utf8_dump by exact D. reflexivity. Qed.
Print Assumptions C38_dump_number_refuted.
Definition x_title : bytes := ascii_bytes (s2l "d1suned  4.1") ++ le_bytes 4 5.
Definition x_params : params := mkParams (-1000) 2 11 1 2 0 1 0 [mkSurf 7 (-1) 12 1 [3; -4]%Z].
Definition x_tracks : list (list Z) := [[1; 2; 3; 4; 5; 6; 7; 8; 9; 10; 11]; [4607182418800017408; 13835058055282163712; 0; 0; 0; 0; 0; 0; 0; 0; 7]]%Z.
Example C38_witness : params_ok x_params /\ title_ok x_title /\ Forall track_ok x_tracks /\ read_rssa (rssa_file x_title x_params [] [0; 0]%Z [1; 2; 3]%Z x_tracks) = Ok (x_params, x_tracks).
Proof. split; [|split; [|split]].
  - unfold params_ok, fits, x_params. cbn. repeat split; try lia. constructor; [|constructor]. unfold surface_ok, fits, record_ok. cbn. repeat split; try lia. repeat constructor; cbn; lia.
  - split; [reflexivity|]. exists [], (ascii_bytes (s2l "  4.1") ++ le_bytes 4 5). reflexivity.
  - repeat constructor; cbn; lia.
  - vm_compute. reflexivity. Qed.

(** ** C39 *)
(** the masks, by the packed word of the track *)
Theorem C39_neutron_mask : forall ts i, In i (mask_neutron ts) <-> exists t, nth_error ts i = Some t /\ is_particle Neutron t.
Proof. intros ts i. unfold mask_neutron. rewrite where_in. split; intros [t [N P]]; exists t; (split; [exact N|]).
  - unfold abs_lt in P. cbn [is_particle]. destruct (word_b t) as [q| |]; try discriminate. exists q. split; [reflexivity|]. destruct (Qle_bool nine8 (Qabs q)) eqn:E; [discriminate|]. apply Qnot_le_lt. intros Q. apply Qle_bool_iff in Q. change (inject_Z 900000000) with nine8 in Q. unfold nine8 in E. change (900000000 # 1)%Q with (inject_Z 900000000) in Q. congruence.
  - destruct P as [q [-> L]]. cbn [abs_lt]. destruct (Qle_bool nine8 (Qabs q)) eqn:E; [|reflexivity]. apply Qle_bool_iff in E. exfalso. apply (Qlt_not_le _ _ L). exact E. Qed.
Print Assumptions C39_neutron_mask.
Theorem C39_photon_mask : forall ts i, In i (mask_photon ts) <-> exists t, nth_error ts i = Some t /\ is_particle Photon t.
Proof. intros ts i. unfold mask_photon. rewrite where_in. split; intros [t [N P]]; exists t; (split; [exact N|]).
  - unfold abs_ge in P. cbn [is_particle]. destruct (word_b t) as [q|s|]; try discriminate; [left|right; now exists s]. exists q. split; [reflexivity|]. apply Qle_bool_iff in P. exact P.
  - destruct P as [[q [-> L]]|[s ->]]; [|reflexivity]. cbn [abs_ge]. apply Qle_bool_iff. exact L. Qed.
Print Assumptions C39_photon_mask.
(** every track whose word is a number is either a neutron or a photon, never both; the two counts
    add up to the number of tracks *)
Theorem C39_partition : forall ts, Forall (fun t => word_b t <> NaN) ts ->
  (forall i, i < length ts -> (In i (mask_neutron ts) /\ ~ In i (mask_photon ts)) \/ (In i (mask_photon ts) /\ ~ In i (mask_neutron ts))) /\
  NoDup (mask_neutron ts) /\ NoDup (mask_photon ts) /\ length (mask_neutron ts) + length (mask_photon ts) = length ts.
Proof. intros ts F. assert (C : forall t, In t ts -> abs_ge (word_b t) = negb (abs_lt (word_b t))). { intros t Q. rewrite Forall_forall in F. specialize (F t Q). destruct (word_b t); cbn [abs_ge abs_lt]; [now rewrite negb_involutive|reflexivity|now elim F]. }
  split; [|split; [apply where_nodup|split; [apply where_nodup|apply where_len; exact C]]].
  intros i I. destruct (nth_error ts i) as [t|] eqn:N; [|apply nth_error_None in N; lia]. pose proof (nth_error_In _ _ N) as Q. specialize (C t Q). unfold mask_neutron, mask_photon. rewrite !where_in.
  destruct (abs_lt (word_b t)) eqn:A; cbn [negb] in C; [left|right]; (split; [exists t; auto|]); intros [t' [N' P]]; rewrite N in N'; injection N' as <-; congruence. Qed.
Print Assumptions C39_partition.
(** refuted for a track whose word is not a number: it is neither *)
Theorem C39_nan_refuted : forall ts i t, nth_error ts i = Some t -> word_b t = NaN -> ~ In i (mask_neutron ts) /\ ~ In i (mask_photon ts).
Proof. intros ts i t N W. unfold mask_neutron, mask_photon. rewrite !where_in. split; intros [t' [N' P]]; rewrite N in N'; injection N' as <-; rewrite W in P; discriminate. Qed.
Print Assumptions C39_nan_refuted.
Definition trk (b w x y z : Q) : track := [Fin 1; Fin b; Fin w; Fin 1; Fin 0; Fin x; Fin y; Fin z; Fin 0; Fin 0; Fin 1]%Q.
Definition x_ts : list track := [trk 800000001 2 1 0 0; trk (-1600000001) 3 1 0 1; trk (-800000001) 5 0 1 4; trk 800000007 7 (1#2) 1 2]%Q.
Example C39_witness : Forall (fun t => word_b t <> NaN) x_ts /\ mask_neutron x_ts = [0; 2; 3] /\ mask_photon x_ts = [1].
Proof. split; [|split; vm_compute; reflexivity]. repeat constructor; discriminate. Qed.

(** ** C40 *)
Section C40.
  (** np.angle and np.linalg.norm *)
  Context (angle radius : Q -> Q -> Q).
  (** Every cell of the plot shows the total weight of the selected tracks that fall in it, per unit
      area and source particle, times the normalisation; the cells are the products of equal
      intervals between the least and the greatest z and theta of the selected tracks, each
      containing its lower edge and the last one also the upper edge *)
  Theorem C40_every_cell : forall p ts part nz nt norm xr zr pl, (Z.of_nat nz < 2 ^ 63)%Z -> (Z.of_nat nt < 2 ^ 63)%Z -> plot_cyl angle radius p ts part nz nt norm xr zr = Ok pl ->
    exists sel z0 z1 t0 t1 t rest, ts = t :: rest /\ selects part xr zr (perimeter angle radius ts) sel ts /\
      least (map t_z sel) z0 /\ greatest (map t_z sel) z1 /\ least (map (t_theta angle) sel) t0 /\ greatest (map (t_theta angle) sel) t1 /\
      pl_area pl = Qabs (radius (t_x t) (t_y t) * (edge t0 t1 nt 1 - edge t0 t1 nt 0) * (edge z0 z1 nz 1 - edge z0 z1 nz 0)) /\
      (forall i j, i < nz -> j < nt -> exists w c,
         sums (fun t => in_interval z0 z1 nz i (t_z t) /\ in_interval t0 t1 nt j (t_theta angle t)) t_wgt w sel /\
         sums (fun t => in_interval z0 z1 nz i (t_z t) /\ in_interval t0 t1 nt j (t_theta angle t)) (fun _ => 1%Q) c sel /\
         (cell (pl_values pl) i j == w / pl_area pl / inject_Z (Z.abs (np1 p)) * norm)%Q /\
         ((~ (c == 0)%Q -> cell (pl_counts pl) i j == c) /\ ((c == 0)%Q -> cell (pl_counts pl) i j == 1))%Q).
  Proof using. intros p ts part nz nt norm xr zr pl HZ HT H. destruct (selected_tracks angle radius _ _ _ _ _ _ _ _ _ H) as [mask [pm [F [PM S]]]].
    destruct (figures_sel angle radius p ts part nz nt norm mask pl pm HZ HT F PM) as [z0 [z1 [t0 [t1 [t [rest [g [n [E [A0 [A1 [B0 [B1 [ZL [TL [NZ [NT [SG [SN [C [_ [_ [AR [V [CN _]]]]]]]]]]]]]]]]]]]]]]]]].
    exists (pick ts (match mask with None => pm | Some m => intersect pm m end)), z0, z1, t0, t1, t, rest. repeat (split; [assumption|]). intros i j Hi Hj. destruct (C i j Hi Hj) as [C1 C2]. exists (cell g i j), (cell n i j). split; [exact C1|]. split; [exact C2|].
    assert (CM : forall (f : Q -> Q) h, shape nz nt h -> cell (map (map f) h) i j = f (cell h i j)). { intros f h [L FF]. unfold cell. rewrite (nth_indep _ [] (map f [])) by (rewrite map_length; lia). rewrite map_nth. rewrite (nth_indep _ 0%Q (f 0%Q)); [now rewrite map_nth|]. rewrite map_length. rewrite Forall_forall in FF. rewrite (FF (nth i h [])) by (apply nth_In; lia). exact Hj. }
    split.
    - rewrite V at 1. rewrite (CM _ g SG). reflexivity.
    - rewrite CN, (CM _ n SN). destruct (Qeq_bool (cell n i j) 0) eqn:Q0; [apply Qeq_bool_iff in Q0|apply Qeq_bool_neq in Q0]; split; intros Q; try reflexivity; contradiction. Qed.
  (** nothing is lost: the cells add up to the total weight of the selected tracks *)
  Theorem C40_total : forall p ts part nz nt norm xr zr pl, (Z.of_nat nz < 2 ^ 63)%Z -> (Z.of_nat nt < 2 ^ 63)%Z -> plot_cyl angle radius p ts part nz nt norm xr zr = Ok pl -> np1 p <> 0%Z -> ~ (pl_area pl == 0)%Q ->
    exists sel, selects part xr zr (perimeter angle radius ts) sel ts /\
      (qsum (concat (pl_values pl)) * pl_area pl * inject_Z (Z.abs (np1 p)) == norm * qsum (map t_wgt sel))%Q.
  Proof using. intros p ts part nz nt norm xr zr pl HZ HT H NP NA. destruct (selected_tracks angle radius _ _ _ _ _ _ _ _ _ H) as [mask [pm [F [PM S]]]].
    destruct (figures_sel angle radius p ts part nz nt norm mask pl pm HZ HT F PM) as [z0 [z1 [t0 [t1 [t [rest [g [n [E [A0 [A1 [B0 [B1 [ZL [TL [NZ [NT [SG [SN [_ [SW [_ [AR [V _]]]]]]]]]]]]]]]]]]]]]]]].
    eexists. split; [exact S|]. rewrite <- SW. set (K := inject_Z (Z.abs (np1 p))) in *. assert (KN : ~ (K == 0)%Q). { unfold K. intros Q. assert (X : Z.abs (np1 p) = 0%Z) by (apply inject_Z_injective; exact Q). lia. }
    set (a := pl_area pl) in *. rewrite V. clear - NA KN. assert (G : forall l, (qsum (map (fun v => (v / a / K * norm)%Q) l) * a * K == norm * qsum l)%Q). { induction l as [|v l IH]; [cbn; ring|]. cbn [map]. rewrite !qsum_cons. transitivity (norm * v + qsum (map (fun v => (v / a / K * norm)%Q) l) * a * K)%Q; [field; auto|rewrite IH; ring]. }
    assert (CM : concat (map (map (fun v => (v / a / K * norm)%Q)) g) = map (fun v => (v / a / K * norm)%Q) (concat g)) by (symmetry; apply concat_map). rewrite CM. apply G. Qed.
  (** refuted: the range along the perimeter is not usable without a z range *)
  Theorem C40_x_range_alone_refuted : forall p ts part nz nt norm r, exists e, plot_cyl angle radius p ts part nz nt norm (Some r) None = Err e.
  Proof using. intros p ts part nz nt norm r. destruct (plot_cyl angle radius p ts part nz nt norm (Some r) None) as [pl|e] eqn:H; [exfalso|now exists e]. unfold plot_cyl in H. destruct r as [a b]. destruct ts as [|t0 ts']; [discriminate|]. cbn [bind] in H. set (ts := t0 :: ts') in *. destruct (where_ _ ts); [|discriminate]. cbn [bind] in H. unfold figures in H. destruct (particle_mask part ts) as [pm|]; cbn [bind] in H; [|discriminate].
      rewrite intersect_nil in H. discriminate. Qed.
  (** refuted: tracks that all have the same z (for instance a single track) cannot be plotted *)
  Theorem C40_same_z_refuted : forall p ts part nz nt norm xr zr pl sel, (Z.of_nat nz < 2 ^ 63)%Z -> (Z.of_nat nt < 2 ^ 63)%Z -> selects part xr zr (perimeter angle radius ts) sel ts -> (exists z, Forall (fun t => (t_z t == z)%Q) sel) ->
    plot_cyl angle radius p ts part nz nt norm xr zr <> Ok pl.
  Proof using. intros p ts part nz nt norm xr zr pl sel HZ HT [keep [K1 ->]] [z F] H. destruct (selected_tracks angle radius _ _ _ _ _ _ _ _ _ H) as [mask [pm [FG [PM [keep' [K2 S]]]]]].
    destruct (figures_sel angle radius p ts part nz nt norm mask pl pm HZ HT FG PM) as [z0 [z1 [t0 [t1 [t [rest [g [n [E [A0 [A1 [_ [_ [ZL _]]]]]]]]]]]]]]. rewrite S in A0, A1.
    assert (KK : forall t, keep t = keep' t). { intros x. destruct (keep x) eqn:Q; symmetry; [apply K2, K1, Q|]. destruct (keep' x) eqn:Q'; [|reflexivity]. apply K2, K1 in Q'. congruence. }
    rewrite <- (filter_ext _ _ KK) in A0, A1. destruct A0 as [A0 _], A1 as [A1 _]. apply in_map_iff in A0 as [x0 [<- I0]]. apply in_map_iff in A1 as [x1 [<- I1]]. rewrite Forall_forall in F. pose proof (F _ I0) as X0. pose proof (F _ I1) as X1. cbv beta in X0, X1. lra. Qed.
End C40.
Print Assumptions C40_every_cell.
Print Assumptions C40_total.
Print Assumptions C40_x_range_alone_refuted.
Print Assumptions C40_same_z_refuted.
(** the neutrons of the example: z 0, 4, 2 and angles (here y - x) -1, 1, 1/2, in 2 by 2 cells; the
    maximum goes to the last cell *)
Example C40_witness : exists pl, plot_cyl (fun x y => y - x)%Q (fun _ _ => 1%Q) x_params x_ts Neutron 2 2 1 None None = Ok pl /\
  map (map Qred) (pl_counts pl) = [[1; 1]; [1; 2]]%Q /\ map (map Qred) (pl_values pl) = [[1 # 1000; 0]; [0; 3 # 500]]%Q.
Proof. eexists. split; [vm_compute; reflexivity|]. split; vm_compute; reflexivity. Qed.
