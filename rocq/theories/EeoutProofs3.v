(** Proofs about the counts, names and particles of .eeout files. *)
From Coq Require Import Lia ZArith.
From Verif Require Import PyBase PyLemmas PyStr PyText D1SModel D1SProofs2 DataModel MeshModel MeshSpec MeshProofs MctalProofs EliteProofs3 OutModel OutSpec OutProofs OutProofs2 OutProofs4 FispModel FispProofs EeoutModel EeoutSpec EeoutProofs EeoutProofs2.
Open Scope nat_scope.

(** ** counts *)
Lemma digits_len s (w r : str) : some1 is_digit s = Some (w, r) -> length r < length s.
Proof. intros H. pose proof (some1_len _ _ _ _ H). apply some1_spec in H as (_ & H & _). destruct w; [congruence|]. cbn [length] in *. lia. Qed.
Lemma digit_miss c s : is_digit c = false -> some1 is_digit (c :: s) = None.
Proof. intros H. unfold some1. cbn [span]. rewrite H. reflexivity. Qed.
Lemma digits_skip g r : digit_free g -> digits_of (g ++ r) = digits_of r.
Proof.
  intros H. unfold digits_of. apply (findall_skip (some1 is_digit)); [exact digits_len|]. intros g1 c g2 E. apply digit_miss. unfold digit_free in H. rewrite Forall_forall in H. apply H. rewrite E. apply in_or_app; right; left; reflexivity.
Qed.
Lemma digits_hit d r : all_digits d -> not_starting_digit r -> digits_of (d ++ r) = d :: digits_of r.
Proof. intros [Hn Hd] Hr. unfold digits_of. apply (findall_hit (some1 is_digit)); [exact digits_len|]. apply some1_app; assumption. Qed.
Lemma digits_none w : digit_free w -> digits_of w = [].
Proof. intros H. rewrite <- (app_nil_r w). rewrite digits_skip by exact H. unfold digits_of. apply findall_nil. reflexivity. Qed.
(* the last run of digits *)
Lemma digits_last_in n : forall u d w, length u <= n -> not_starting_digit (rev u) -> all_digits d -> digit_free w -> exists l, digits_of (u ++ d ++ w) = l ++ [d].
Proof.
  induction n as [|n IH]; intros u d w Hn Hu Hd Hw.
  - destruct u; [|cbn [length] in Hn; lia]. exists []. cbn [app]. rewrite digits_hit; [rewrite digits_none by exact Hw; reflexivity|exact Hd|].
    intros c r ->. exact (Forall_inv Hw).
  - destruct u as [|c u]; [apply (IH [] d w); [cbn [length]; lia|exact Hu|exact Hd|exact Hw]|]. destruct (is_digit c) eqn:Ec.
    + (* a run of digits starts here; it ends inside u *)
      pose proof (span_spec is_digit (c :: u)) as X. destruct (span is_digit (c :: u)) as [a b] eqn:Es. destruct X as (E & Fa & Nb).
      assert (Ha : a <> []). { intros ->. cbn [app] in E. rewrite (Nb c u (eq_sym E)) in Ec. discriminate Ec. }
      assert (Hb : b <> []). { intros ->. rewrite app_nil_r in E. rewrite E in Hu. destruct (rev a) as [|x r] eqn:Er; [apply Ha; rewrite <- (rev_involutive a), Er; reflexivity|].
        specialize (Hu x r eq_refl). assert (In x a) by (rewrite in_rev, Er; left; reflexivity). rewrite Forall_forall in Fa. rewrite (Fa x H) in Hu. discriminate Hu. }
      rewrite E. rewrite <- app_assoc. rewrite digits_hit.
      2:{ split; [exact Ha|exact Fa]. }
      2:{ intros x r Eb. destruct b as [|y b]; [congruence|]. injection Eb as <- _. exact (Nb y b eq_refl). }
      destruct (IH b d w) as [l Hl].
      * apply (f_equal (@length ascii)) in E. rewrite app_length in E. destruct a; [congruence|]. cbn [length] in *. lia.
      * rewrite E, rev_app_distr in Hu. intros x r Er. destruct (rev b) as [|y r'] eqn:Eb; [discriminate Er|]. injection Er as -> ->. exact (Hu x (r ++ rev a) eq_refl).
      * exact Hd.
      * exact Hw.
      * exists (a :: l). rewrite Hl. reflexivity.
    + cbn [app]. change (c :: u ++ d ++ w) with ([c] ++ u ++ d ++ w). rewrite digits_skip by (constructor; [exact Ec|constructor]). apply IH; [cbn [length] in Hn; lia| |exact Hd|exact Hw].
      intros x r Er. cbn [rev] in Hu. rewrite Er in Hu. exact (Hu x (r ++ [c]) eq_refl).
Qed.
Lemma count_line n v l : CountLine n v l -> info_name l = Ok n /\ last_int l = Ok v.
Proof.
  intros [(a & b & E & Ha & Fa & Nb & ->) (u & d & w & E2 & Hu & Hd & Hw & ->)]. split.
  - unfold info_name. rewrite E, (some1_app info_char a b Ha Fa Nb). reflexivity.
  - unfold last_int. rewrite E2. destruct (digits_last_in (length u) u d w (Nat.le_refl _) Hu Hd Hw) as [r ->]. rewrite last_snoc. cbn [of_opt bind]. apply parse_digits. exact Hd.
Qed.
Lemma dset_end {V} (k : str) (v : V) d : ~ In k (map fst d) -> dset str_eqb k v d = d ++ [(k, v)].
Proof.
  intros H. apply (dset_new str_eqb). destruct (dget str_eqb k d) eqn:E; [|reflexivity]. exfalso. apply H. apply (dget_some_in str_eqb str_eqb_eq) in E. apply (in_map fst) in E. exact E.
Qed.
Lemma info_run cs : forall ls d l c rest, Forall2 (fun c l => CountLine (fst c) (snd c) l) cs ls -> Forall (fun x => ~ mentions "NUMBER OF EDITS" x) ls ->
  CountLine (fst c) (snd c) l -> mentions "NUMBER OF EDITS" l -> NoDup (map fst (d ++ cs ++ [c])) ->
  read_info true d (ls ++ l :: rest) = Ok (d ++ cs ++ [c]).
Proof.
  induction cs as [|c0 cs IH]; intros ls d l c rest F Hn Hl Hm Hd; inversion F as [|x y xs ys Hc F' E1 E2]; subst; cbn [app read_info orb].
  - destruct (count_line _ _ _ Hl) as [-> ->]. cbn [bind]. rewrite (proj2 (has_iff _ _) Hm). f_equal. rewrite dset_end; [rewrite <- surjective_pairing; reflexivity|].
    cbn [app] in Hd. rewrite map_app in Hd. cbn [map] in Hd. apply NoDup_remove_2 in Hd. rewrite app_nil_r in Hd. exact Hd.
  - destruct (count_line _ _ _ Hc) as [-> ->]. cbn [bind]. rewrite (has_not _ _ (Forall_inv Hn)). rewrite dset_end.
    2:{ rewrite map_app in Hd. cbn [app map] in Hd. apply NoDup_remove_2 in Hd. intros X. apply Hd. apply in_or_app; left; exact X. }
    rewrite <- surjective_pairing. rewrite (IH ys (d ++ [c0]) l c rest F' (Forall_inv_tail Hn) Hl Hm). { rewrite <- app_assoc. reflexivity. } rewrite <- app_assoc. exact Hd.
Qed.
Lemma info_skip a : forall d b, Forall (says_none ["NUMBER OF PARTICLES"; "NUMBER OF EDITS"]%string) a -> read_info false d (a ++ b) = read_info false d b.
Proof.
  induction a as [|l a IH]; intros d b H; [reflexivity|]. pose proof (Forall_inv H) as Hl. unfold says_none in Hl. repeat rewrite Forall_cons_iff in Hl. destruct Hl as (H1 & H2 & _).
  cbn [app read_info]. rewrite (has_not _ _ H1), (has_not _ _ H2). cbn [orb bind]. apply IH. exact (Forall_inv_tail H).
Qed.
Lemma info_ok a cs ls rest : Forall (says_none ["NUMBER OF PARTICLES"; "NUMBER OF EDITS"]%string) a -> Counts cs ls -> read_info false [] (a ++ ls ++ rest) = Ok cs.
Proof.
  intros Ha (F & Hd & (l0 & r0 & E0 & H0) & (r & l & E & Hl & Hr)). rewrite info_skip by exact Ha.
  assert (R : read_info false [] (ls ++ rest) = read_info true [] (ls ++ rest)). { rewrite E0. cbn [app read_info orb]. rewrite (proj2 (has_iff _ _) H0). reflexivity. }
  rewrite R. rewrite E in F. rewrite E. apply Forall2_app_inv_r in F as (c1 & c2 & F1 & F2 & ->). inversion F2 as [|c y c3 ys Hc F3 E2 E3]; subst. inversion F3; subst.
  rewrite <- app_assoc. cbn [app]. apply (info_run c1 r [] l c rest F1 Hr Hc Hl). exact Hd.
Qed.
Lemma counted_get cs n z : NoDup (map fst cs) -> counted cs n z -> count n cs = Ok z.
Proof.
  intros Hd H. unfold count, counted in *. assert (E : dget str_eqb (s2l n) cs = Some z); [|rewrite E; reflexivity].
  induction cs as [|[k v] cs IH]; [destruct H|]. cbn [dget]. cbn [map fst] in Hd. inversion Hd; subst. destruct (str_eqb (s2l n) k) eqn:E.
  - apply str_eqb_eq in E. destruct H as [H|H]; [injection H as _ ->; reflexivity|]. exfalso. apply H2. rewrite <- E. apply (in_map fst) in H. exact H.
  - destruct H as [H|H]; [injection H as -> _; rewrite (proj2 (str_eqb_eq _ _) eq_refl) in E; discriminate E|]. apply IH; assumption.
Qed.

(** ** names of the materials *)
Lemma mat_title_iff l : mat_title l = true <-> MaterialsTitle l.
Proof.
  unfold mat_title, MaterialsTitle. destruct (some1 is_ws l) as [[w a]|] eqn:E; cbn [obind].
  - apply some1_spec in E as (-> & Hw & Fw & Na). destruct (strip_prefix (s2l "MATERIALS") a) as [r|] eqn:E2; split; intros H; try reflexivity; try discriminate H.
    + apply strip_prefix_some in E2 as ->. exists w, r. split; [reflexivity|split; assumption].
    + destruct H as (w' & r & E & Hw' & Fw'). pose proof (span_app is_ws w a Fw Na) as S1. rewrite E in S1.
      rewrite (span_app is_ws w' (s2l "MATERIALS" ++ r) Fw') in S1 by (intros c q X; injection X as <- _; reflexivity). apply (f_equal snd) in S1. cbn [snd] in S1. symmetry in S1. apply strip_prefix_some in S1. rewrite S1 in E2. discriminate E2.
  - split; intros H; [discriminate H|]. destruct H as (w' & r & -> & Hw' & Fw'). rewrite (some1_app is_ws w' (s2l "MATERIALS" ++ r) Hw' Fw') in E by (intros c q X; injection X as <- _; reflexivity). discriminate E.
Qed.
Lemma mat_index_ok a t r : Forall (fun l => ~ MaterialsTitle l) a -> MaterialsTitle t -> mat_index (a ++ t :: r) = length a.
Proof.
  intros Ha Ht. induction a as [|l a IH]; cbn [app length].
  - destruct r as [|x r]; [reflexivity|]. cbn [mat_index]. rewrite (proj2 (mat_title_iff t) Ht). reflexivity.
  - cbn [mat_index]. destruct (a ++ t :: r) eqn:E; [destruct a; discriminate E|]. destruct (mat_title l) eqn:Em; [apply mat_title_iff in Em; exfalso; exact (Forall_inv Ha Em)|].
    rewrite <- E in *. rewrite (IH (Forall_inv_tail Ha)). reflexivity.
Qed.
Lemma name_ok n l : NameLine n l -> mat_name l = Ok n.
Proof.
  intros (t & e & -> & Ht & Hn & He & ->). unfold mat_name, one_line. rewrite span_app.
  - cbn [fst]. destruct t; [congruence|reflexivity].
  - apply Forall_forall. intros c Hc. apply Bool.negb_true_iff. destruct (Ascii.eqb_spec c nl) as [->|_]; [contradiction|reflexivity].
  - intros c r E. destruct He as [->| ->]; [discriminate E|]. injection E as <- _. reflexivity.
Qed.
Lemma materials_ok a t ms r ns : Forall (fun l => ~ MaterialsTitle l) a -> MaterialsTitle t -> Forall2 NameLine ns ms -> materials (Z.of_nat (length ns)) (a ++ t :: ms ++ r) = Ok ns.
Proof.
  intros Ha Ht F. unfold materials. rewrite Nat2Z.id. rewrite mat_index_ok by assumption.
  assert (G : forall k ns' ms', (forall j, nth_error ms' j = nth_error ms (k + j)) -> length ms' + k <= length ms -> Forall2 NameLine ns' ms' ->
    mapM (fun i => do l <- of_opt IndexError (nth_error (a ++ t :: ms ++ r) (i + 1 + length a)); mat_name l) (seq k (length ns')) = Ok ns').
  { intros k ns' ms' Hj Hl F'. revert k Hj Hl. induction F' as [|n l ns' ms' Hn _ IH]; intros k Hj Hl; [reflexivity|]. cbn [length seq mapM].
    replace (nth_error (a ++ t :: ms ++ r) (k + 1 + length a)) with (Some l).
    - cbn [of_opt bind]. rewrite (name_ok n l Hn). cbn [bind]. rewrite IH; [reflexivity| |cbn [length] in Hl; lia]. intros j. specialize (Hj (S j)). cbn [nth_error] in Hj. rewrite Hj. f_equal. lia.
    - symmetry. rewrite nth_error_app2 by lia. replace (k + 1 + length a - length a) with (S k) by lia. cbn [nth_error]. rewrite nth_error_app1 by (cbn [length] in Hl; lia).
      specialize (Hj 0). rewrite Nat.add_0_r in Hj. symmetry. exact Hj. }
  apply (G 0 ns ms); [reflexivity|lia|exact F].
Qed.

(** ** particles *)
Lemma digit_words_ok ds l : digit_words ds l -> digits_of l = ds.
Proof.
  intros (pre & parts & -> & Hp & F). rewrite digits_skip by exact Hp. clear Hp pre. induction F as [|p d parts ds (E & Hd & Hf & Hn) _ IH]; [unfold digits_of; apply findall_nil; reflexivity|].
  destruct p as [p1 p2]. cbn [fst snd] in *. subst p1. cbn [map concat fst snd]. rewrite <- app_assoc. rewrite digits_hit; [|exact Hd|].
  - rewrite digits_skip by exact Hf. rewrite IH. reflexivity.
  - intros c r X. destruct p2 as [|y q]; [congruence|]. injection X as <- _. exact (Forall_inv Hf).
Qed.
Lemma list_ok ps l : ListLine ps l -> mapM parse_int (digits_of l) = Ok ps.
Proof.
  intros (ds & H & ->). rewrite (digit_words_ok ds l H). destruct H as (pre & parts & _ & _ & F). apply mapM_F2. clear -F. induction F as [|p d parts ds (_ & Hd & _) _ IH]; cbn [map]; constructor; [apply parse_digits; exact Hd|exact IH].
Qed.
Lemma particles_ok a t l r ps : Forall (fun x => ~ mentions "PARTICLE LIST" x) a -> mentions "PARTICLE LIST" t -> ListLine ps l -> particle_list (a ++ t :: l :: r) = Ok ps.
Proof.
  intros Ha Ht Hl. induction a as [|x a IH]; cbn [app particle_list].
  - rewrite (proj2 (has_iff _ _) Ht). exact (list_ok ps l Hl).
  - rewrite (has_not _ _ (Forall_inv Ha)). exact (IH (Forall_inv_tail Ha)).
Qed.
