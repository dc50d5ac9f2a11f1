(** C89-C93: categories of the plots, images, slices, atlas and cumulative plots. *)
From Coq Require Import Lia ZArith Sorted Qround Lqa.
From Verif Require Import PyBase PyLemmas PyStr AceModel D1SProofs2 MatProofs PlotModel PlotSpec PlotProofs.
Open Scope nat_scope.

(** C89.  The labels of every slice plotted by category, one call after the other: slices number 0, 2, 4... get one kind of
    labels and slices number 1, 3, 5... another; a call with an odd number of slices changes what the next call shows. *)
Theorem C89_labels_of_each_slice : forall (Cut Stl Img : Type) (values : Cut -> str -> list Q) (draw : drawing Cut Stl -> Img) consts disk slices array folder nc title s k vals,
  In s consts -> NoDup (map g_name consts) -> Scheme vals (g_ctgs s) -> g_vals s = (if Nat.even k then vals else rev vals) -> (forall f, folder <> Some (f, false)) ->
  exists ims disk' consts', plot_slices values draw consts disk slices array folder nc title (Some (g_name s)) = Ok (ims, disk', consts')
    /\ (forall i name cut stl, nth_error slices i = Some (name, cut, stl) -> exists used, nth_error ims i = Some (name,
          draw {| w_cut := cut; w_scalars := g_name s; w_labels := Some (map (label_on (k + i) vals (g_ctgs s)) (values cut array), used); w_stl := stl; w_title := title; w_nlabels := n_labels nc |}))
    /\ (exists s', In s' consts' /\ g_name s' = g_name s /\ g_ctgs s' = g_ctgs s /\ g_colors s' = g_colors s /\ g_vals s' = if Nat.even (k + length slices) then vals else rev vals)
    /\ (forall t, g_name t <> g_name s -> (In t consts' <-> In t consts)).
Proof.
  intros Cut Stl Img values draw consts disk slices array folder nc title s k vals I N H V F. unfold plot_slices, scheme_of.
  assert (Fd : find (fun t => str_eqb (g_name s) (g_name t)) consts = Some s).
  { clear H V F. induction consts as [|t r IH]; [contradiction|]. cbn [find map] in *. inversion N as [|? ? Nt Nr]; subst. destruct I as [->|I]; [rewrite str_eqb_refl; reflexivity|].
    destruct (str_eqb (g_name s) (g_name t)) eqn:E; [|apply IH; assumption]. exfalso. apply str_eqb_eq in E. apply Nt. rewrite <- E. apply in_map. exact I. }
  rewrite Fd. cbn [bind]. destruct (plot_all_labels values draw s array title nc vals H slices k) as (ims & E & R). unfold turned in E at 1. rewrite <- V in E. rewrite E.
  exists ims, (save_all (option_map fst folder) ims disk), (put_vals (Some s) (turned (k + length slices) vals) consts). split; [destruct folder as [[f []]|]; [reflexivity|exfalso; exact (F f eq_refl)|reflexivity]|]. split; [exact R|]. cbn [put_vals]. split.
  - exists {| g_name := g_name s; g_vals := turned (k + length slices) vals; g_ctgs := g_ctgs s; g_colors := g_colors s |}. repeat (split; try reflexivity). apply in_map_iff. exists s. rewrite str_eqb_refl. auto.
  - intros t Nt. rewrite in_map_iff. split.
    + intros (u & E' & Iu). destruct (str_eqb (g_name s) (g_name u)) eqn:Eu; [|congruence]. apply str_eqb_eq in Eu. subst t. cbn in Nt. congruence.
    + intros It. exists t. destruct (str_eqb (g_name s) (g_name t)) eqn:Eu; [apply str_eqb_eq in Eu; congruence|auto].
Qed.

(** C89.  When a label tells the category of the value: on the first slice, only from the largest threshold on; on the second,
    there and in the second class. *)
Theorem C89_label_is_right_only_from_the_last_threshold : forall vals ctgs colors values labels used vals' i v l, Scheme vals ctgs -> NoDup (map (firstn 10) ctgs) ->
  categorize vals ctgs colors values = Ok (labels, used, vals') -> nth_error values i = Some v -> nth_error labels i = Some l ->
  (l = firstn 10 (right_category vals ctgs v) <-> Forall (fun x => (x <= v)%Q) vals).
Proof.
  intros vals ctgs colors values labels used vals' i v l H N E Ev El. destruct (first_labels vals ctgs colors values H) as [u E']. rewrite E' in E. injection E as <- <- <-.
  rewrite nth_error_map, Ev in El. injection El as <-. rewrite <- rank_all. unfold label_first, right_category. destruct H as (Nv & So & L). pose proof (rank_le v vals) as R. split.
  - intros X. destruct (Nat.eq_dec (rank v vals) (length vals)) as [Y|Y]; [exact Y|]. exfalso. rewrite Nat.min_l in X by lia.
    assert (D : S (rank v vals) = rank v vals); [|lia]. apply (cut_inj ctgs); [exact N|lia|lia|exact X].
  - intros X. rewrite X, Nat.min_r by lia. reflexivity.
Qed.
Theorem C89_second_slice_right_only_in_two_classes : forall vals ctgs colors values labels used vals' i v l, Scheme vals ctgs -> NoDup (map (firstn 10) ctgs) ->
  categorize (rev vals) ctgs colors values = Ok (labels, used, vals') -> nth_error values i = Some v -> nth_error labels i = Some l ->
  (l = firstn 10 (right_category vals ctgs v) <-> Forall (fun x => (x <= v)%Q) vals \/ rank v vals = 1).
Proof.
  intros vals ctgs colors values labels used vals' i v l H N E Ev El. destruct (second_labels vals ctgs colors values H) as [u E']. rewrite E' in E. injection E as <- <- <-.
  rewrite nth_error_map, Ev in El. injection El as <-. rewrite <- rank_all. unfold label_second, right_category. destruct H as (Nv & So & L). pose proof (rank_le v vals) as R.
  assert (Lv : 1 <= length vals) by (destruct vals; [congruence|cbn [length]; lia]). destruct (Nat.eqb_spec (rank v vals) (length vals)) as [Y|Y].
  - rewrite (last_nth ctgs (length vals)) by exact L. rewrite Y. split; auto.
  - split; [|intros [X| ->]; [contradiction|reflexivity]]. intros X. right. symmetry. apply (cut_inj ctgs); [exact N|lia|lia|exact X].
Qed.
(** C89.  So a dose of half a gray is not shown as "< 1 Gy". *)
Theorem C89_right_category_refuted : ~ (forall vals ctgs colors values labels used vals' i v, Scheme vals ctgs -> NoDup (map (firstn 10) ctgs) -> Forall (fun c => length c <= 10) ctgs ->
  categorize vals ctgs colors values = Ok (labels, used, vals') -> nth_error values i = Some v -> nth_error labels i = Some (right_category vals ctgs v)).
Proof.
  intros H. specialize (H (g_vals TID) (g_ctgs TID) (g_colors TID) [1 # 2]%Q [s2l "1-10 Gy"] [] [10; 1]%Q 0 (1 # 2)%Q).
  assert (X : nth_error [s2l "1-10 Gy"] 0 = Some (right_category (g_vals TID) (g_ctgs TID) (1 # 2))); [|vm_compute in X; discriminate X].
  apply H; [| | |vm_compute; reflexivity|reflexivity].
  - split; [discriminate|]. split; [|reflexivity]. repeat constructor.
  - vm_compute. repeat constructor; cbn; intuition discriminate.
  - cbn. repeat constructor.
Qed.

(** C89.  The colours used are those of the categories shown on at least two cells, in order; a category whose name is longer
    than ten characters never has its colour. *)
Theorem C89_colours : forall vals ctgs colors values labels used vals', categorize vals ctgs colors values = Ok (labels, used, vals') ->
  Sub used (map snd (combine ctgs colors)) /\ (forall c, In c used <-> exists j k, nth_error ctgs j = Some k /\ nth_error colors j = Some c /\ length k <= 10 /\ TwoCells k labels).
Proof.
  intros vals ctgs colors values labels used vals' E. assert (Nc : ctgs <> []) by (intros ->; discriminate E). rewrite categorize_ok in E by exact Nc. injection E as <- <- <-. set (labels := map _ values).
  split; [apply map_sub, filter_sub|]. intros c. rewrite in_map_iff.
  assert (Short : forall k, TwoCells k labels -> length k <= 10).
  { intros k (i & _ & _ & H & _). subst labels. rewrite nth_error_map in H. destruct (nth_error values i) as [v|]; [|discriminate H]. injection H as <-.
    assert (G : forall vs cs l, length l <= 10 -> length (assign v vs cs l) <= 10).
    { induction vs as [|x vs IH]; intros cs l L; [exact L|]. destruct cs as [|d cs]; [exact L|]. cbn [assign]. apply IH. destruct (Qle_bool x v); [exact L|]. unfold cut10. rewrite firstn_length. lia. }
    apply G. unfold cut10. rewrite firstn_length. lia. }
  assert (C : forall k, In (k, c) (combine ctgs colors) <-> exists j, nth_error ctgs j = Some k /\ nth_error colors j = Some c).
  { clear. intros k. revert colors. induction ctgs as [|d ctgs IH]; intros colors; [split; [contradiction|intros ([|j] & X & _); discriminate X]|]. destruct colors as [|e colors]; [split; [contradiction|intros ([|j] & _ & X); discriminate X]|].
    cbn [combine In]. rewrite IH. split; [intros [X|(j & A & B)]; [injection X as <- <-; exists 0; split; reflexivity|exists (S j); split; assumption]|].
    intros ([|j] & A & B); cbn [nth_error] in A, B; [left; congruence|right; exists j; auto]. }
  split.
  - intros ([k c'] & Ec & H). cbn [snd] in Ec. subst c'. apply filter_In in H as [H T]. cbn [fst] in T. apply Nat.ltb_lt, cells_two in T. apply C in H as (j & A & B). exists j, k. auto.
  - intros (j & k & A & B & _ & T). exists (k, c). split; [reflexivity|]. apply filter_In. split; [apply C; exists j; auto|]. cbn [fst]. apply Nat.ltb_lt, cells_two. exact T.
Qed.
(** C89.  With the categories of the neutron flux and of the shutdown dose rate no colour is ever used. *)
Theorem C89_no_colours_for_TNF_and_SDDR : forall s vals values labels used vals', s = TNF \/ s = SDDR -> categorize vals (g_ctgs s) (g_colors s) values = Ok (labels, used, vals') -> used = [].
Proof.
  intros s vals values labels used vals' S E. apply C89_colours in E as [_ E]. destruct used as [|c used]; [reflexivity|]. exfalso. destruct (proj1 (E c) (or_introl eq_refl)) as (j & k & A & _ & L & _).
  destruct S as [-> | ->]; cbn [g_ctgs TNF SDDR map] in A; repeat (destruct j as [|j]; [injection A as <-; vm_compute in L; lia|cbn [nth_error] in A]); destruct j; discriminate A.
Qed.
Example C89_witness : Forall (fun s => Scheme (g_vals s) (g_ctgs s) /\ NoDup (map (firstn 10) (g_ctgs s))) [TID; TNF; SDDR]
  /\ categorize (g_vals TID) (g_ctgs TID) (g_colors TID) [1 # 2; 5; 20; 20]%Q = Ok (map s2l ["1-10 Gy"; "> 10 Gy"; "> 10 Gy"; "> 10 Gy"]%string, [s2l "red"], [10; 1]%Q)
  /\ categorize [10; 1]%Q (g_ctgs TID) (g_colors TID) [1 # 2; 5; 20; 20]%Q = Ok (map s2l ["1-10 Gy"; "1-10 Gy"; "> 10 Gy"; "> 10 Gy"]%string, map s2l ["orange"; "red"]%string, [1; 10]%Q).
Proof.
  split; [|split; reflexivity]. repeat constructor; try discriminate; vm_compute; intuition discriminate.
Qed.

(** C90.  plot_slices gives one image per slice, in order, with its name, its mesh and its stl; the legend has half the colours
    plus one labels if they are less than thirty and even.  With a folder, the file of a name is the image of the last slice
    with that name, and no other file changes. *)
Theorem C90_images : forall (Cut Stl Img : Type) (values : Cut -> str -> list Q) (draw : drawing Cut Stl -> Img) consts disk slices array folder nc title g,
  (forall f, folder <> Some (f, false)) -> (forall n, g = Some n -> In n (map g_name consts)) -> Forall (fun s => g_ctgs s <> []) consts ->
  exists ims disk' consts', plot_slices values draw consts disk slices array folder nc title g = Ok (ims, disk', consts')
    /\ Forall2 (fun sl im => fst im = fst (fst sl) /\ exists w, snd im = draw w /\ w_cut w = snd (fst sl) /\ w_stl w = snd sl /\ w_title w = title
         /\ (forall n, w_nlabels w = Some n <-> exists h, (nc = 2 * h /\ nc < 30 /\ n = h + 1)%Z) /\ w_scalars w = match g with Some n => n | None => array end /\ (w_labels w = None <-> g = None)) slices ims
    /\ (folder = None -> disk' = disk)
    /\ (forall f, folder = Some (f, true) -> forall p,
          (forall im, LastWith (fun x => join_path f (fst x ++ s2l ".png") = p) im ims -> dget str_eqb p disk' = Some (snd im))
          /\ ((forall im, In im ims -> join_path f (fst im ++ s2l ".png") <> p) -> dget str_eqb p disk' = dget str_eqb p disk))
    /\ (g = None -> consts' = consts).
Proof.
  intros Cut Stl Img values draw consts disk slices array folder nc title g F G C. unfold plot_slices.
  assert (Sc : exists s, scheme_of g consts = Ok s /\ (forall t, s = Some t -> g_ctgs t <> []) /\ match s with Some t => g = Some (g_name t) | None => g = None end).
  { unfold scheme_of. destruct g as [n|]; [|exists None; split; [reflexivity|]; split; [discriminate|reflexivity]]. specialize (G n eq_refl). destruct (find _ consts) as [s|] eqn:E.
    - exists (Some s). split; [reflexivity|]. apply find_some in E as [I E]. apply str_eqb_eq in E. split; [|congruence]. intros t X. injection X as <-. rewrite Forall_forall in C. apply C. exact I.
    - exfalso. apply in_map_iff in G as (s & <- & I). apply (find_none _ _ E) in I. rewrite str_eqb_refl in I. discriminate I. }
  destruct Sc as (s & -> & Cs & Es). cbn [bind].
  destruct (plot_all_images values draw s array title nc Cs slices (match s with Some s => g_vals s | None => [] end)) as (ims & vals' & E & R). rewrite E. cbn [bind].
  exists ims, (save_all (option_map fst folder) ims disk), (put_vals s vals' consts). split; [destruct folder as [[f []]|]; [reflexivity|exfalso; exact (F f eq_refl)|reflexivity]|]. split; [|split; [intros ->; reflexivity|split]].
  - clear E. induction R as [|sl im l m H _ IH]; constructor; [|exact IH]. destruct H as (A & w & B & D & H1 & H2 & H3 & H4 & H5). split; [exact A|]. exists w. repeat (split; [assumption|]). split; [|split].
    + intros n. rewrite H3. unfold n_labels. destruct (Z.ltb_spec nc 30) as [L|L]; cbn [andb]; [|split; [discriminate|intros (h & _ & X & _); lia]].
      destruct (Z.eqb_spec (nc mod 2) 0) as [M|M]; [|split; [discriminate|]; intros (h & -> & _); rewrite Z.mul_comm, Z_mod_mult in M; congruence].
      pose proof (Z_div_mod_eq_full nc 2) as DM. split; [intros X; injection X as <-; exists (nc / 2)%Z; lia|]. intros (h & X & _ & ->). repeat f_equal. lia.
    + rewrite H4. destruct s as [t|]; rewrite Es; reflexivity.
    + rewrite H5. destruct s as [t|]; rewrite Es; split; congruence.
  - intros f -> p. cbn [option_map fst]. apply save_all_last.
  - intros ->. destruct s as [t|]; [discriminate Es|reflexivity].
Qed.
Theorem C90_refused : forall (Cut Stl Img : Type) (values : Cut -> str -> list Q) (draw : drawing Cut Stl -> Img) consts disk slices array folder nc title g,
  (exists f, folder = Some (f, false)) \/ (exists n, g = Some n /\ ~ In n (map g_name consts)) ->
  plot_slices values draw consts disk slices array folder nc title g = Err ValueError.
Proof.
  intros Cut Stl Img values draw consts disk slices array folder nc title g H. unfold plot_slices, scheme_of. destruct H as [[f ->]|(n & -> & N)].
  - destruct g as [n|]; [destruct (find _ consts)|]; reflexivity.
  - destruct (find _ consts) as [s|] eqn:E; [|reflexivity]. exfalso. apply find_some in E as [I E]. apply str_eqb_eq in E. subst n. apply N. apply in_map. exact I.
Qed.
Example C90_witness : exists ims consts', plot_slices (fun c _ => [c]) (fun w => (w_cut w, w_labels w)) [TID; TNF; SDDR] [] [(s2l "a", 5%Q, @None unit); (s2l "b", 5%Q, None)] (s2l "Dose") (Some (s2l "out", true)) 6%Z None (Some (s2l "TID"))
  = Ok (ims, [(s2l "out/a.png", (5%Q, Some ([s2l "> 10 Gy"], []))); (s2l "out/b.png", (5%Q, Some ([s2l "1-10 Gy"], [])))], consts').
Proof. eexists. eexists. vm_compute. reflexivity. Qed.

(** C91.  slice_toroidal cuts at the angles start, start + increment... below the end; the slices are the cuts that are not
    empty, in order and with their own stl, but their names are those of the first angles: a slice after k empty cuts is named
    after the angle k increments before its own. *)
Theorem C91_toroidal : forall (Cut Stl : Type) (cut_at : Q -> Cut) empty (stl_cut : Cut -> option Stl) show1 has inc range a b, (0 < inc)%Q -> (a, b) = match range with Some r => r | None => (0, 180)%Q end ->
  let angle i := (a + inject_Z (Z.of_nat i) * inc)%Q in
  exists out, slice_toroidal cut_at empty stl_cut show1 has inc range = Ok out
    /\ (forall k, (angle k < b)%Q -> empty (cut_at (angle k)) = false ->
          let skipped := length (filter (fun i => empty (cut_at (angle i))) (seq 0 k)) in
          nth_error out (k - skipped) = Some (theta_name show1 (angle (k - skipped)), cut_at (angle k), if has then stl_cut (cut_at (angle k)) else None))
    /\ (forall name c t, In (name, c, t) out -> exists k, (angle k < b)%Q /\ c = cut_at (angle k) /\ empty c = false).
Proof.
  intros Cut Stl cut_at empty stl_cut show1 has inc range a b P R angle. unfold slice_toroidal. rewrite <- R. destruct (arange_ok a b inc P) as (l & -> & L). cbn [bind]. fold (angle 0) in L.
  set (cuts := filter (fun c => negb (empty c)) (map cut_at l)). destruct (name_all_ok stl_cut show1 has cuts l) as (out & E & Lo & N). { subst cuts. eapply Nat.le_trans; [apply filter_len|]. rewrite map_length. lia. }
  exists out. split; [exact E|]. assert (Pre : forall k, (angle k < b)%Q -> firstn k l = map angle (seq 0 k) /\ nth_error l k = Some (angle k)).
  { intros k H. assert (Nk : nth_error l k = Some (angle k)) by (apply L; split; [reflexivity|exact H]). split; [|exact Nk].
    assert (Lk : k < length l) by (apply nth_error_Some; congruence). apply nth_error_ext. intros i. destruct (Nat.lt_ge_cases i k) as [X|X].
    - rewrite nth_firstn by exact X. rewrite nth_error_map, (nth_error_nth' _ 0) by (rewrite seq_length; exact X). rewrite seq_nth by exact X. cbn [option_map plus].
      destruct (nth_error l i) as [x|] eqn:Ex; [|apply nth_error_None in Ex; lia]. apply L in Ex as [-> _]. reflexivity.
    - rewrite !(proj2 (nth_error_None _ _)); [reflexivity|rewrite map_length, seq_length; exact X|rewrite firstn_length; lia]. }
  split.
  - intros k H Em. set (skipped := length (filter _ (seq 0 k))). destruct (Pre k H) as [Pk Nk]. apply nth_error_split in Nk as (u & v & El & Lu).
    assert (Eu : u = map angle (seq 0 k)) by (rewrite <- Pk, El, firstn_app, <- Lu, Nat.sub_diag, firstn_all; cbn [firstn]; rewrite app_nil_r; reflexivity).
    assert (Cnt : length (filter (fun c => negb (empty c)) (map cut_at u)) = k - skipped).
    { subst skipped. rewrite Eu. rewrite <- (seq_length k 0) at 2. generalize (seq 0 k) as is. clear. induction is as [|i is IH]; [reflexivity|]. cbn [map filter length].
      pose proof (filter_len (fun i => empty (cut_at (angle i))) is) as Q. destruct (empty (cut_at (angle i))); cbn [negb length]; lia. }
    assert (Nc : nth_error cuts (k - skipped) = Some (cut_at (angle k))). { subst cuts. rewrite El, map_app. cbn [map]. rewrite <- Cnt. apply filter_before. rewrite Em. reflexivity. }
    destruct (N _ _ Nc) as (x & X & Y). rewrite Y. assert (x = angle (k - skipped)) as ->; [|reflexivity]. apply L in X as [-> _]. reflexivity.
  - intros name c t I. apply In_nth_error in I as [i I]. assert (Li : i < length cuts) by (rewrite <- Lo; apply nth_error_Some; congruence).
    destruct (nth_error cuts i) as [d|] eqn:Ed; [|apply nth_error_None in Ed; lia]. destruct (N _ _ Ed) as (x & _ & Y). rewrite I in Y. injection Y as -> -> ->.
    apply nth_error_In in Ed. subst cuts. apply filter_In in Ed as [Ed Ne]. apply in_map_iff in Ed as (y & <- & Iy). apply In_nth_error in Iy as [k Iy]. apply L in Iy as [-> Lk]. exists k. split; [exact Lk|]. split; [reflexivity|]. destruct (empty _); [discriminate Ne|reflexivity].
Qed.
(** C91.  So, when no cut is empty, every angle from the start to the end has its slice with its name. *)
Theorem C91_all_named_right : forall (Cut Stl : Type) (cut_at : Q -> Cut) empty (stl_cut : Cut -> option Stl) show1 has inc range a b, (0 < inc)%Q -> (a, b) = match range with Some r => r | None => (0, 180)%Q end ->
  (forall x, empty (cut_at x) = false) ->
  let angle i := (a + inject_Z (Z.of_nat i) * inc)%Q in
  exists out, slice_toroidal cut_at empty stl_cut show1 has inc range = Ok out
    /\ forall k, (angle k < b)%Q -> nth_error out k = Some (theta_name show1 (angle k), cut_at (angle k), if has then stl_cut (cut_at (angle k)) else None).
Proof.
  intros Cut Stl cut_at empty stl_cut show1 has inc range a b P R Ne angle. destruct (C91_toroidal Cut Stl cut_at empty stl_cut show1 has inc range a b P R) as (out & E & H & _). exists out. split; [exact E|]. intros k Lk. specialize (H k Lk (Ne _)).
  cbn zeta in H. assert (Z : length (filter (fun i => empty (cut_at (a + inject_Z (Z.of_nat i) * inc)%Q)) (seq 0 k)) = 0).
  { generalize (seq 0 k) as is. induction is as [|i is IH]; [reflexivity|]. cbn [filter]. rewrite Ne. exact IH. }
  rewrite Z, Nat.sub_0_r in H. exact H.
Qed.
Theorem C91_names_refuted : ~ (forall (cut_at : Q -> Q) empty (stl_cut : Q -> option unit) show1 has inc range out name c t,
  (forall x, cut_at x = x) -> (0 < inc)%Q -> slice_toroidal cut_at empty stl_cut show1 has inc range = Ok out -> In (name, c, t) out -> name = theta_name show1 c).
Proof.
  intros H. specialize (H (fun x => x) (fun x => Qeq_bool x 0) (fun _ => None) (fun x => str_of_Z (qround_even x)) false 60%Q None).
  assert (E : slice_toroidal (fun x => x) (fun x => Qeq_bool x 0) (fun _ : Q => @None unit) (fun x => str_of_Z (qround_even x)) false 60 None
    = Ok [(s2l "theta = 0 deg", (0 + 1 * 60)%Q, None); (s2l "theta = 60 deg", (0 + 2 * 60)%Q, None)]) by (vm_compute; reflexivity).
  specialize (H _ _ _ _ (fun x => eq_refl) eq_refl E (or_introl eq_refl)). vm_compute in H. discriminate H.
Qed.
(** C91.  An increment of zero is refused; with a negative one from a smaller to a larger angle there is no slice. *)
Theorem C91_other_increments : forall (Cut Stl : Type) (cut_at : Q -> Cut) empty (stl_cut : Cut -> option Stl) show1 has inc range a b, (a, b) = match range with Some r => r | None => (0, 180)%Q end -> (a <= b)%Q ->
  ((inc == 0)%Q -> slice_toroidal cut_at empty stl_cut show1 has inc range = Err ZeroDivisionError) /\ ((inc < 0)%Q -> slice_toroidal cut_at empty stl_cut show1 has inc range = Ok []).
Proof.
  intros Cut Stl cut_at empty stl_cut show1 has inc range a b R Lab. unfold slice_toroidal. rewrite <- R. unfold arange. split.
  - intros H. apply Qeq_bool_iff in H. rewrite H. reflexivity.
  - intros H. destruct (Qeq_bool inc 0) eqn:E; [apply Qeq_bool_iff in E; lra|]. assert (C : (Qceiling ((b - a) / inc) <= 0)%Z).
    { change 0%Z with (Qceiling 0). apply Qceiling_resp_le. assert (X : ((b - a) / inc == - ((b - a) / (- inc)))%Q) by (field; lra). rewrite X. assert (Y : (0 <= (b - a) / (- inc))%Q); [|lra]. apply Qle_shift_div_l; lra. }
    replace (Z.to_nat _) with 0 by lia. reflexivity.
Qed.
(** C91.  slice and slice_on_axis give one slice per row or per cut, in order, with its own stl. *)
Theorem C91_rows_and_axis : forall (Cut Stl Num : Type) (stl_cut : Cut -> option Stl) show1 (cut_by : list Num -> list Num -> Cut) along center has,
  (forall rows i name x y z u v w, nth_error rows i = Some (name, [x; y; z; u; v; w]) -> nth_error (slice stl_cut Num cut_by has rows) i = Some (name, cut_by [x; y; z] [u; v; w], if has then stl_cut (cut_by [x; y; z] [u; v; w]) else None))
  /\ (forall rows, length (slice stl_cut Num cut_by has rows) = length rows)
  /\ (forall c k n, (c, k) = ("x"%char, 0) \/ (c, k) = ("y"%char, 1) \/ (c, k) = ("z"%char, 2) -> exists out, slice_on_axis stl_cut show1 along center has [c] n = Ok out
        /\ Forall2 (fun cut o => o = (s2l "P" ++ [c] ++ s2l " = " ++ show1 (center cut k), cut, if has then stl_cut cut else None)) (along n c) out)
  /\ (forall axis n, ~ In axis [s2l "x"; s2l "y"; s2l "z"] -> slice_on_axis stl_cut show1 along center has axis n = Err ValueError).
Proof.
  intros Cut Stl Num stl_cut show1 cut_by along center has. split; [|split; [|split]].
  - intros rows i name x y z u v w H. unfold slice. rewrite nth_error_map, H. reflexivity.
  - intros rows. apply map_length.
  - intros c k n H. assert (A : axis_no [c] = Some k) by (destruct H as [H|[H|H]]; injection H as -> ->; reflexivity). unfold slice_on_axis. rewrite A. cbn [of_opt bind hd]. eexists. split; [reflexivity|].
    induction (along n c) as [|d r IH]; constructor; [reflexivity|exact IH].
  - intros axis n H. unfold slice_on_axis. replace (axis_no axis) with (@None nat); [reflexivity|]. destruct axis as [|c [|d r]]; try reflexivity. cbn [axis_no].
    destruct (Ascii.eqb_spec c "x"); [subst; exfalso; apply H; left; reflexivity|]. destruct (Ascii.eqb_spec c "y"); [subst; exfalso; apply H; right; left; reflexivity|].
    destruct (Ascii.eqb_spec c "z"); [subst; exfalso; apply H; right; right; left; reflexivity|]. reflexivity.
Qed.

(** C92.  add_section puts the heading of the section and then, for each image in order, its heading one level below and the
    picture. *)
Theorem C92_add_section : forall (Img : Type) sec (ims : list (str * Img)) level with_name disclaimer d, (0 <= level <= 8)%Z \/ (level = 9%Z /\ ims = []) ->
  add_section sec ims level with_name disclaimer d = (d ++ Head level sec :: flat_map (image_part sec level with_name disclaimer) ims, Ok tt).
Proof.
  intros Img sec ims level wn dis d H. unfold add_section, add_heading. rewrite (proj2 (Z.leb_le 0 level)), (proj2 (Z.leb_le level 9)) by lia. cbn [andb].
  assert (G : forall ims d, (0 <= level <= 8)%Z \/ ims = [] -> add_images (Img := Img) sec level wn dis ims d = (d ++ flat_map (image_part sec level wn dis) ims, Ok tt)).
  { clear. induction ims as [|[name im] r IH]; intros d H; cbn [add_images flat_map]; [rewrite app_nil_r; reflexivity|]. destruct H as [H|H]; [|discriminate H]. unfold add_heading.
    rewrite (proj2 (Z.leb_le 0 (level + 1))), (proj2 (Z.leb_le (level + 1) 9)) by lia. cbn [andb]. rewrite IH by (left; exact H). f_equal. rewrite <- !app_assoc. f_equal. unfold image_part, title_of. cbn [fst snd app]. do 3 f_equal.
    destruct wn, dis; rewrite <- ?app_assoc, ?app_nil_r; cbn [app]; rewrite ?app_nil_r; reflexivity. }
  rewrite G by (destruct H as [H|[_ H]]; auto). rewrite <- app_assoc. reflexivity.
Qed.
(** C92.  Other levels are refused; at level 9 the heading of the section is already in the document. *)
Theorem C92_bad_level : forall (Img : Type) sec (ims : list (str * Img)) level with_name disclaimer d,
  ((level < 0 \/ 9 < level)%Z -> add_section sec ims level with_name disclaimer d = (d, Err ValueError))
  /\ (level = 9%Z -> ims <> [] -> add_section sec ims level with_name disclaimer d = (d ++ [Head 9 sec], Err ValueError)).
Proof.
  intros Img sec ims level wn dis d. unfold add_section, add_heading. split.
  - intros [H|H]; [rewrite (proj2 (Z.leb_gt 0 level)) by lia; reflexivity|]. rewrite (proj2 (Z.leb_gt level 9)) by lia. rewrite andb_false_r. reflexivity.
  - intros -> N. destruct ims as [|[name im] r]; [congruence|]. reflexivity.
Qed.
(** C92.  build_from_root adds, for every folder of the root and in their order, its heading and then its pictures (jpg, png and
    tif), from the oldest, each under its name without the last four characters; files of the root add nothing. *)
Theorem C92_build_from_root : forall (Img : Type) root entries (d : list (piece Img)), exists parts, build_from_root root entries d = d ++ concat parts
  /\ Forall2 (fun e part => match e with AFile _ => part = [] | AFolder name inside => exists pics, part = folder_part root name pics /\ OldestFirst inside pics end) entries parts.
Proof.
  intros Img root entries d. unfold build_from_root. exists (map (fun e => match e with AFile _ => [] | AFolder n inside => folder_pieces root n inside end) entries). split; [rewrite flat_map_concat_map; reflexivity|].
  induction entries as [|e r IH]; cbn [map]; constructor; [|exact IH]. destruct e as [n|n inside]; [reflexivity|]. apply folder_pieces_ok.
Qed.
Theorem C92_pictures_by_name : forall inside pics f, OldestFirst inside pics -> (In f pics <-> In f inside /\ Picture (fst f)).
Proof.
  intros inside pics f [H _]. specialize (H (snd f)). assert (R : Qeq_bool (snd f) (snd f) = true) by (apply Qeq_bool_iff; reflexivity).
  assert (A : In f pics <-> In f (filter (fun g => is_picture (fst g)) inside)). { pose proof (filter_In (fun g : str * Q => Qeq_bool (snd g) (snd f)) f) as F. split; intros I; [apply (F (filter _ inside)); rewrite <- H|apply (F pics); rewrite H]; apply F; auto. }
  rewrite A, filter_In, is_picture_iff. reflexivity.
Qed.
(** C92.  The atlas is saved in the folder, under its name followed by .docx. *)
Theorem C92_atlas_file : forall folder name, folder <> [] -> (forall r, name <> "/"%char :: r) -> atlas_path folder name = folder ++ s2l "/" ++ name ++ s2l ".docx".
Proof.
  intros folder name F N. unfold atlas_path, join_path. destruct folder as [|f0 fs]; [contradiction|]. destruct name as [|c r]; [reflexivity|]. cbn [app].
  destruct (Ascii.eqb c slash) eqn:E; [apply Ascii.eqb_eq in E; subst c; exfalso; exact (N r eq_refl)|reflexivity].
Qed.
Print Assumptions C92_atlas_file.
Example C92_witness : build_from_root (s2l "r") [AFile (s2l "x.png"); AFolder (s2l "f") [(s2l "b.png", 2%Q); (s2l "n.txt", 0%Q); (s2l "a.jpg", 1%Q)]] (new_atlas (s2l "A"))
  = [Head (Img := unit) 0 (s2l "A"); Head 1 (s2l "f"); Head 2 (s2l "a"); FilePic (s2l "r/f/a.jpg"); Head 2 (s2l "b"); FilePic (s2l "r/f/b.png")]
  /\ snd (add_section (s2l "s") [(s2l "i", tt)] 1 true None []) = Ok tt.
Proof. split; reflexivity. Qed.

(** C93.  A cumulative plot draws the sets in order, each with its label, a weight for each value so that they add up to one,
    and a line and a colour that repeat together only every 36 sets; a different number of labels is refused before anything is
    drawn, and the 201st set with IndexError after the others. *)
Theorem C93_series : forall labels sets, (forall ls, labels = Some ls -> length ls = length sets) ->
  exists o e, cdf_plot labels sets = (o, e) /\ length o = Nat.min (length sets) 200 /\ (e = Ok tt <-> length sets <= 200) /\ (e <> Ok tt -> e = Err IndexError)
    /\ (forall k x, nth_error o k = Some x -> nth_error sets k = Some (e_values x) /\ e_label x = match labels with Some ls => nth_error ls k | None => None end
          /\ (e_values x <> [] -> qsum (map (fun _ => e_weight x) (e_values x)) == 1)%Q)
    /\ (forall i j x y, i < j -> nth_error o i = Some x -> nth_error o j = Some y -> (e_line x = e_line y /\ e_color x = e_color y <-> (j - i) mod 36 = 0)).
Proof.
  intros labels sets H. unfold cdf_plot. assert (E : forall A (a b : A), match labels with Some ls => if length ls =? length sets then a else b | None => a end = a).
  { intros A a b. destruct labels as [ls|]; [|reflexivity]. rewrite (H ls eq_refl), Nat.eqb_refl. reflexivity. }
  rewrite E. destruct (plot_sets_ok labels sets 0) as (o & e & Ep & Lo & Ee & Er & R). rewrite Nat.sub_0_r in *. exists o, e. split; [exact Ep|]. split; [exact Lo|]. split; [exact Ee|]. split; [exact Er|]. split.
  - intros k x Hx. destruct (R k x Hx) as (A & B & W & _). split; [exact A|]. split; [exact B|]. intros N. rewrite W. remember (e_values x) as v eqn:Ev. clear - N.
    assert (S : forall (l : list Q) q, (qsum (map (fun _ => q) l) == inject_Z (Z.of_nat (length l)) * q)%Q).
    { intros l q. induction l as [|y r IH]; cbn [map qsum fold_right length]; [ring|]. unfold qsum in IH. rewrite IH, Nat2Z.inj_succ, <- Z.add_1_r, inject_Z_plus. ring. }
    rewrite S. field. destruct v as [|y r]; [congruence|]. cbn [length]. rewrite Nat2Z.inj_succ. intros X. unfold Qeq, inject_Z in X. cbn [Qnum Qden] in X. lia.
  - intros i j x y Lij Hx Hy. destruct (R i x Hx) as (_ & _ & _ & Lx & Cx). destruct (R j y Hy) as (_ & _ & _ & Ly & Cy). change (0 + i) with i in *. change (0 + j) with j in *.
    assert (NL : NoDup line_styles) by (vm_compute; repeat constructor; cbn; intuition discriminate). assert (NP : NoDup palette) by (vm_compute; repeat constructor; cbn; intuition discriminate).
    assert (A : e_line x = e_line y <-> i mod 4 = j mod 4). { split; [intros X; rewrite NoDup_nth_error in NL; apply NL; [apply nth_error_Some; congruence|congruence]|congruence]. }
    assert (B : e_color x = e_color y <-> i mod 9 = j mod 9). { split; [intros X; rewrite NoDup_nth_error in NP; apply NP; [apply nth_error_Some; congruence|congruence]|congruence]. }
    rewrite A, B. clear - Lij. pose proof (Nat.div_mod_eq i 4). pose proof (Nat.div_mod_eq j 4). pose proof (Nat.div_mod_eq i 9). pose proof (Nat.div_mod_eq j 9). pose proof (Nat.div_mod_eq (j - i) 36).
    pose proof (Nat.mod_upper_bound i 4). pose proof (Nat.mod_upper_bound j 4). pose proof (Nat.mod_upper_bound i 9). pose proof (Nat.mod_upper_bound j 9). pose proof (Nat.mod_upper_bound (j - i) 36). split; [|split; lia].
    intros [X Y]. assert (W : exists w, (Z.of_nat ((j - i) mod 36) = 36 * w)%Z); [|destruct W as [w W]; lia].
    exists ((Z.of_nat (j / 4) - Z.of_nat (i / 4)) - 2 * (Z.of_nat (j / 9) - Z.of_nat (i / 9)) - Z.of_nat ((j - i) / 36))%Z. lia.
Qed.
Theorem C93_labels_refused : forall ls sets, length ls <> length sets -> cdf_plot (Some ls) sets = ([], Err ValueError).
Proof. intros ls sets H. unfold cdf_plot. rewrite (proj2 (Nat.eqb_neq _ _) H). reflexivity. Qed.
Example C93_witness : exists a b, cdf_plot (Some [s2l "u"; s2l "v"]) [[1; 2]%Q; [3]%Q] = ([a; b], Ok tt) /\ e_label b = Some (s2l "v") /\ (e_weight a == 1 # 2)%Q.
Proof. eexists. eexists. split; [reflexivity|]. split; reflexivity. Qed.

Print Assumptions C89_labels_of_each_slice.
Print Assumptions C89_label_is_right_only_from_the_last_threshold.
Print Assumptions C89_second_slice_right_only_in_two_classes.
Print Assumptions C89_right_category_refuted.
Print Assumptions C89_colours.
Print Assumptions C89_no_colours_for_TNF_and_SDDR.
Print Assumptions C90_images.
Print Assumptions C90_refused.
Print Assumptions C91_toroidal.
Print Assumptions C91_all_named_right.
Print Assumptions C91_names_refuted.
Print Assumptions C91_other_increments.
Print Assumptions C91_rows_and_axis.
Print Assumptions C92_add_section.
Print Assumptions C92_bad_level.
Print Assumptions C92_build_from_root.
Print Assumptions C92_pictures_by_name.
Print Assumptions C93_series.
Print Assumptions C93_labels_refused.

(** C89.  The thresholds, names and colours of the three plots by category, as documented. *)
Theorem C89_tables : g_vals TID = [1; 10]%Q /\ map (fun c => s2l c) ["< 1 Gy"; "1-10 Gy"; "> 10 Gy"]%string = g_ctgs TID
  /\ g_vals TNF = [1 # 100; 100]%Q /\ map (fun c => s2l c) ["< 0.01 n/cm^2/s"; "0.01-100 n/cm^2/s"; "> 100 n/cm^2/s"]%string = g_ctgs TNF
  /\ g_vals SDDR = [132 # 100000; 75 # 10000; 25 # 1000; 2; 100]%Q
  /\ map (fun c => s2l c) ["< 1.32 uSv/h"; "1.32-7.5 uSv/h"; "7.5-25 uSv/h"; "0.025-2 mSv/s"; "2-100 mSv/h"; "> 100 mSv/h"]%string = g_ctgs SDDR
  /\ (forall s, In s [TID; TNF] -> g_colors s = map (fun c => s2l c) ["green"; "orange"; "red"]%string)
  /\ g_colors SDDR = map (fun c => s2l c) ["white"; "blue"; "green"; "yellow"; "orange"; "red"]%string
  /\ map g_name [TID; TNF; SDDR] = map (fun c => s2l c) ["TID"; "TNF"; "SDDR"]%string.
Proof. repeat (split; [reflexivity|]). split; [intros s [<-|[<-|[]]]; reflexivity|]. split; reflexivity. Qed.
Print Assumptions C89_tables.
