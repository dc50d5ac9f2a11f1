(** Lemmas on the categories and the slices. *)
From Coq Require Import Lia ZArith Sorted Qround Lqa.
From Verif Require Import PyBase PyLemmas PyStr AceModel D1SProofs2 MatProofs PlotModel PlotSpec.
Open Scope nat_scope.

Lemma rank_snoc v vals x : rank v (vals ++ [x]) = rank v vals + (if Qle_bool x v then 1 else 0).
Proof. unfold rank. rewrite filter_app, app_length. cbn [filter]. destruct (Qle_bool x v); reflexivity. Qed.
Lemma rank_le v vals : rank v vals <= length vals.
Proof. unfold rank. induction vals as [|x r IH]; cbn [filter length]; [lia|]. destruct (Qle_bool x v); cbn [length]; lia. Qed.
Lemma rank_all v vals : rank v vals = length vals <-> Forall (fun x => (x <= v)%Q) vals.
Proof.
  unfold rank. induction vals as [|x r IH]; cbn [filter length]; [split; constructor|]. pose proof (rank_le v r) as L. unfold rank in L. destruct (Qle_bool x v) eqn:E; cbn [length].
  - apply Qle_bool_iff in E. split; [intros H; constructor; [exact E|apply IH; lia]|intros H; f_equal; apply IH; exact (Forall_inv_tail H)].
  - split; [lia|]. intros H. apply Forall_inv in H. apply Qle_bool_iff in H. congruence.
Qed.
Lemma sorted_snoc l x : StronglySorted Qlt (l ++ [x]) -> StronglySorted Qlt l /\ Forall (fun y => (y < x)%Q) l.
Proof.
  induction l as [|y r IH]; intros H; [split; constructor|]. inversion H as [|? ? S F]; subst. destruct (IH S) as [A B]. apply Forall_app in F as [F G].
  split; constructor; auto. exact (Forall_inv G).
Qed.

Lemma assign_first v : forall vals ctgs l, StronglySorted Qlt vals -> length ctgs = S (length vals) ->
  assign v (rev vals) (rev ctgs) l = if rank v vals =? length vals then l else firstn 10 (nth (S (rank v vals)) ctgs []).
Proof.
  induction vals as [|x vals IH] using rev_ind; intros ctgs l So L; [destruct ctgs; reflexivity|].
  destruct ctgs as [|c ctgs _] using rev_ind; [discriminate L|]. rewrite !app_length in L. cbn [length] in L.
  apply sorted_snoc in So as [So F]. rewrite !rev_unit. cbn [assign]. rewrite IH by (try assumption; lia). rewrite rank_snoc, app_length. cbn [length].
  pose proof (rank_le v vals) as R. destruct (Qle_bool x v) eqn:E.
  - assert (A : rank v vals = length vals). { apply rank_all. apply Qle_bool_iff in E. rewrite Forall_forall in *. intros y Hy. specialize (F y Hy). lra. }
    rewrite A, !Nat.eqb_refl. reflexivity.
  - rewrite Nat.add_0_r. destruct (Nat.eqb_spec (rank v vals) (length vals + 1)) as [X|_]; [lia|]. destruct (Nat.eqb_spec (rank v vals) (length vals)) as [X|X].
    + rewrite app_nth2 by lia. replace (S (rank v vals) - length ctgs) with 0 by lia. reflexivity.
    + rewrite app_nth1 by lia. reflexivity.
Qed.
Lemma assign_none v : forall vals ctgs l, Forall (fun x => (x <= v)%Q) vals -> assign v vals ctgs l = l.
Proof. induction vals as [|x r IH]; intros ctgs l F; [reflexivity|]. destruct ctgs as [|c ctgs]; [reflexivity|]. cbn [assign]. apply Forall_cons_iff in F as [F G]. apply Qle_bool_iff in F. rewrite F. apply IH. exact G. Qed.
Lemma assign_snoc v x c rest : forall vals ctgs l, length ctgs = length vals -> assign v (vals ++ [x]) (ctgs ++ c :: rest) l = if Qle_bool x v then assign v vals ctgs l else cut10 c.
Proof.
  induction vals as [|y r IH]; intros ctgs l L; (destruct ctgs as [|d ctgs]; [|]); try discriminate L.
  - cbn [app assign]. destruct rest; destruct (Qle_bool x v); reflexivity.
  - cbn [app assign]. apply IH. injection L as L. exact L.
Qed.
Lemma assign_second v vals ctgs l : vals <> [] -> StronglySorted Qlt vals -> length ctgs = S (length vals) ->
  assign v vals (rev ctgs) l = if rank v vals =? length vals then l else firstn 10 (nth 1 ctgs []).
Proof.
  intros N So L. destruct vals as [|x vals _] using rev_ind; [congruence|]. rewrite app_length in L. cbn [length] in L.
  destruct ctgs as [|c0 [|c1 ctgs]]; cbn [length] in L; [lia|lia|]. cbn [rev nth]. rewrite <- app_assoc. cbn [app]. rewrite assign_snoc by (rewrite rev_length; lia).
  rewrite rank_snoc, app_length. cbn [length]. apply sorted_snoc in So as [So F]. pose proof (rank_le v vals) as R. destruct (Qle_bool x v) eqn:E.
  - assert (A : Forall (fun y => (y <= v)%Q) vals). { apply Qle_bool_iff in E. rewrite Forall_forall in *. intros y Hy. specialize (F y Hy). lra. }
    rewrite (proj2 (rank_all v vals) A), Nat.eqb_refl. apply assign_none. exact A.
  - destruct (Nat.eqb_spec (rank v vals + 0) (length vals + 1)) as [X|_]; [lia|]. reflexivity.
Qed.

Lemma last_hd (l : list str) : l <> [] -> hd_error (rev l) = Some (last l []).
Proof. intros N. destruct l as [|x r _] using rev_ind; [congruence|]. rewrite rev_unit, last_last. reflexivity. Qed.
Lemma last_nth (l : list str) n : length l = S n -> last l [] = nth n l [].
Proof. intros L. destruct l as [|x r _] using rev_ind; [discriminate L|]. rewrite app_length in L. cbn [length] in L. rewrite last_last, app_nth2 by lia. replace (n - length r) with 0 by lia. reflexivity. Qed.

Lemma cells_two label labels : 1 < cells label labels <-> TwoCells label labels.
Proof.
  unfold cells. assert (One : forall l, 1 <= length (filter (str_eqb label) l) <-> exists i, nth_error l i = Some label).
  { induction l as [|x l IH]; cbn [filter length]; [split; [lia|intros [[|i] H]; discriminate H]|]. destruct (str_eqb label x) eqn:E; cbn [length].
    - split; [|lia]. intros _. exists 0. apply str_eqb_eq in E. subst x. reflexivity.
    - rewrite IH. split; [intros [i H]; exists (S i); exact H|]. intros [[|i] H]; [|exists i; exact H]. cbn [nth_error] in H. injection H as ->. rewrite str_eqb_refl in E. discriminate E. }
  unfold TwoCells. induction labels as [|x l IH]; cbn [filter length]; [split; [lia|]; intros (i & j & _ & H & _); destruct i; discriminate H|]. destruct (str_eqb label x) eqn:E; cbn [length].
  - apply str_eqb_eq in E. subst x. split.
    + intros H. assert (H' : 1 <= length (filter (str_eqb label) l)) by lia. apply One in H' as [i H']. exists 0, (S i). split; [lia|]. split; [reflexivity|exact H'].
    + intros (i & j & L & _ & H). destruct j as [|j]; [lia|]. assert (X : 1 <= length (filter (str_eqb label) l)) by (apply One; exists j; exact H). lia.
  - rewrite IH. split; [intros (i & j & L & A & B); exists (S i), (S j); split; [lia|]; split; assumption|]. intros (i & j & L & A & B). destruct i as [|i]; [cbn [nth_error] in A; injection A as ->; rewrite str_eqb_refl in E; discriminate E|].
    destruct j as [|j]; [lia|]. exists i, j. split; [lia|]. split; assumption.
Qed.
Lemma filter_sub {A} (p : A -> bool) l : Sub (filter p l) l.
Proof. induction l as [|x l IH]; [constructor|]. cbn [filter]. destruct (p x); constructor; exact IH. Qed.
Lemma map_sub {A B} (f : A -> B) l m : Sub l m -> Sub (map f l) (map f m).
Proof. induction 1; cbn [map]; constructor; assumption. Qed.

Lemma categorize_ok vals ctgs colors values : ctgs <> [] ->
  categorize vals ctgs colors values = Ok (map (fun v => assign v (rev vals) (rev ctgs) (cut10 (last ctgs []))) values,
    map snd (filter (fun p => 1 <? cells (fst p) (map (fun v => assign v (rev vals) (rev ctgs) (cut10 (last ctgs []))) values)) (combine ctgs colors)), rev vals).
Proof. intros N. unfold categorize. rewrite last_hd by exact N. reflexivity. Qed.
Lemma first_labels vals ctgs colors values : Scheme vals ctgs -> exists used, categorize vals ctgs colors values = Ok (map (label_first vals ctgs) values, used, rev vals).
Proof.
  intros (N & So & L). rewrite categorize_ok by (intros ->; discriminate L). set (ls := map _ values). assert (E : ls = map (label_first vals ctgs) values).
  { subst ls. apply map_ext. intros v. rewrite assign_first by assumption. unfold label_first, cut10. pose proof (rank_le v vals) as R. destruct (Nat.eqb_spec (rank v vals) (length vals)) as [X|X].
    - rewrite X, Nat.min_r by lia. rewrite (last_nth ctgs (length vals)) by exact L. reflexivity.
    - rewrite Nat.min_l by lia. reflexivity. }
  rewrite E. eexists. reflexivity.
Qed.
Lemma second_labels vals ctgs colors values : Scheme vals ctgs -> exists used, categorize (rev vals) ctgs colors values = Ok (map (label_second vals ctgs) values, used, vals).
Proof.
  intros (N & So & L). rewrite categorize_ok by (intros ->; discriminate L). rewrite rev_involutive. set (ls := map _ values). assert (E : ls = map (label_second vals ctgs) values).
  { subst ls. apply map_ext. intros v. rewrite assign_second by assumption. unfold label_second, cut10. destruct (rank v vals =? length vals); reflexivity. }
  rewrite E. eexists. reflexivity.
Qed.

(** the slices one after the other *)
Definition turned (k : nat) (vals : list Q) : list Q := if Nat.even k then vals else rev vals.
Lemma labels_on k vals ctgs colors values : Scheme vals ctgs -> exists used, categorize (turned k vals) ctgs colors values = Ok (map (label_on k vals ctgs) values, used, turned (S k) vals).
Proof.
  intros H. unfold turned, label_on. rewrite Nat.even_succ, <- Nat.negb_even. destruct (Nat.even k); cbn [negb]; [apply first_labels|apply second_labels]; exact H.
Qed.
Section All.
  Context {Cut Stl Img : Type} (values : Cut -> str -> list Q) (draw : drawing Cut Stl -> Img).
  Lemma plot_all_labels s array title nc vals : Scheme vals (g_ctgs s) -> forall (slices : list (str * Cut * option Stl)) k, exists ims,
    plot_all values draw (Some s) array title nc (turned k vals) slices = Ok (ims, turned (k + length slices) vals)
    /\ forall i name cut stl, nth_error slices i = Some (name, cut, stl) -> exists used, nth_error ims i = Some (name,
         draw {| w_cut := cut; w_scalars := g_name s; w_labels := Some (map (label_on (k + i) vals (g_ctgs s)) (values cut array), used); w_stl := stl; w_title := title; w_nlabels := n_labels nc |}).
  Proof.
    intros H. induction slices as [|[[name cut] stl] r IH]; intros k; cbn [plot_all length].
    - exists []. rewrite Nat.add_0_r. split; [reflexivity|]. intros [|i] ? ? ? X; discriminate X.
    - destruct (labels_on k vals (g_ctgs s) (g_colors s) (values cut array) H) as [used E]. destruct (IH (S k)) as (ims & E' & R). exists ((name, draw {| w_cut := cut; w_scalars := g_name s; w_labels := Some (map (label_on k vals (g_ctgs s)) (values cut array), used); w_stl := stl; w_title := title; w_nlabels := n_labels nc |}) :: ims).
      unfold plot_one. rewrite E. cbn [bind]. rewrite E'. cbn [bind fst]. split; [rewrite <- plus_n_Sm; reflexivity|]. intros [|i] n c t X; cbn [nth_error] in *; [injection X as <- <- <-; rewrite Nat.add_0_r; exists used; reflexivity|].
      destruct (R i n c t X) as [u Y]. exists u. replace (k + S i) with (S k + i) by lia. exact Y.
  Qed.
  Lemma plot_all_images s array title nc : (forall t, s = Some t -> g_ctgs t <> []) -> forall (slices : list (str * Cut * option Stl)) vals, exists ims vals',
    plot_all values draw s array title nc vals slices = Ok (ims, vals')
    /\ Forall2 (fun sl im => fst im = fst (fst sl) /\ exists w, snd im = draw w /\ w_cut w = snd (fst sl) /\ w_stl w = snd sl /\ w_title w = title /\ w_nlabels w = n_labels nc
         /\ w_scalars w = match s with Some t => g_name t | None => array end /\ (w_labels w = None <-> s = None)) slices ims.
  Proof.
    intros H. induction slices as [|[[name cut] stl] r IH]; intros vals; cbn [plot_all]; [exists [], vals; split; [reflexivity|constructor]|]. unfold plot_one. destruct s as [t|].
    - rewrite categorize_ok by (apply H; reflexivity). cbn [bind]. edestruct IH as (ims & vals' & E & F). rewrite E. cbn [bind fst]. do 2 eexists. split; [reflexivity|]. constructor; [|exact F]. split; [reflexivity|]. eexists. split; [reflexivity|].
      cbn. repeat (split; try reflexivity); discriminate.
    - cbn [bind]. edestruct IH as (ims & vals' & E & F). rewrite E. cbn [bind fst]. do 2 eexists. split; [reflexivity|]. constructor; [|exact F]. split; [reflexivity|]. eexists. split; [reflexivity|]. cbn. repeat (split; try reflexivity).
  Qed.
  Lemma save_all_last folder (ims disk : list (str * Img)) p :
    (forall x, LastWith (fun y => png_path folder (fst y) = p) x ims -> dget str_eqb p (save_all (Some folder) ims disk) = Some (snd x))
    /\ ((forall y, In y ims -> png_path folder (fst y) <> p) -> dget str_eqb p (save_all (Some folder) ims disk) = dget str_eqb p disk).
  Proof.
    cbn [save_all]. induction ims as [|z ims IH] using rev_ind; [split; [intros x (a & b & E & _); destruct a; discriminate E|reflexivity]|].
    rewrite fold_left_app. cbn [fold_left]. set (d := fold_left _ ims disk) in *. destruct (str_dec p (png_path folder (fst z))) as [X|X].
    - split; [|intros H; exfalso; apply (H z); [apply in_or_app; right; left; reflexivity|symmetry; exact X]]. intros x (a & b & E & Px & F). rewrite <- X, (dget_dset_same str_eqb str_eqb_eq).
      destruct b as [|u b _] using rev_ind; [apply app_inj_tail in E as [_ ->]; reflexivity|]. exfalso. change (a ++ x :: b ++ [u]) with (a ++ (x :: b) ++ [u]) in E. rewrite app_assoc in E. apply app_inj_tail in E as [_ ->]. apply Forall_app in F as [_ F]. apply Forall_inv in F. auto.
    - rewrite (dget_dset_other str_eqb str_eqb_eq) by (first [exact X|exact (not_eq_sym X)]). split.
      + intros x (a & b & E & Px & F). apply (proj1 IH). destruct b as [|u b _] using rev_ind; [apply app_inj_tail in E as [_ ->]; congruence|]. change (a ++ x :: b ++ [u]) with (a ++ (x :: b) ++ [u]) in E. rewrite app_assoc in E. apply app_inj_tail in E as [-> _].
        exists a, b. split; [reflexivity|]. split; [exact Px|]. apply Forall_app in F as [F _]. exact F.
      + intros H. apply (proj2 IH). intros y Hy. apply H. apply in_or_app. left. exact Hy.
  Qed.
End All.

(** the angles *)
Lemma arange_ok a b step : (0 < step)%Q -> exists l, arange a b step = Ok l
  /\ (forall i x, nth_error l i = Some x <-> x = (a + inject_Z (Z.of_nat i) * step)%Q /\ (a + inject_Z (Z.of_nat i) * step < b)%Q).
Proof.
  intros P. unfold arange. destruct (Qeq_bool step 0) eqn:E; [apply Qeq_bool_iff in E; lra|]. eexists. split; [reflexivity|]. intros i x. rewrite nth_error_map.
  set (n := Z.to_nat (Qceiling ((b - a) / step))).
  assert (N : i < n <-> (a + inject_Z (Z.of_nat i) * step < b)%Q).
  { assert (D : ((b - a) / step * step == b - a)%Q) by (field; lra). subst n. set (q := ((b - a) / step)%Q) in *. assert (C : (Z.of_nat i < Qceiling q)%Z <-> (inject_Z (Z.of_nat i) < q)%Q).
    { split.
      - intros H. destruct (Qlt_le_dec (inject_Z (Z.of_nat i)) q) as [Y|Y]; [exact Y|]. apply Qceiling_resp_le in Y. rewrite Qceiling_Z in Y. lia.
      - intros H. pose proof (Qle_ceiling q) as L. assert (X : (inject_Z (Z.of_nat i) < inject_Z (Qceiling q))%Q) by lra. rewrite <- Zlt_Qlt in X. exact X. }
    split.
    - intros H. assert (H' : (inject_Z (Z.of_nat i) < q)%Q) by (apply C; lia). apply (Qmult_lt_r _ _ step) in H'; [lra|exact P].
    - intros H. assert (H' : (inject_Z (Z.of_nat i) < q)%Q) by (apply (Qmult_lt_r _ _ step); [exact P|lra]). apply C in H'. lia. }
  split.
  - intros H. destruct (nth_error (seq 0 n) i) as [j|] eqn:S; [|discriminate H]. cbn [option_map] in H. assert (L : i < n) by (rewrite <- (seq_length n 0); apply nth_error_Some; congruence).
    rewrite (nth_error_nth' _ 0) in S by (rewrite seq_length; exact L). rewrite seq_nth in S by exact L. injection S as <-. injection H as <-. split; [reflexivity|]. apply N. exact L.
  - intros [-> H]. apply N in H. rewrite (nth_error_nth' _ 0) by (rewrite seq_length; exact H). rewrite seq_nth by exact H. reflexivity.
Qed.
Section Names.
  Context {Cut Stl : Type} (stl_cut : Cut -> option Stl) (show1 : Q -> str) (has : bool).
  Lemma name_all_ok : forall (cuts : list Cut) angles, length cuts <= length angles -> exists out, name_all stl_cut show1 has angles cuts = Ok out
    /\ length out = length cuts /\ forall i c, nth_error cuts i = Some c -> exists a, nth_error angles i = Some a /\ nth_error out i = Some (theta_name show1 a, c, if has then stl_cut c else None).
  Proof.
    induction cuts as [|c r IH]; intros angles L; cbn [name_all]; [exists []; split; [reflexivity|]; split; [reflexivity|]; intros [|i] ? X; discriminate X|].
    destruct angles as [|a angles]; cbn [length] in L; [lia|]. cbn [hd_error of_opt bind tl]. destruct (IH angles) as (out & E & Lo & R); [lia|]. rewrite E. cbn [bind]. eexists. split; [reflexivity|]. split; [cbn [length]; congruence|].
    intros [|i] d X; cbn [nth_error] in *; [injection X as <-; exists a; split; reflexivity|]. exact (R i d X).
  Qed.
End Names.
Lemma filter_before {A} (p : A -> bool) : forall a x b, p x = true -> nth_error (filter p (a ++ x :: b)) (length (filter p a)) = Some x.
Proof. intros a x b H. rewrite filter_app, nth_error_app2 by lia. rewrite Nat.sub_diag. cbn [filter]. rewrite H. reflexivity. Qed.
Lemma filter_len {A} (p : A -> bool) (l : list A) : length (filter p l) <= length l.
Proof. induction l as [|x r IH]; cbn [filter length]; [lia|]. destruct (p x); cbn [length]; lia. Qed.
Lemma cut_inj (ctgs : list str) i j : NoDup (map (firstn 10) ctgs) -> i < length ctgs -> j < length ctgs -> firstn 10 (nth i ctgs []) = firstn 10 (nth j ctgs []) -> i = j.
Proof.
  intros N Li Lj E. rewrite NoDup_nth_error, map_length in N. apply N; [exact Li|]. rewrite !nth_error_map.
  assert (A : forall k, k < length ctgs -> option_map (firstn 10) (nth_error ctgs k) = Some (firstn 10 (nth k ctgs []))) by (intros k Lk; rewrite (nth_error_nth' ctgs [] Lk); reflexivity).
  etransitivity; [apply A; exact Li|]. rewrite E. symmetry. apply A. exact Lj.
Qed.
Lemma nth_firstn {A} : forall (l : list A) k i, i < k -> nth_error (firstn k l) i = nth_error l i.
Proof. induction l as [|x l IH]; intros [|k] [|i] H; try lia; try reflexivity. cbn [firstn nth_error]. apply IH. lia. Qed.

(** the atlas *)
Lemma ins_filter t x l : filter (fun f : str * Q => Qeq_bool (snd f) t) (ins_time x l) = filter (fun f => Qeq_bool (snd f) t) (x :: l).
Proof.
  induction l as [|y r IH]; [reflexivity|]. cbn [ins_time]. destruct (Qle_bool (snd x) (snd y)) eqn:E; [reflexivity|]. cbn [filter] in *. rewrite IH.
  destruct (Qeq_bool (snd x) t) eqn:Ex, (Qeq_bool (snd y) t) eqn:Ey; try reflexivity. apply Qeq_bool_iff in Ex, Ey. assert (X : (snd x <= snd y)%Q) by lra. apply Qle_bool_iff in X. congruence.
Qed.
Lemma by_time_filter t l : filter (fun f : str * Q => Qeq_bool (snd f) t) (by_time l) = filter (fun f => Qeq_bool (snd f) t) l.
Proof. induction l as [|x r IH]; [reflexivity|]. unfold by_time in *. cbn [fold_right]. rewrite ins_filter. cbn [filter]. rewrite IH. reflexivity. Qed.
Lemma ins_in x l : forall z, In z (ins_time x l) -> z = x \/ In z l.
Proof. induction l as [|y r IH]; intros z H; cbn [ins_time] in H; [destruct H as [<-|[]]; auto|]. destruct (Qle_bool (snd x) (snd y)); [destruct H as [<-|H]; auto|]. destruct H as [<-|H]; [right; left; reflexivity|]. destruct (IH z H); [auto|right; right; assumption]. Qed.
Lemma ins_sorted x l : StronglySorted (fun a b : str * Q => (snd a <= snd b)%Q) l -> StronglySorted (fun a b => (snd a <= snd b)%Q) (ins_time x l).
Proof.
  induction l as [|y r IH]; intros H; cbn [ins_time]; [repeat constructor|]. inversion H as [|? ? Sr F]; subst. destruct (Qle_bool (snd x) (snd y)) eqn:E.
  - apply Qle_bool_iff in E. constructor; [exact H|]. constructor; [exact E|]. rewrite Forall_forall in *. intros z Hz. specialize (F z Hz). lra.
  - constructor; [apply IH; exact Sr|]. rewrite Forall_forall in *. intros z Hz. destruct (ins_in x r z Hz) as [->|Hz']; [|apply F; exact Hz']. destruct (Qlt_le_dec (snd y) (snd x)) as [L|L]; [lra|]. apply Qle_bool_iff in L. congruence.
Qed.
Lemma by_time_sorted l : StronglySorted (fun a b : str * Q => (snd a <= snd b)%Q) (by_time l).
Proof. induction l as [|x r IH]; [constructor|]. unfold by_time in *. cbn [fold_right]. apply ins_sorted. exact IH. Qed.
Lemma filter_sorted {A} (R : A -> A -> Prop) p l : StronglySorted R l -> StronglySorted R (filter p l).
Proof. induction 1 as [|x r Sr IH F]; [constructor|]. cbn [filter]. destruct (p x); [|exact IH]. constructor; [exact IH|]. rewrite Forall_forall in *. intros z Hz. apply filter_In in Hz as [Hz _]. apply F. exact Hz. Qed.
Lemma filter_swap {A} (p q : A -> bool) l : filter p (filter q l) = filter q (filter p l).
Proof. induction l as [|x r IH]; [reflexivity|]. cbn [filter]. destruct (q x) eqn:Q, (p x) eqn:P; cbn [filter]; rewrite ?Q, ?P, IH; reflexivity. Qed.
Lemma is_picture_iff name : is_picture name = true <-> Picture name.
Proof.
  unfold is_picture, Picture, last3. rewrite memb_str. cbn [map]. split.
  - intros H. exists (firstn (length name - 3) name), (skipn (length name - 3) name). split; [symmetry; apply firstn_skipn|]. exact H.
  - intros (stem & ext & -> & I). assert (L : length ext = 3) by (destruct I as [<-|[<-|[<-|[]]]]; reflexivity). rewrite app_length, L. replace (length stem + 3 - 3) with (length stem) by lia.
    rewrite skipn_app, skipn_all, Nat.sub_diag. exact I.
Qed.
Lemma folder_pieces_ok {Img} root folder inside : exists pics, @folder_pieces Img root folder inside = folder_part root folder pics /\ OldestFirst inside pics.
Proof.
  exists (filter (fun f => is_picture (fst f)) (by_time inside)). split.
  - unfold folder_pieces, folder_part. f_equal. induction (by_time inside) as [|f r IH]; [reflexivity|]. cbn [flat_map filter]. destruct (is_picture (fst f)); cbn [flat_map app]; rewrite IH; reflexivity.
  - split; [|apply filter_sorted, by_time_sorted]. intros t. rewrite filter_swap, by_time_filter, filter_swap. reflexivity.
Qed.

(** lines and colours *)
Lemma nth_times {A} (l : list A) : forall n i, i < n * length l -> nth_error (times n l) i = nth_error l (i mod length l).
Proof.
  unfold times. induction n as [|n IH]; intros i H; [cbn in H; lia|]. cbn [repeat concat]. destruct (Nat.lt_ge_cases i (length l)) as [X|X].
  - rewrite nth_error_app1 by exact X. rewrite Nat.mod_small by exact X. reflexivity.
  - rewrite nth_error_app2 by exact X. rewrite IH by (cbn in H; lia). f_equal. assert (Y : i = (i - length l) + 1 * length l) by lia. rewrite Y at 2. rewrite Nat.mod_add by lia. reflexivity.
Qed.
Lemma times_length {A} (l : list A) n : length (times n l) = n * length l.
Proof. unfold times. induction n as [|n IH]; [reflexivity|]. cbn [repeat concat]. rewrite app_length, IH. reflexivity. Qed.
Lemma plot_sets_ok labels : forall sets i, exists o e, plot_sets labels i sets = (o, e) /\ length o = Nat.min (length sets) (200 - i) /\ (e = Ok tt <-> length sets <= 200 - i) /\ (e <> Ok tt -> e = Err IndexError)
  /\ forall k x, nth_error o k = Some x -> nth_error sets k = Some (e_values x) /\ e_label x = match labels with Some ls => nth_error ls (i + k) | None => None end
     /\ e_weight x = (1 / inject_Z (Z.of_nat (length (e_values x))))%Q /\ nth_error line_styles ((i + k) mod 4) = Some (e_line x) /\ nth_error palette ((i + k) mod 9) = Some (e_color x).
Proof.
  induction sets as [|v r IH]; intros i; cbn [plot_sets length].
  - exists [], (Ok tt). repeat split; try lia; try congruence; destruct k; discriminate.
  - destruct (Nat.lt_ge_cases i 200) as [X|X].
    + rewrite !nth_times by (cbn; lia). change (length line_styles) with 4. change (length palette) with 9.
      destruct (nth_error line_styles (i mod 4)) as [li|] eqn:El; [|apply nth_error_None in El; change (length line_styles) with 4 in El; pose proof (Nat.mod_upper_bound i 4); lia].
      destruct (nth_error palette (i mod 9)) as [co|] eqn:Ec; [|apply nth_error_None in Ec; change (length palette) with 9 in Ec; pose proof (Nat.mod_upper_bound i 9); lia].
      destruct (IH (S i)) as (o & e & -> & Lo & Ee & Er & R). eexists. exists e. split; [reflexivity|]. split; [cbn [length]; lia|]. split; [rewrite Ee; lia|]. split; [exact Er|].
      intros [|k] x H; cbn [nth_error] in *; [injection H as <-; cbn; rewrite Nat.add_0_r; auto|]. replace (i + S k) with (S i + k) by lia. exact (R k x H).
    + assert (E : nth_error (times 50 line_styles) i = None) by (apply nth_error_None; rewrite times_length; cbn; lia). rewrite E. exists [], (Err IndexError). split; [reflexivity|]. split; [cbn [length]; lia|].
      split; [split; [discriminate|lia]|]. split; [reflexivity|]. intros [|k] x H; discriminate H.
Qed.
