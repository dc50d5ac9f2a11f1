(** Proofs about the report of the lost particles. *)
From Coq Require Import Lia ZArith Permutation Sorted.
From Verif Require Import PyBase PyLemmas PyStr PyText D1SModel D1SProofs2 DataModel MeshModel MeshSpec MeshProofs OutModel OutSpec OutProofs.
Open Scope nat_scope.

Lemma pair_swap (c s : str) r : pair_eqb (c, s) (l_cell r, l_surface r) = str_eqb c (l_cell r) && str_eqb s (l_surface r).
Proof. reflexivity. Qed.
Lemma filter_map_len {A B} (f : A -> B) (p : B -> bool) l : length (filter p (map f l)) = length (filter (fun x => p (f x)) l).
Proof. induction l as [|x l IH]; [reflexivity|]. cbn [map filter]. destruct (p (f x)); cbn [length]; rewrite IH; reflexivity. Qed.
Lemma in_count {A} (eqb : A -> A -> bool) (Heq : forall a b, eqb a b = true <-> a = b) x l : In x l <-> count_of eqb x l <> 0.
Proof.
  unfold count_of. split.
  - intros H E. apply length_zero_iff_nil in E. assert (I : In x (filter (eqb x) l)) by (apply filter_In; split; [exact H|apply Heq; reflexivity]). rewrite E in I. destruct I.
  - intros H. destruct (filter (eqb x) l) as [|y r] eqn:E; [exfalso; apply H; reflexivity|]. assert (I : In y (filter (eqb x) l)) by (rewrite E; left; reflexivity). apply filter_In in I as [I1 I2]. apply Heq in I2. subst y. exact I1.
Qed.
Theorem global_ok rows :
  (forall c s n, In ((c, s), n) (lp_global rows) <-> n = length (filter (fun r => str_eqb c (l_cell r) && str_eqb s (l_surface r)) rows) /\ n <> 0)
  /\ NoDup (map fst (lp_global rows)) /\ list_sum (map snd (lp_global rows)) = length rows /\ StronglySorted more_first (lp_global rows).
Proof.
  unfold lp_global. set (l := map (fun r => (l_cell r, l_surface r)) rows). destruct (groups_ok pair_eqb pair_eqb_eq l) as (H1 & H2 & H3 & H4). split; [|split; [exact H2|split; [|exact H4]]].
  - intros c s n. rewrite H1, (in_count pair_eqb pair_eqb_eq). assert (E : count_of pair_eqb (c, s) l = length (filter (fun r => str_eqb c (l_cell r) && str_eqb s (l_surface r)) rows)) by (unfold count_of, l; rewrite filter_map_len; reflexivity).
    rewrite E. split; [intros [X ->]; auto|intros [-> X]; auto].
  - rewrite H3. unfold l. apply map_length.
Qed.
Lemma univ_count rows u c s : count_of trip_eqb (u, (c, s)) (concat (map (fun r => match l_univ r with Some (Some x) => [(x, (l_cell r, l_surface r))] | _ => [] end) rows))
  = length (filter (fun r => match l_univ r with Some (Some x) => (u =? x)%Z | _ => false end && (str_eqb c (l_cell r) && str_eqb s (l_surface r))) rows).
Proof.
  unfold count_of. induction rows as [|r rows IH]; [reflexivity|]. cbn [map concat]. rewrite filter_app, app_length, IH. cbn [filter]. destruct (l_univ r) as [[x|]|]; [|reflexivity|reflexivity].
  cbn [filter length]. unfold trip_eqb at 1. cbn [fst snd]. rewrite pair_swap. destruct ((u =? x)%Z && (str_eqb c (l_cell r) && str_eqb s (l_surface r))); reflexivity.
Qed.
Lemma univ_len rows : length (concat (map (fun r => match l_univ r with Some (Some x) => [(x, (l_cell r, l_surface r))] | _ => [] end) rows))
  = length (filter (fun r => match l_univ r with Some (Some _) => true | _ => false end) rows).
Proof. induction rows as [|r rows IH]; [reflexivity|]. cbn [map concat filter]. rewrite app_length, IH. destruct (l_univ r) as [[x|]|]; reflexivity. Qed.
Theorem universes_ok rows : rows <> [] -> exists sheet, lp_universes rows = Ok sheet
  /\ (forall u c s n, In ((u, (c, s)), n) sheet <-> n = length (filter (fun r => match l_univ r with Some (Some x) => (u =? x)%Z | _ => false end && (str_eqb c (l_cell r) && str_eqb s (l_surface r))) rows) /\ n <> 0)
  /\ NoDup (map fst sheet) /\ list_sum (map snd sheet) = length (filter (fun r => match l_univ r with Some (Some _) => true | _ => false end) rows) /\ StronglySorted more_first sheet.
Proof.
  intros Hne. unfold lp_universes. destruct rows as [|r0 rows0] eqn:Er; [congruence|]. rewrite <- Er. clear Er. eexists. split; [reflexivity|].
  match goal with |- context [groups trip_eqb ?l] => destruct (groups_ok trip_eqb trip_eqb_eq l) as (H1 & H2 & H3 & H4) end. split; [|split; [exact H2|split; [|exact H4]]].
  - intros u c s n. rewrite H1, (in_count trip_eqb trip_eqb_eq), univ_count. split; [intros [X ->]; auto|intros [-> X]; auto].
  - rewrite H3. apply univ_len.
Qed.
Theorem report_ok cos univ lines rows : get_lp_debug_df cos univ lines = Ok rows -> univ = None \/ rows <> [] ->
  exists rep, print_lp_debug cos univ lines = Ok rep /\ rp_global rep = lp_global rows /\ rp_csv rep = map csv_row rows
    /\ match univ with None => rp_univ rep = None | Some _ => exists sheet, lp_universes rows = Ok sheet /\ rp_univ rep = Some sheet end.
Proof.
  intros H HU. unfold print_lp_debug. rewrite H. cbn [bind]. destruct univ as [g|]; [|eexists; split; [reflexivity|]; auto].
  destruct HU as [X|X]; [discriminate X|]. destruct (universes_ok rows X) as (sheet & E & _). rewrite E. cbn [bind]. eexists. split; [reflexivity|]. split; [reflexivity|]. split; [reflexivity|]. exists sheet. auto.
Qed.
Theorem report_none cos g lines : (forall i, ~ lost_at lines i) -> print_lp_debug cos (Some g) lines = Err KeyError.
Proof.
  intros H. unfold print_lp_debug. assert (E : get_lp_debug_df cos (Some g) lines = Ok []).
  { apply (lost_ok cos (Some g) lines []); [|constructor]. split; [constructor|]. intros i. split; [intros []|intros X; destruct (H i X)]. }
  rewrite E. reflexivity.
Qed.
