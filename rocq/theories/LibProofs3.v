From Coq Require Import Lia.
From Verif Require Import PyBase PyLemmas PyStr PyStrLemmas PyText WWTextProofs D1SProofs2 LibModel LibSpec LibProofs LibProofs2.
Open Scope nat_scope.

Lemma daughter_num_ok t z e a (mt : bool) : W2 t z e -> word e -> (a < 1000)%N ->
  daughter_num t (formula_m e a mt) = Ok (str_of_N z ++ fmt03 a ++ (if mt then s2l "900" else [])).
Proof. intros S W H. destruct (get_formulazaid_eq t z e a S W H) as [_ G]. unfold daughter_num, formula_m. destruct mt.
  - rewrite app_assoc. rewrite rev_app_distr. change (rev (s2l "m")) with ["m"%char]. cbn [app]. rewrite Ascii.eqb_refl, rev_involutive, G. cbn [bind]. now rewrite <- app_assoc.
  - rewrite !app_nil_r. destruct (rev (e ++ str_of_N a)) as [|c r] eqn:E.
    + exfalso. apply (f_equal (@rev ascii)) in E. rewrite rev_involutive in E. apply app_eq_nil in E. destruct E as [_ E]. now apply str_of_N_ne in E.
    + assert (is_digit c = true) as D.
      { rewrite rev_app_distr in E. pose proof (str_of_N_digits a) as D. pose proof (str_of_N_ne a) as N. apply Forall_rev in D.
        destruct (rev (str_of_N a)) as [|d r'] eqn:R.
        - apply (f_equal (@rev ascii)) in R. rewrite rev_involutive in R. contradiction.
        - inversion D; subst. cbn [app] in E. injection E as <- _. assumption. }
      destruct (Ascii.eqb_spec c "m"%char) as [->|_]; [discriminate|]. exact G. Qed.

Lemma no_dash_formula e a : word e -> (0 < a)%N -> no_dash (formula e a) = e ++ str_of_N a.
Proof. intros [_ W] H. unfold formula. destruct (N.eqb_spec a 0) as [->|_]; [lia|]. unfold no_dash. rewrite !filter_app.
  assert (F : forall l, Forall (fun c => negb (Ascii.eqb c dash) = true) l -> filter (fun c => negb (Ascii.eqb c dash)) l = l).
  { induction 1 as [|c l Hc _ IH]; simpl; [reflexivity|]. now rewrite Hc, IH. }
  rewrite (F e), (F (str_of_N a)); [reflexivity| |].
  - pose proof (str_of_N_digits a) as D. revert D. apply Forall_impl. intros c Hc. destruct (digit_not c Hc) as [_ [Hm _]]. change dash with minus. now rewrite Hm.
  - revert W. apply Forall_impl. intros c Hc. destruct (Ascii.eqb_spec c dash) as [->|_]; [discriminate|reflexivity]. Qed.

(** a row that the isotope table can resolve, and the answer expected for it *)
Definition row_answer (t : list isorow) (r : reacrow) (ans : str * str) : Prop :=
  fst ans = str_of_Z (a_mt r) /\
  exists z e a (mt : bool) s, symbol t z e /\ a_daughter r = formula_m e a mt /\ zaid_text z a s /\
    snd ans = s ++ (if mt then s2l "900" else []).

Lemma reac_loop_ok t l anss : (forall z e, symbol t z e -> word e) -> Forall2 (row_answer t) l anss -> reac_loop t [] l = Ok anss.
Proof. intros W. induction 1 as [|r ans l anss H F IH]; cbn [reac_loop]; [reflexivity|].
  destruct H as [H1 (z & e & a & mt & s & S & Hd & T & H2)]. apply zaid_text_fmt in T. destruct T as [Ha ->].
  rewrite Hd, (daughter_num_ok t z e a mt (symbol_W2 _ _ _ S) (W _ _ S) Ha). rewrite reac_loop_acc, IH. destruct ans as [m d]. cbn [fst snd] in *. subst.
  cbn [app]. now rewrite <- app_assoc. Qed.

Lemma get_reactions_ok t sheets lib df z e a s anss : wf_table t -> symbol t z e -> zaid_text z a s -> (0 < a)%N ->
  dget str_eqb lib sheets = Some df ->
  Forall2 (row_answer t) (filter (fun r => str_eqb (a_parent r) (e ++ str_of_N a)) df) anss ->
  get_reactions t sheets lib s = Ok anss.
Proof. intros [WF _] S T Ha E F. assert (W : forall z e, symbol t z e -> word e).
  { intros z' e' [[r [Hr [_ <-]]] _]. now apply WF. }
  unfold get_reactions. rewrite E. destruct (get_zaidname_ok t z e a s (symbol_W1 _ _ _ S) T) as [nm ->].
  rewrite no_dash_formula by (try exact Ha; now apply (W z)). now apply reac_loop_ok. Qed.

(** boolean checks on a concrete table *)
Definition wordb (s : str) : bool := match s with [] => false | _ => forallb is_letter s end.
Lemma wordb_ok s : wordb s = true -> word s.
Proof. unfold wordb, word. destruct s; [discriminate|]. intros H. split; [discriminate|]. apply Forall_forall. now apply forallb_forall. Qed.
Definition symbolb (t : list isorow) (z : N) (e : str) : bool :=
  existsb (fun r => N.eqb (r_Z r) z && str_eqb (r_E r) e) t &&
  forallb (fun r => Bool.eqb (N.eqb (r_Z r) z) (str_eqb (r_E r) e)) t.
Lemma symbolb_ok t z e : symbolb t z e = true -> symbol t z e.
Proof. unfold symbolb, symbol. rewrite andb_true_iff. intros [H1 H2]. split.
  - apply existsb_exists in H1. destruct H1 as [r [Hr H]]. apply andb_true_iff in H. destruct H as [Ha Hb]. apply N.eqb_eq in Ha. apply str_eqb_eq in Hb. eauto.
  - rewrite forallb_forall in H2. intros r Hr. apply H2 in Hr. apply eqb_prop in Hr. rewrite <- N.eqb_eq, Hr. apply str_eqb_eq. Qed.
Fixpoint nodupb (l : list str) : bool := match l with [] => true | x :: l' => negb (memb str_eqb x l') && nodupb l' end.
Lemma nodupb_ok l : nodupb l = true -> NoDup l.
Proof. induction l as [|x l IH]; cbn [nodupb]; [constructor|]. rewrite andb_true_iff, negb_true_iff. intros [H1 H2]. constructor; [|auto].
  intros Q. apply memb_str in Q. congruence. Qed.
Definition wf_tableb (t : list isorow) : bool :=
  forallb (fun r => N.ltb (r_A r) 1000 && str_eqb (r_idx r) (str_of_N (r_Z r) ++ fmt03 (r_A r)) && wordb (r_E r)) t && nodupb (map r_idx t).
Lemma wf_tableb_ok t : wf_tableb t = true -> wf_table t.
Proof. unfold wf_tableb, wf_table. rewrite andb_true_iff. intros [H1 H2]. split; [|now apply nodupb_ok].
  rewrite forallb_forall in H1. intros r Hr. apply H1 in Hr. rewrite !andb_true_iff in Hr. destruct Hr as [[Ha Hb] Hc]. split; [|now apply wordb_ok].
  apply zaid_text_fmt. apply N.ltb_lt in Ha. apply str_eqb_eq in Hb. auto. Qed.

(** element kept by a translation *)
Lemma conv_element m zaid lib tr z : distinct_libs m -> wf_table (l_iso m) -> convertZaid m zaid lib = Ok tr ->
  parse_int (but3 zaid) = Ok z -> forall k v, In (k, v) tr -> parse_int (but3 k) = Ok z.
Proof. intros D [WF N] H Hz k v Hin. apply conv_ok in H; [|exact D|exact N]. destruct H.
  - destruct Hin as [Q|[]]. injection Q as <- _. exact Hz.
  - destruct Hin as [Q|[]]. apply (f_equal fst) in Q. cbn [fst] in Q. subst k. rewrite (proj1 (but3_app (but3 zaid) (s2l "000") eq_refl)). exact Hz.
  - destruct Hin as [Q|[]]. injection Q as <- _. exact Hz.
  - destruct Hin as [Q|[]]. injection Q as <- _. exact Hz.
  - rewrite H1 in Hz. injection Hz as <-. assert (Q : In k (map (fun e => fst (fst e)) (map (fun e => (fst e, snd (fst (snd e)), snd (snd e))) tr))).
    { rewrite map_map. cbn [fst]. apply in_map_iff. exists (k, v). auto. }
    rewrite H2 in Q. rewrite map_map in Q. cbn [fst] in Q. apply in_map_iff in Q. destruct Q as [r [<- Hr]]. apply filter_In in Hr. destruct Hr as [Hr1 Hr2].
    apply Z.eqb_eq in Hr2. destruct (WF r Hr1) as [T _]. destruct (zaid_text_parts _ _ _ T) as [-> _]. now rewrite parse_int_N, Hr2. Qed.

Lemma amount_map tr rows : map (fun e : str * transl => (fst e, snd (fst (snd e)), snd (snd e))) tr = map (fun r => (r_idx r, r_abund r, r_mass r)) rows ->
  amount tr = qsum (map r_abund rows).
Proof. intros H. unfold amount. f_equal. apply (f_equal (map (fun e => snd (fst e)))) in H. rewrite !map_map in H. exact H. Qed.
