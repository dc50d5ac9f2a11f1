(** Proofs for C111, continued: the table that is kept, helpers of the statements. *)
From Coq Require Import Lia ZArith QArith Sorted.
From Verif Require Import PyBase PyLemmas PyStr PyStrLemmas PyText D1SProofs2 WWTextProofs LibModel MatModel MatProofs MatProofs2 InpModel InpSpec InpProofs InpProofs2 InpProofs3 InpProofs4 InpProofs5 LookModel LookProofs RssaProofs2 EliteModel EliteSpec EliteRunModel EliteRunSpec EliteRunProofs EliteRunProofs2 EliteRunProofs3.
From Coq Require Import Permutation.
Open Scope nat_scope.

Lemma same_set_iff a b : same_set a b = true <-> forall z, In z a <-> In z b.
Proof. unfold same_set. rewrite andb_true_iff, !forallb_forall. split.
  - intros [A B] z. split; intros H; [apply zmem_in, A, H|apply zmem_in, B, H].
  - intros H. split; intros x Q; apply zmem_in, H, Q. Qed.
Lemma level0_cells_spec void_d h a rs : get_cells_summary void_d h (i_cells a) = Ok rs -> exists l0, level0_cells void_d h a = Ok l0 /\ forall z, In z l0 <-> level0 h a z.
Proof. intros E. unfold level0_cells. rewrite E. cbn [bind]. eexists. split; [reflexivity|]. intros z.
  unfold get_cells_summary in E. destruct (mapM (cell_row void_d h) (i_cells a)) as [rows0|] eqn:M; [|discriminate E].
  assert (P : forall r, In r rs <-> In r rows0). { destruct rows0 as [|x y]; [discriminate E|]. injection E as <-. intros r. split; intros Q; [exact (Permutation_in r (sort_cr_perm (x :: y)) Q)|exact (Permutation_in r (Permutation_sym (sort_cr_perm (x :: y))) Q)]. }
  apply mapM_Forall2 in M. rewrite in_map_iff. unfold level0. split.
  - intros (r & <- & F). apply filter_In in F as [F U]. apply P in F. destruct (Forall2_in_r _ _ _ _ M F) as [[key l] [I R]]. unfold cell_row in R. cbn [fst snd] in R.
    destruct (hget h l) as [c|] eqn:G; cbn [bind] in R; [|discriminate R]. apply hget_ok in G. destruct (parse_int key) as [n|] eqn:PI; cbn [bind] in R; [|discriminate R].
    destruct (if optz_eqb (get_m c) 0 then Ok void_d else get_d c) as [d|]; cbn [bind] in R; [|discriminate R]. injection R as <-. cbn [cr_u cr_cell] in *. destruct (get_u c) eqn:GU; [discriminate U|]. exists key, l, c. auto.
  - intros (key & l & c & I & G & PI & GU). apply In_nth_error in I as [i I]. assert (X : exists r, nth_error rows0 i = Some r /\ cell_row void_d h (key, l) = Ok r).
    { clear - M I. revert i I. induction M as [|kl x d ls R _ IH]; intros [|i] I; try discriminate; cbn [nth_error] in *; [|now apply IH]. injection I as ->. eauto. }
    destruct X as (r & X1 & R). exists r. unfold cell_row in R. cbn [fst snd] in R. apply hget_ok in G. rewrite G in R. cbn [bind] in R. rewrite PI in R. cbn [bind] in R. destruct (if optz_eqb (get_m c) 0 then Ok void_d else get_d c) as [d|]; cbn [bind] in R; [|discriminate R]. injection R as <-.
    split; [reflexivity|]. apply filter_In. split; [apply P; eapply nth_error_In; exact X1|]. cbn [cr_u]. now rewrite GU. Qed.
Lemma initialize_iff void_d h a rs : get_cells_summary void_d h (i_cells a) = Ok rs -> forall c t, initialize void_d h a (c_excel c) (c_check c) = Ok t <-> accepted h a c t.
Proof. intros SU c t. destruct (level0_cells_spec _ _ _ _ SU) as (l0 & E & L). unfold initialize, accepted. destruct (c_excel c) as [x|]; cbn [bind]; [|split; [discriminate|intros [A _]; discriminate A]].
  destruct (c_check c); [|split; [intros Q; injection Q as ->; split; [reflexivity|discriminate]|intros [A _]; exact A]]. rewrite E. cbn [bind].
  destruct (same_set l0 (map snd x)) eqn:S.
  - pose proof (proj1 (same_set_iff l0 _) S) as SS. split; [intros Q; injection Q as ->; split; [reflexivity|]; intros _ z; rewrite <- L; apply SS|intros [A _]; exact A].
  - split; [discriminate|]. intros [A B]. injection A as ->. exfalso. assert (same_set l0 (map snd t) = true) by (apply same_set_iff; intros z; rewrite L; apply B; reflexivity). congruence. Qed.
Lemma refused void_d h a t rs : get_cells_summary void_d h (i_cells a) = Ok rs -> ~ (forall z, level0 h a z <-> In z (map snd t)) -> initialize void_d h a (Ok t) true = Err OtherError.
Proof. intros SU N. destruct (level0_cells_spec _ _ _ _ SU) as (l0 & E & L). unfold initialize. cbn [bind]. rewrite E. cbn [bind]. destruct (same_set l0 (map snd t)) eqn:S; [|reflexivity]. pose proof (proj1 (same_set_iff l0 _) S) as SS. destruct N. intros z. rewrite <- L. apply SS. Qed.

Lemma kept_some void_d h a cs t : fold_left (kept void_d h a) cs (Some t) = Some t.
Proof. induction cs as [|c cs IH]; [reflexivity|exact IH]. Qed.
Lemma kept_first void_d h a t rs : get_cells_summary void_d h (i_cells a) = Ok rs -> forall cs,
  fold_left (kept void_d h a) cs None = Some t <-> exists pre c post, cs = pre ++ c :: post /\ accepted h a c t /\ Forall (fun c' => forall t', ~ accepted h a c' t') pre.
Proof. intros SU. pose proof (initialize_iff _ _ _ _ SU) as I. induction cs as [|c cs IH]; cbn [fold_left].
  - split; [discriminate|]. intros (pre & c & post & E & _). destruct pre; discriminate E.
  - unfold kept at 2. destruct (initialize void_d h a (c_excel c) (c_check c)) as [t0|e] eqn:IN.
    + rewrite kept_some. apply I in IN as AC. split.
      * intros Q. injection Q as ->. exists [], c, cs. auto.
      * intros (pre & c1 & post & E & A & F). destruct pre as [|p pre]; [injection E as -> ->; apply I in A; congruence|]. injection E as <- _. inversion F as [|? ? N _]; subst. destruct (N t0 AC).
    + rewrite IH. assert (NA : forall t', ~ accepted h a c t') by (intros t' A; apply I in A; congruence). split.
      * intros (pre & c1 & post & -> & A & F). exists (c :: pre), c1, post. split; [reflexivity|]. split; [exact A|]. constructor; assumption.
      * intros (pre & c1 & post & E & A & F). destruct pre as [|p pre]; [injection E as <- _; destruct (NA t A)|]. injection E as <- ->. inversion F; subst. exists pre, c1, post. auto. Qed.

(** a line without tilde is printed as it is *)
Lemma fill_text s : forallb (fun c => negb (Ascii.eqb c tilde)) s = true -> forall vs hs, fill (text s) vs hs = Ok (s, (vs, hs)).
Proof. induction s as [|c s IH]; intros H vs hs; [reflexivity|]. cbn [forallb] in H. apply andb_true_iff in H as [A B]. unfold text in *. cbn [map fill]. destruct (Ascii.eqb c tilde); [discriminate A|]. rewrite (IH B). reflexivity. Qed.
Lemma set_input_text line c : forallb (fun c => negb (Ascii.eqb c tilde)) line = true -> card_text (set_input line c) = Ok [line].
Proof. intros H. unfold card_text, set_input. cbn [c_input c_values c_hidden fill_lines]. rewrite (fill_text line H). reflexivity. Qed.
Lemma digits_no_tilde s : Forall (fun c => is_digit c = true) s -> forallb (fun c => negb (Ascii.eqb c tilde)) s = true.
Proof. intros H. apply forallb_forall. intros c Q. rewrite Forall_forall in H. specialize (H c Q). destruct (Ascii.eqb c tilde) eqn:E; [|reflexivity]. apply Ascii.eqb_eq in E. subst. discriminate H. Qed.
Lemma forallb_concat {A} (f : A -> bool) ls : (forall l, In l ls -> forallb f l = true) -> forallb f (concat ls) = true.
Proof. induction ls as [|l ls IH]; intros H; [reflexivity|]. cbn [concat]. rewrite forallb_app, H by (left; reflexivity). apply IH. intros x Q. apply H. now right. Qed.
Lemma source_no_tilde sectors si spp : source_lines sectors = Ok (si, spp) -> forallb (fun c => negb (Ascii.eqb c tilde)) si = true /\ forallb (fun c => negb (Ascii.eqb c tilde)) spp = true.
Proof. unfold source_lines. destruct (mapM (lookup plasma_cells) sectors) as [cs|]; cbn [bind]; [|discriminate]. intros H. apply Ok_inj in H. apply pair_equal_spec in H. destruct H as [H1 H2]. rewrite <- H1, <- H2, !forallb_app. split; apply andb_true_iff; (split; [reflexivity|]).
  - apply forallb_concat. intros l Q. apply in_map_iff in Q as [z [<- _]]. rewrite forallb_app. apply andb_true_iff. split; [|reflexivity]. unfold str_of_Z. destruct z; [apply digits_no_tilde, str_of_N_digits|apply digits_no_tilde, str_of_N_digits|cbn [forallb]; apply andb_true_iff; split; [reflexivity|apply digits_no_tilde, str_of_N_digits]].
  - apply forallb_concat. intros l Q. apply in_map_iff in Q as [z [<- _]]. destruct (sector_eqb z s23); reflexivity. Qed.
Lemma writes_values sind cosd cosq norm void_d view paint trans_of h a cs c t w : input_allocated h a ->
  (exists st, extract_sector sind cosd cosq norm void_d view paint trans_of a (run sind cosd cosq norm void_d view paint trans_of a (mkE h None) cs) c = (st, Ok (Some w)) /\ e_table st = Some t) ->
  extract_values sind cosd cosq norm view paint trans_of (c_fuel c) h a t (c_sectors c) (c_tol c) = Ok (Some w).
Proof. intros AL (st & E & T). destruct (run_calls sind cosd cosq norm void_d view paint trans_of h a cs AL (mkE h None) (frame_refl h)) as [F _].
  pose proof (one_call sind cosd cosq norm void_d view paint trans_of h a _ c AL F) as O. rewrite E in O. destruct O as (_ & O & K). rewrite T in K. unfold outcome in O. unfold kept in K.
  destruct (e_table (run sind cosd cosq norm void_d view paint trans_of a (mkE h None) cs)) as [t0|]; [injection K as <-; symmetry; exact O|]. destruct (initialize void_d h a (c_excel c) (c_check c)) as [t0|]; [|discriminate K]. injection K as <-. symmetry. exact O. Qed.
Lemma no_sector sind cosd cosq norm void_d view paint trans_of a st c w : c_sectors c = [] -> snd (extract_sector sind cosd cosq norm void_d view paint trans_of a st c) <> Ok (Some w).
Proof. intros E. unfold extract_sector. destruct (match e_table st with Some t => Ok t | None => initialize void_d (e_heap st) a (c_excel c) (c_check c) end) as [t|]; [|discriminate]. rewrite E.
  destruct (extract sind cosd cosq norm view paint trans_of (c_fuel c) (e_heap st) a t [] (c_tol c)) as [[[h' w']|]|] eqn:X; try discriminate. exfalso. unfold extract in X. revert X.
  repeat match goal with
  | |- Ok (Some _) = _ -> _ => fail 1
  | |- Ok None = _ -> _ => discriminate
  | |- Err _ = _ -> _ => discriminate
  | |- (do x <- modify_graveyard [] _ _; _) = _ -> _ => discriminate
  | |- (do x <- ?m; _) = _ -> _ => destruct m; cbn [bind]; [|discriminate]
  | |- (match ?x with _ => _ end) = _ -> _ => destruct x
  end. Qed.
