(** The library of decay pathways (C42) *)
From Coq Require Import Lia ZArith QArith Permutation Sorted.
From Verif Require Import PyBase PyLemmas PyStr PyStrLemmas D1SModel D1SProofs2 LibModel LibProofs2 IsoData MatProofs MatProofs2 PathLibModel PathLibSpec PathLibProofs.
Open Scope nat_scope.

(** ** C42: queries *)
(** A legal query returns exactly the rows of the table that answer it, each once for each time it is in the table,
    with its numbers for the requested cooling times (the order of the rows is not stated). *)
Theorem C42_filter_returns_the_wanted_rows avail lib q : Legal avail q ->
  exists r, filter_pathways avail lib q = Ok r /\ Keeps (Wanted avail q) lib (map fst r)
    /\ forall row vs, In (row, vs) r -> Forall2 (value_at row) (times_of q) vs.
Proof.
  intros HL. exists (answer avail lib q). split; [apply legal_ok; exact HL|]. rewrite answer_filter, map_map. cbn [fst]. rewrite map_id.
  split; [apply keeps; exact HL|]. intros row vs Hin. apply in_map_iff in Hin. destruct Hin as (r & E & _). injection E as <- <-.
  assert (G : forall l, incl l available_times -> Forall2 (value_at r) l (at_times l r)).
  { induction l as [|t l IH]; intros Hi; constructor.
    - apply value_col. split; [apply Hi; left; reflexivity|reflexivity].
    - apply IH. intros z Hz. apply Hi. right. exact Hz. }
  apply (G (times_of q)). apply (times_legal avail). exact HL.
Qed.
Print Assumptions C42_filter_returns_the_wanted_rows.

(** Any other query is refused: unknown spectra, cooling times and dose levels, and materials that differ from every
    available one in the name, the elements or the percentages. *)
Theorem C42_illegal_queries_are_refused avail iso lib q : ~ Legal avail q ->
  filter_pathways avail lib q = Err ValueError /\ get_pathways avail iso lib q = Err ValueError.
Proof.
  intros HN. destruct (filter_cases avail lib q) as [(r & E)|E]; [exfalso; apply HN; exact (ok_legal avail lib q r E)|].
  split; [exact E|]. unfold get_pathways. rewrite E. reflexivity.
Qed.
Print Assumptions C42_illegal_queries_are_refused.

(** Narrowing a query never brings in a row. *)
Theorem C42_narrower_queries_keep_less avail lib q q' : Legal avail q -> Legal avail q' -> Narrower q q' ->
  exists r r', filter_pathways avail lib q = Ok r /\ filter_pathways avail lib q' = Ok r' /\ incl (map fst r) (map fst r').
Proof.
  intros HL HL' (Hd & Hs & Hm & Ht). exists (answer avail lib q), (answer avail lib q').
  split; [apply legal_ok; exact HL|]. split; [apply legal_ok; exact HL'|].
  rewrite !answer_filter, !map_map. cbn [fst]. rewrite !map_id. intros row Hr. apply filter_In in Hr. destruct Hr as [Hi Hw].
  apply filter_In. split; [exact Hi|]. apply wantb_iff; [exact HL'|]. apply wantb_iff in Hw; [|exact HL].
  destruct Hw as (A & B & (m & C1 & C2) & (t & x & D1 & D2)). unfold Wanted. rewrite <- Hd. split; [exact A|]. split; [|split].
  - unfold sub in Hs. destruct (q_spectrum q) as [l|] eqn:E1, (q_spectrum q') as [l'|]; try contradiction; try exact B; [apply Hs; exact B|].
    destruct HL as (L1 & _). eapply L1; eauto.
  - unfold sub in Hm. destruct (q_materials q) as [l|] eqn:E1, (q_materials q') as [l'|]; try contradiction; try (exists m; split; auto; fail); try (exists m; split; [apply Hm; exact C1|exact C2]).
    destruct HL as (_ & _ & L3 & _). destruct (L3 l m E1 C1) as (a & Ha & Hn & _). exists a. split; [exact Ha|congruence].
  - exists t, x. split; [|exact D2]. unfold sub in Ht. unfold times_of in *. destruct (q_times q) as [l|] eqn:E1, (q_times q') as [l'|]; try contradiction; try exact D1; [apply Ht; exact D1|].
    destruct HL as (_ & _ & _ & L4). eapply L4; eauto.
Qed.
Print Assumptions C42_narrower_queries_keep_less.

(** The summary of a query: one line for each element, isotope and pathway of the rows that answer it, with the largest
    of their numbers in each column, and no other lines. *)
Theorem C42_summary_has_the_largest_values avail iso lib q s : get_pathways avail iso lib q = Ok s ->
  exists r, filter_pathways avail lib q = Ok r /\ NoDup (map fst s)
    /\ (forall k, In k (map fst s) <-> exists row vs, In (row, vs) r /\ k = (p_element row, p_isotope row, p_pathway row))
    /\ forall k vs, In (k, vs) s -> length vs = length (times_of q) /\ forall c, c < length (times_of q) ->
         exists group, (forall v, In v group <-> exists row vs', In (row, vs') r /\ (p_element row, p_isotope row, p_pathway row) = k /\ nth c vs' None = v)
           /\ Largest group (nth c vs None).
Proof.
  unfold get_pathways. intros H. destruct (filter_pathways avail lib q) as [r|] eqn:E; [|discriminate H]. cbn [bind] in H.
  exists r. split; [reflexivity|]. pose proof (ok_legal avail lib q r E) as HL. rewrite (legal_ok avail lib q HL) in E. injection E as <-.
  destruct (group_max_ok (length (times_of q)) (answer avail lib q)) as (N & K & V).
  { rewrite answer_filter. apply Forall_forall. intros x Hx. apply in_map_iff in Hx. destruct Hx as (y & <- & _). cbn [snd]. unfold at_times. rewrite map_length. reflexivity. }
  assert (exists zs, mapM (fun x : pkey * list (option Q) => do z <- get_zaidnum iso (fst (fst (fst x)) ++ snd (fst (fst x))); Ok (z, x)) (group_max (answer avail lib q)) = Ok zs /\ map snd (sort_by zs) = s) as (zs & Ez & <-).
  { clear K V N. revert H. generalize (group_max (answer avail lib q)). intros [|g0 g] H; [discriminate H|].
    match type of H with bind ?m _ = _ => destruct m as [zs|] eqn:Em; [|discriminate H] end. cbn [bind] in H. injection H as <-. exists zs. split; [exact Em|reflexivity]. }
  assert (P : Permutation (map snd (sort_by zs)) (group_max (answer avail lib q))).
  { rewrite (sort_by_perm zs). apply mapM_Forall2 in Ez. clear - Ez. induction Ez as [|x z l l' H _ IH]; [constructor|]. cbn [map].
    destruct (get_zaidnum _ _); [|discriminate H]. injection H as <-. cbn [snd]. constructor. exact IH. }
  split; [|split].
  - eapply Permutation_NoDup; [apply Permutation_sym, Permutation_map; exact P|exact N].
  - intros k. split.
    + intros Hk. apply (Permutation_in _ (Permutation_map fst P)), K in Hk. destruct Hk as ((row & vs) & Hx & Hk). exists row, vs. split; [exact Hx|symmetry; exact Hk].
    + intros (row & vs & Hx & ->). apply (Permutation_in _ (Permutation_sym (Permutation_map fst P))), K. exists (row, vs). auto.
  - intros k vs Hin. apply (Permutation_in _ P) in Hin. destruct (V k vs Hin) as [Hl Hc]. split; [exact Hl|]. intros c Hlt.
    exists (col (answer avail lib q) k c). split; [|exact (Hc c Hlt)]. intros v. unfold col. rewrite in_map_iff. split.
    + intros ((row & vs') & E & Hf). apply filter_In in Hf. destruct Hf as [Hf Hk]. apply pkey_eqb_eq in Hk. exists row, vs'. split; [exact Hf|]. split; [symmetry; exact Hk|exact E].
    + intros (row & vs' & Hf & Hk & E). exists (row, vs'). split; [exact E|]. apply filter_In. split; [exact Hf|]. apply pkey_eqb_eq. symmetry. exact Hk.
Qed.
Print Assumptions C42_summary_has_the_largest_values.

(** The lines of the summary are in the order of the texts of the ZAID numbers. *)
Theorem C42_summary_order avail iso lib q s : get_pathways avail iso lib q = Ok s ->
  exists zs, Forall2 (fun k z => get_zaidnum iso (fst (fst k) ++ snd (fst k)) = Ok z) (map fst s) zs
    /\ StronglySorted (fun a b => str_leb a b = true) zs.
Proof.
  unfold get_pathways. intros H. destruct (filter_pathways avail lib q) as [r|]; [|discriminate H]. cbn [bind] in H.
  revert H. generalize (group_max r). intros [|g0 g] H; [discriminate H|].
  match type of H with bind ?m _ = _ => destruct m as [zs|] eqn:Ez; [|discriminate H] end. cbn [bind] in H. injection H as <-.
  exists (map fst (sort_by zs)). split; [|apply sort_by_sorted].
  apply mapM_Forall2 in Ez.
  assert (G : Forall (fun x : str * (pkey * list (option Q)) => get_zaidnum iso (fst (fst (fst (snd x))) ++ snd (fst (fst (snd x)))) = Ok (fst x)) (sort_by zs)).
  { apply Forall_forall. intros x Hx. apply (Permutation_in _ (sort_by_perm zs)) in Hx. revert x Hx. apply Forall_forall.
    clear - Ez. induction Ez as [|y z l l' H _ IH]; constructor; [|exact IH]. destruct (get_zaidnum _ _) eqn:E; [|discriminate H]. injection H as <-. cbn [fst snd]. exact E. }
  clear - G. induction G; cbn [map]; constructor; auto.
Qed.
Print Assumptions C42_summary_order.

(** That is the order of the numbers as long as the texts have the same length, as for elements 10 to 99
    (hence for all isotopes of the shipped library), *)
Theorem C42_numeric_order zs n : Forall (fun z => digits z /\ length z = n) zs -> StronglySorted (fun a b => str_leb a b = true) zs ->
  StronglySorted N.le (map num_of zs).
Proof.
  intros Hd HS. induction HS as [|z zs _ IH HF]; cbn [map]; [constructor|]. inversion Hd as [|? ? [Hz Hl] Hd2]; subst. constructor; [auto|].
  apply Forall_map. rewrite Forall_forall in *. intros b Hb. destruct (Hd2 b Hb) as [Hb1 Hb2]. apply str_leb_num; auto.
Qed.
Print Assumptions C42_numeric_order.

(** A table given to the constructor is changed by it, so that it cannot be used again. *)
Theorem C42_table_reused_refuted df lib df' : new_library df = Ok (lib, df') -> new_library df' = Err KeyError.
Proof. unfold new_library. destruct (fr_state df); [|discriminate]. intros H. injection H as <- <-. reflexivity. Qed.
Print Assumptions C42_table_reused_refuted.

(** Every row of the table becomes a row of the library; mass number and state are joined. *)
Theorem C42_library_rows df lib df' : new_library df = Ok (lib, df') ->
  (forall r, In r (fr_rows df) -> digits (w_isotope r) /\ (w_state r = None \/ w_state r = Some (s2l "m"))) ->
  Forall2 (fun r p => p_dose p = w_dose r /\ p_spectrum p = w_spectrum r /\ p_element p = w_element r /\ p_pathway p = w_pathway r
                      /\ p_material p = w_material r /\ p_vals p = w_vals r
                      /\ p_isotope p = w_isotope r ++ match w_state r with Some s => s | None => [] end) (fr_rows df) lib.
Proof.
  unfold new_library. destruct (fr_state df); [|discriminate]. intros H. injection H as <- _. intros Hr.
  induction (fr_rows df) as [|r l IH]; cbn [map]; constructor; [|apply IH; intros x Hx; apply Hr; right; exact Hx].
  repeat split; auto. cbn [p_isotope]. unfold joined. destruct (Hr r (or_introl eq_refl)) as [Hd Hs].
  assert (G : forall a tail, digits a -> remove_nan 0 (a ++ tail) = a ++ remove_nan 0 tail).
  { induction a as [|c a IHa]; intros tail Ha; [reflexivity|]. inversion Ha; subst. cbn [app remove_nan].
    destruct (str_eqb (firstn 3 (c :: a ++ tail)) (s2l "nan")) eqn:E.
    - apply str_eqb_eq in E. cbn [firstn] in E. change (s2l "nan") with ["n"%char; "a"%char; "n"%char] in E.
      assert (c = "n"%char) by congruence. subst c. discriminate.
    - rewrite IHa by assumption. reflexivity. }
  rewrite G by exact Hd. destruct Hs as [-> | ->]; reflexivity.
Qed.
Print Assumptions C42_library_rows.

(** *** Examples *)
Definition c42_mats : list matcomp := [mkMat (s2l "Concrete") [60; 40]%Q [s2l "O"; s2l "Si"]; mkMat (s2l "Pure Silver") [100]%Q [s2l "Ag"]].
Definition c42_raw (sp el is : string) (st : option str) (m : string) (v : list (option Q)) : rawrow :=
  mkRaw (s2l sp) (s2l "Dose 95%") (s2l el) (s2l is) st (s2l "p") (s2l m) v.
Definition c42_frame : frame := mkFrame true
  [c42_raw "First Wall (315g)" "Co" "60" None "Concrete" [None; None; Some 3; None; None; None]%Q;
   c42_raw "First Wall (315g)" "Co" "60" None "Pure Silver" [None; None; Some 7; None; None; None]%Q;
   c42_raw "First Wall (315g)" "Co" "60" (Some (s2l "m")) "Concrete" [None; None; None; None; None; Some 1]%Q;
   c42_raw "First Wall (315g)" "Be" "10" None "Concrete" [None; None; Some 2; None; None; None]%Q].
Definition c42_lib : list prow := match new_library c42_frame with Ok (l, _) => l | Err _ => [] end.
Definition c42_q : query := mkQuery (Some [s2l "First Wall (315g)"]) 95 None (Some [s2l "30d"; s2l "1y"]).
(** two isotopes answer the query, cobalt with the larger of its two numbers *)
Example C42_witness : Legal c42_mats c42_q /\ ~ Legal c42_mats (mkQuery None 90 None None)
  /\ ~ Legal c42_mats (mkQuery None 95 (Some [mkMat (s2l "Concrete") [100]%Q [s2l "O"]]) None)
  /\ Narrower c42_q (mkQuery None 95 None None)
  /\ map p_isotope c42_lib = map s2l ["60"; "60"; "60m"; "10"]%string
  /\ exists s, get_pathways c42_mats shipped c42_lib c42_q = Ok s /\
       s = [((s2l "Co", s2l "60", s2l "p"), [Some 7%Q; None]); ((s2l "Be", s2l "10", s2l "p"), [Some 2%Q; None])].
Proof.
  split; [|split; [|split; [|split; [|split]]]].
  - repeat split; cbn.
    + intros l s H. injection H as <-. intros [<-|[]]. auto.
    + auto.
    + discriminate.
    + intros l s H. injection H as <-. intros [<-|[<-|[]]]; auto 10.
  - intros (_ & [H|H] & _); discriminate H.
  - intros (_ & _ & H & _). destruct (H _ _ eq_refl (or_introl eq_refl)) as (a & [<-|[<-|[]]] & E1 & E2 & E3); cbn in *; discriminate.
  - repeat split; exact I.
  - reflexivity.
  - eexists. split; [vm_compute; reflexivity|reflexivity].
Qed.
(** Beryllium (4010) comes after cobalt (27060) there: the order is the one of the texts, not of the numbers. *)
Example C42_text_order_refuted : exists s, get_pathways c42_mats shipped c42_lib c42_q = Ok s /\ map (fun x => fst (fst (fst x))) s = [s2l "Co"; s2l "Be"].
Proof. eexists. split; [vm_compute; reflexivity|reflexivity]. Qed.
