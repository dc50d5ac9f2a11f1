(** C126, C127: the life of an input, runs of renumberings. *)
From Coq Require Import Lia ZArith QArith.
From Verif Require Import PyBase PyStr PyText LibModel MatModel InpModel InpSpec InpExamples LookModel LifeSpec LifeProofs LifeExt LifeProofs2.
Open Scope nat_scope.

(** ** C126 *)
(** whatever is done to an input in order, it stays in order: one key per card, one card per key, every key the number that
    the card prints and is named by *)
Theorem C126_input_stays_in_order : forall h a h' a', history h a h' a' -> good h a -> good h' a'.
Proof. exact history_good. Qed.
Print Assumptions C126_input_stays_in_order.
(** so a number leads to its card at any moment *)
Theorem C126_number_leads_to_its_card : forall h a h' a' key l, history h a h' a' -> good h a -> In (key, l) (i_cells a') ->
  dget str_eqb key (i_cells a') = Some l /\
  exists c n, nth_error h' l = Some c /\ key = str_of_Z n /\ c_name c = Some n /\ card_key c = Ok key /\ exists vs, c_values c = (n, Kcel) :: vs.
Proof. exact number_leads. Qed.
Print Assumptions C126_number_leads_to_its_card.
(** a merge of inputs in order with different keys never raises and keeps all cells and surfaces *)
Theorem C126_merge_in_order : forall h a b, good h a -> good h b ->
  disjoint_keys (i_cells a) (i_cells b) -> disjoint_keys (i_surfs a) (i_surfs b) -> disjoint_keys (i_trans a) (i_trans b) ->
  exists a', merge h a b = ((h, a'), None) /\ i_cells a' = i_cells a ++ i_cells b /\ i_surfs a' = i_surfs a ++ i_surfs b.
Proof. exact merge_runs. Qed.
Print Assumptions C126_merge_in_order.
(** the keys do not show that a surface is there twice: "*11" and "11" are accepted together *)
Theorem C126_surface_twice_refuted : exists h a b h' a', good h a /\ good h b /\ (forall l, In l (input_locs a) -> ~ In l (input_locs b)) /\
  merge h a b = ((h', a'), None) /\ ~ good h' a'.
Proof. exists v_heap, v_inp1, v_inp2. eexists. eexists. split; [exact v_good1|]. split; [exact v_good2|]. split; [intros l [<-|[]] [X|[]]; discriminate X|]. split; [vm_compute; reflexivity|].
  intros [_ [[_ [_ U]] _]]. assert (E : 0 = 1). { eapply (U (s2l "*11") 0 (s2l "11") 1); try (vm_compute; reflexivity); cbn; tauto. } discriminate E. Qed.
Print Assumptions C126_surface_twice_refuted.
(** an input extracted from an input in order, renumbered on the way or not, is in order; so is, without renumbering, the input
    it was extracted from *)
Theorem C126_extracted_input_in_order : forall fuel h a req keep_u fillers h' b, good h a -> (keep_u = false -> print_stripped h a req) ->
  extract_cells fuel h a req None keep_u fillers = Ok (Some (h', b)) -> good h' b /\ good h' a.
Proof. exact extract_good. Qed.
Print Assumptions C126_extracted_input_in_order.
Theorem C126_extracted_renumbered_in_order : forall fuel h a req o keep_u fillers h' b, good h a -> (keep_u = false -> print_stripped h a req) ->
  (forall n, has_number h (i_cells a) n -> ~ moves_to_zero (o_cel o) n) -> (forall n, has_number h (i_surfs a) n -> ~ moves_to_zero (o_sur o) n) ->
  extract_cells fuel h a req (Some (o, true)) keep_u fillers = Ok (Some (h', b)) -> good h' b.
Proof. exact extract_renumber_good. Qed.
Print Assumptions C126_extracted_renumbered_in_order.
Example C126_witness_extraction : exists h' b, extract_cells 5 x_heap x_inp [2%Z; 3%Z] (Some (renum_all 100, true)) false true = Ok (Some (h', b)) /\ good x_heap x_inp /\ print_stripped x_heap x_inp [2%Z; 3%Z] /\
  (forall n, has_number x_heap (i_cells x_inp) n -> ~ moves_to_zero (o_cel (renum_all 100)) n) /\ (forall n, has_number x_heap (i_surfs x_inp) n -> ~ moves_to_zero (o_sur (renum_all 100)) n) /\
  map fst (i_cells b) = [s2l "101"; s2l "102"; s2l "103"] /\ map fst (i_surfs b) = [s2l "110"; s2l "*111"] /\ good h' b.
Proof. exact extract_witness. Qed.
Example C126_witness : exists h' a', history x_heap x_inp h' a' /\ good x_heap x_inp /\ map fst (i_cells a') = [s2l "101"; s2l "102"; s2l "103"; s2l "104"; s2l "7"] /\ map fst (i_surfs a') = [s2l "110"; s2l "*111"; s2l "112"].
Proof. exact life_witness. Qed.

(** ** C127 *)
(** after any run of renumberings every cell and every surface is in its place, with each of its numbers moved by the sum of
    the offsets given for its type *)
Theorem C127_offsets_add_up : forall os h a h' a', good h a -> renumber_run os h a = Ok (h', a') ->
  (forall l c v, In l (locs (i_cells a) ++ locs (i_surfs a)) -> nth_error h l = Some c -> In v (c_values c) -> never_zero os v) ->
  good h' a' /\ block_moved Kcel [[]] os h h' (i_cells a) (i_cells a') /\ block_moved Ksur surf_marks os h h' (i_surfs a) (i_surfs a') /\ i_mats a' = i_mats a.
Proof. exact run_moved. Qed.
Print Assumptions C127_offsets_add_up.
(** offsets that cancel bring the cells and the surfaces back, cards and keys *)
Theorem C127_cancelling_offsets : forall os h a h' a', good h a -> renumber_run os h a = Ok (h', a') -> (forall k, total k os = 0%Z) ->
  (forall l c v, In l (locs (i_cells a) ++ locs (i_surfs a)) -> nth_error h l = Some c -> In v (c_values c) -> never_zero os v) ->
  i_cells a' = i_cells a /\ i_surfs a' = i_surfs a /\ (forall l, In l (locs (i_cells a) ++ locs (i_surfs a)) -> nth_error h' l = nth_error h l).
Proof. intros os h a h' a' G R T NZ. destruct (run_moved os h a h' a' G R NZ) as [_ [BC [BS _]]].
  destruct (block_back _ _ _ _ _ _ _ T BC) as [E1 F1]. destruct (block_back _ _ _ _ _ _ _ T BS) as [E2 F2].
  split; [exact E1|]. split; [exact E2|]. intros l Q. apply in_app_or in Q as [Q|Q]; [now apply F1|now apply F2]. Qed.
Print Assumptions C127_cancelling_offsets.
(** a number that reaches zero on the way stays zero: minus one, then plus one, does not bring cell 1 back *)
Theorem C127_zero_is_absorbed_refuted : exists os h a h' a', good h a /\ renumber_run os h a = Ok (h', a') /\ (forall k, total k os = 0%Z) /\ i_cells a' <> i_cells a.
Proof. exists [renum_all (-1); renum_all 1], x_heap, x_inp. eexists. eexists. split; [exact x_good|]. split; [vm_compute; reflexivity|]. split; [intros []; reflexivity|]. vm_compute. discriminate. Qed.
Print Assumptions C127_zero_is_absorbed_refuted.
Example C127_witness : exists h' a', renumber_run [renum_all 100; mkOff (Some 5%Z) None None None] x_heap x_inp = Ok (h', a') /\ good x_heap x_inp /\
  (forall l c v, In l (locs (i_cells x_inp) ++ locs (i_surfs x_inp)) -> nth_error x_heap l = Some c -> In v (c_values c) -> never_zero [renum_all 100; mkOff (Some 5%Z) None None None] v) /\
  map fst (i_cells a') = [s2l "106"; s2l "107"; s2l "108"; s2l "109"].
Proof. exact run_witness. Qed.
