(** C128: the dictionary of cards. *)
From Coq Require Import Lia ZArith.
From Verif Require Import PyBase PyStr PyText InpModel InpSpec InpExamples CardsModel CardsSpec CardsProofs.
Open Scope nat_scope.

(** ** C128 *)
(** whatever a script does with assignments, updates and deletions, and whatever raises on the way: every key is the number of
    its card *)
Theorem C128_keys_name_their_cards : forall k os h d, named h -> tidy h d -> careful k h d os ->
  let s := run_ops k h d os in named (fst s) /\ tidy (fst s) (snd s).
Proof. exact run_tidy. Qed.
Print Assumptions C128_keys_name_their_cards.
(** an assignment is accepted exactly when the key is a string and the value a card, and the key reads as a number (a card without
    number is also accepted under the word None); otherwise it is a ValueError *)
Theorem C128_what_is_accepted : forall k h d key v, (exists s, cset k h d key v = Ok s) <-> fit h key v.
Proof. exact cset_fit. Qed.
Print Assumptions C128_what_is_accepted.
Theorem C128_rejected_with_value_error : forall k h d key v e, cset k h d key v = Err e -> (forall l, v = VC l -> l < length h) -> e = ValueError.
Proof. exact cset_rejects. Qed.
Print Assumptions C128_rejected_with_value_error.
(** the card takes the number of the key, in its name and in its values, and keeps its text template *)
Theorem C128_card_takes_the_number : forall k h d s l h' d' c, cset k h d (KS s) (VC l) = Ok (h', d') -> nth_error h l = Some c -> self_named k c ->
  exists c' n, nth_error h' l = Some c' /\ parse_int (key_num s) = Ok n /\ c_name c' = Some n /\ first_of k (c_values c') = Some n /\ c_input c' = c_input c /\ c_hidden c' = c_hidden c.
Proof. exact cset_number. Qed.
Print Assumptions C128_card_takes_the_number.
(** an update that does not raise adds its items, replaces the values of the keys that were there and touches no other card *)
Theorem C128_update_done : forall k h d items s, named h -> NoDup (map fst d) -> cupdate k h d items = (s, None) ->
  (forall key v, In (key, v) (snd s) <-> In (key, v) (py_dict items) \/ (~ In key (map fst (py_dict items)) /\ In (key, v) d)) /\
  length (fst s) = length h /\ (forall l, ~ In (VC l) (map snd (py_dict items)) -> nth_error (fst s) l = nth_error h l).
Proof. intros k h d items s NM N H. exact (cset_all_done _ _ _ _ _ NM (py_dict_nodup items) N H). Qed.
Print Assumptions C128_update_done.
(** an update that raises has stored the items before the one that is at fault, and nothing else *)
Theorem C128_update_stops : forall k h d items s e, cupdate k h d items = (s, Some e) ->
  exists pre key v post, py_dict items = pre ++ (key, v) :: post /\ cset_all k h d pre = (s, None) /\ cset k (fst s) (snd s) key v = Err e.
Proof. intros k h d items s e H. exact (cset_all_stops _ _ _ _ _ _ H). Qed.
Print Assumptions C128_update_stops.
(** setdefault: an entry that is there stays; another one is stored, with no check and no change of its card.  |=: the items are
    stored, the last one for each key, with no change of the cards.  pop and del remove one entry; popitem the last one. *)
Theorem C128_unchecked_methods : forall k h d,
  (forall key v, snd (do_op k h d (OSetdefault key v)) = None /\ fst (fst (do_op k h d (OSetdefault key v))) = h /\
     (In key (map fst d) -> snd (fst (do_op k h d (OSetdefault key v))) = d) /\
     (~ In key (map fst d) -> forall e, In e (snd (fst (do_op k h d (OSetdefault key v)))) <-> In e d \/ e = (key, v))) /\
  (forall items, snd (do_op k h d (OOr items)) = None /\ fst (fst (do_op k h d (OOr items))) = h /\
     forall key, In key (map fst (snd (fst (do_op k h d (OOr items))))) <-> In key (map fst d) \/ In key (map fst items)) /\
  (forall key, NoDup (map fst d) -> In key (map fst d) -> snd (do_op k h d (ODel key)) = None /\ fst (fst (do_op k h d (ODel key))) = h /\
     do_op k h d (OPop key) = do_op k h d (ODel key) /\
     forall e, In e (snd (fst (do_op k h d (ODel key)))) <-> In e d /\ fst e <> key) /\
  (forall key, ~ In key (map fst d) -> do_op k h d (ODel key) = ((h, d), Some KeyError) /\ do_op k h d (OPop key) = ((h, d), Some KeyError)).
Proof. exact unchecked. Qed.
Print Assumptions C128_unchecked_methods.
(** three ways around the check: setdefault, |=, and one card under two keys *)
Theorem C128_setdefault_is_not_checked_refuted : named k_heap /\ tidy k_heap k_store /\ exists o, ~ checked o /\ apart k_store [(KS (s2l "12"), VC 1)] /\ o = OSetdefault (KS (s2l "12")) (VC 1) /\
  let s := run_ops Ksur k_heap k_store [o] in ~ tidy (fst s) (snd s).
Proof. split; [intros [|[|[|l]]] c A; vm_compute in A; [injection A as <-; discriminate|injection A as <-; discriminate|discriminate|discriminate]|].
  split. { split; [repeat constructor; intros []|]. split; [repeat constructor; intros []|]. intros key v [E|[]]. injection E as <- <-. exists (s2l "10"), 0, x_s10, 10%Z. repeat split; reflexivity. }
  eexists. split; [|split; [|split; [reflexivity|]]]; [intros []| |].
  - intros key l [E|[]] key' [[F|[]]|[F|[]]]; congruence.
  - cbv zeta. intros [_ [_ G]]. destruct (G (KS (s2l "12")) (VC 1)) as [s [l [c [n [E1 [E2 [A [B P]]]]]]]]; [right; left; reflexivity|]. injection E1 as <-. injection E2 as <-. vm_compute in A. injection A as <-. vm_compute in B. injection B as <-. vm_compute in P. discriminate P. Qed.
Print Assumptions C128_setdefault_is_not_checked_refuted.
Theorem C128_or_is_not_checked_refuted : named k_heap /\ tidy k_heap k_store /\ let s := run_ops Ksur k_heap k_store [OOr [(KX 3, VX 7)]] in ~ tidy (fst s) (snd s).
Proof. split; [exact (proj1 C128_setdefault_is_not_checked_refuted)|]. split; [exact (proj1 (proj2 C128_setdefault_is_not_checked_refuted))|]. cbv zeta. intros [_ [_ G]].
  destruct (G (KX 3) (VX 7)) as [s [l [c [n [E _]]]]]; [right; left; reflexivity|]. discriminate E. Qed.
Print Assumptions C128_or_is_not_checked_refuted.
Theorem C128_one_card_two_keys_refuted : named k_heap /\ tidy k_heap k_store /\ let s := run_ops Ksur k_heap k_store [OSet (KS (s2l "12")) (VC 0)] in
  (exists c, In (KS (s2l "10"), VC 0) (snd s) /\ nth_error (fst s) 0 = Some c /\ c_name c = Some 12%Z) /\ ~ tidy (fst s) (snd s).
Proof. split; [exact (proj1 C128_setdefault_is_not_checked_refuted)|]. split; [exact (proj1 (proj2 C128_setdefault_is_not_checked_refuted))|]. cbv zeta. split; [eexists; vm_compute; repeat split; left; reflexivity|].
  intros [_ [M _]]. vm_compute in M. inversion M as [|? ? M1 _]. apply M1. left. reflexivity. Qed.
Print Assumptions C128_one_card_two_keys_refuted.
(** a script: a new card under another number, an update that raises at its second item (a number as key), a deletion *)
Example C128_witness : named (k_heap ++ [x_s12]) /\ tidy (k_heap ++ [x_s12]) k_store /\ careful Ksur (k_heap ++ [x_s12]) k_store k_ops /\
  let s := run_ops Ksur (k_heap ++ [x_s12]) k_store k_ops in snd s = [(KS (s2l "*21"), VC 1); (KS (s2l "30"), VC 2)] /\ map c_name (fst s) = [Some 10; Some 21; Some 30]%Z.
Proof. split; [intros [|[|[|[|l]]]] c A; vm_compute in A; first [discriminate A|injection A as <-; discriminate]|].
  split. { split; [repeat constructor; intros []|]. split; [repeat constructor; intros []|]. intros key v [E|[]]. injection E as <- <-. exists (s2l "10"), 0, x_s10, 10%Z. repeat split; reflexivity. }
  split; [|split; vm_compute; reflexivity].
  cbn [careful k_ops]. split; [exact I|]. split; [intros key l [E|[]] key' [[F|[]]|[F|[]]]; congruence|]. split; [exact I|]. split.
  { intros key l Q key' Q'. vm_compute in Q, Q'. destruct Q as [E|[E|[]]]; try discriminate E; injection E as <- <-; destruct Q' as [[F|[F|[]]]|[F|[F|[]]]]; try discriminate F; try (injection F as <-; reflexivity); vm_compute in F; congruence. }
  split; [exact I|]. split; [intros ? ? []|]. split; [exact I|]. split; [|exact I].
  intros key l [E|[]] key' Q'. injection E as <- <-. vm_compute in Q'. destruct Q' as [[F|[F|[]]]|[F|[]]]; try discriminate F. injection F as <-. reflexivity. Qed.
