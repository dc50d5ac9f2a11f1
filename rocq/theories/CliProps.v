(** C13: the f4enix_ww command line session. *)
From Verif Require Import PyBase PyLemmas PyStr PyText CliModel CliSpec D1SProofs2 CliProofs.
Open Scope nat_scope.

(** A concrete environment: a window is the log of the calls that made it; files are
    found unless their name starts with "?"; removing from a fresh file is rejected. *)
Definition log_env : env := mkenv (list (str * list Q))
  (fun p => match p with c :: _ => if Ascii.eqb c "?" then Err FileNotFoundError else Ok [(p, [])] | [] => Err FileNotFoundError end)
  (fun p t m => Ok [(p, [t; m])])
  (fun w s => Ok ((s2l "soften", [s]) :: w))
  (fun w n s => Ok ((s2l "add", [n; s]) :: w))
  (fun w => match w with [_] => Err ValueError | _ => Ok ((s2l "remove", []) :: w) end)
  (fun w r => Ok ((s2l "mitigate", [r]) :: w))
  (fun _ _ => Ok tt).

Definition lwin (n : str) (w : list (str * list Q)) : lw log_env := @mklw log_env n w.

(** Whatever is typed, no loaded window is ever lost, names stay unique, and each window
    is the result of loading a file, making a GVR, or applying the operations to another
    window. *)
Theorem C13_windows_are_kept_and_genuine : forall E inp,
  let ws := windows_after (menu E inp) in
  NoDup (dkeys ws) /\ Forall (fun kw => made E (l_win (snd kw))) ws.
Proof. intros E inp. destruct (session_fine E (length inp) [] inp (NoDup_nil _)) as [[K _] [M _]]. split; [apply K; constructor|]. apply M; constructor. Qed.
Print Assumptions C13_windows_are_kept_and_genuine.
Theorem C13_no_loaded_window_is_lost : forall E fuel ws inp, NoDup (dkeys ws) ->
  forall k, In k (dkeys ws) -> In k (dkeys (windows_after (session E fuel ws inp))).
Proof. intros E fuel ws inp ND. destruct (session_fine E fuel ws inp ND) as [[_ K] _]. exact K. Qed.
Print Assumptions C13_no_loaded_window_is_lost.
(** the bound on the number of menu rounds in [menu] is no restriction *)
Theorem C13_rounds_bound_is_harmless : forall E inp fuel, length inp <= fuel -> session E fuel [] inp = menu E inp.
Proof. intros E inp fuel H. apply session_fuel; [constructor|exact H|lia]. Qed.
Print Assumptions C13_rounds_bound_is_harmless.

(** An operation (soften, add, remove, mitigate) that completes stores the result of that
    operation on the selected window under the stem of "<name><suffix>" and changes nothing
    else; one that raises or is still asking changes nothing at all. *)
Theorem C13_operation_changes_one_name : forall E o ws inp, NoDup (dkeys ws) ->
  match handle_op E o ws inp with
  | HOk _ ws' _ => (ws = [] /\ ws' = []) \/
      exists k w qs w', dget str_eqb k ws = Some w /\ op_run E o qs (l_win w) = Ok w' /\
        (exists nw, dget str_eqb (stem_of_name (k ++ op_suffix o)) ws' = Some nw /\ l_win nw = w') /\
        forall k', k' <> stem_of_name (k ++ op_suffix o) -> dget str_eqb k' ws' = dget str_eqb k' ws
  | r => windows_after r = ws
  end.
Proof. intros E o ws inp ND. destruct (derive_facts E (op_args o) (op_run E o) (op_suffix o) ws inp ND) as [H _]. unfold handle_op.
  destruct (derive E _ _ _ ws inp) as [u ws' i|e ws' i|ws'|ws']; simpl.
  - destruct H as [[-> ->]|(k & w & qs & w' & _ & G & _ & O & ->)]; [left; auto|right]. exists k, w, qs, w'. split; [exact G|]. split; [exact O|]. split.
    + eexists. split; [apply (dget_dset_same str_eqb str_eqb_eq)|reflexivity].
    + intros k' Hk. apply (dget_dset_other str_eqb str_eqb_eq). exact Hk.
  - apply H.
  - exact H.
  - destruct H. Qed.
Print Assumptions C13_operation_changes_one_name.
(** For a name without dots that new name is "<name><suffix>", never the old name. *)
Theorem C13_new_name_is_fresh_for_its_source : forall k o, dotless k ->
  stem_of_name (k ++ op_suffix o) = k ++ op_suffix o /\ stem_of_name (k ++ op_suffix o) <> k.
Proof. intros k o H. assert (D : dotless (k ++ op_suffix o)).
  { intros X. apply in_app_or in X. destruct X as [X|X]; [exact (H X)|exact (suffix_dotless o X)]. }
  rewrite (stem_dotless _ D). split; [reflexivity|apply suffix_ne]. Qed.
Print Assumptions C13_new_name_is_fresh_for_its_source.
(** info, write, vtk and plot change no window *)
Theorem C13_looking_changes_nothing : forall E c ws inp, windows_after (handle_look E c ws inp) = ws.
Proof. intros. apply look_fine. Qed.
Print Assumptions C13_looking_changes_nothing.

(** If the operations only raise ValueError (FileNotFoundError for files), nothing the
    user types ends the session with an exception, except the word "empty". *)
Theorem C13_session_never_crashes : forall E inp, tame E -> Forall (fun s => lower_str s <> s2l "empty") inp -> ~ crashed (menu E inp).
Proof. intros E inp T H. apply session_no_crash; [exact T|constructor|exact H]. Qed.
Print Assumptions C13_session_never_crashes.
Theorem C13_empty_ends_the_session_refuted : forall E r, menu E (s2l "empty" :: r) = HErr KeyError [] r.
Proof. intros. reflexivity. Qed.
Print Assumptions C13_empty_ends_the_session_refuted.

(** The ratio typed for a GVR is passed as the tally number; the maximum splitting ratio
    is always 5. *)
Theorem C13_typed_splitting_ratio_used_refuted : forall E ws p ratio soft r w w',
  dget str_eqb (stem_of_name (path_name p)) ws = None ->
  e_gvr E p (float_or 5 ratio) 5 = Ok w -> e_soften E w (float_or 1 soft) = Ok w' ->
  main_command E (s2l "gvr") ws (p :: ratio :: soft :: r) =
    HOk tt (dset str_eqb (stem_of_name (path_name p)) (mklw (path_name p) w') ws) r.
Proof. intros E ws p ratio soft r w w' D G S. unfold main_command. cbn [str_eqb s2l list_ascii_of_string Ascii.eqb Bool.eqb andb is_look orb length handle_gvr].
  unfold dmem. rewrite D. cbn [hinput hbind]. rewrite G. cbn [bind]. rewrite S. reflexivity. Qed.
Print Assumptions C13_typed_splitting_ratio_used_refuted.

(** A name with a dot: softening "a.b" replaces the unrelated window "a". *)
Theorem C13_dotted_name_replaces_another_refuted : exists inp,
  let before := windows_after (menu log_env (firstn 4 inp)) in let after := windows_after (menu log_env inp) in
  dget str_eqb (s2l "a") before = Some (lwin (s2l "a") [(s2l "a", [])]) /\
  dget str_eqb (s2l "a.b") before = Some (lwin (s2l "a.b.ww") [(s2l "a.b.ww", [])]) /\
  dget str_eqb (s2l "a") after = Some (lwin (s2l "a.b_softened") [(s2l "soften", [2%Q]); (s2l "a.b.ww", [])]).
Proof. exists (map s2l ["open"; "a"; "open"; "a.b.ww"; "operate"; "soft"; "2"; "2"])%string. vm_compute. repeat split. Qed.
Print Assumptions C13_dotted_name_replaces_another_refuted.
(** Opening a file whose stem is already loaded asks for another file, then replaces the
    loaded window by the first one all the same. *)
Theorem C13_reopening_replaces_refuted : exists inp,
  let before := windows_after (menu log_env (firstn 2 inp)) in let after := windows_after (menu log_env inp) in
  dget str_eqb (s2l "ww") before = Some (lwin (s2l "ww") [(s2l "x/ww", [])]) /\
  dget str_eqb (s2l "ww") after = Some (lwin (s2l "ww") [(s2l "y/ww", [])]) /\ dkeys after = [s2l "ww"; s2l "z"].
Proof. exists (map s2l ["open"; "x/ww"; "open"; "y/ww"; "z"])%string. vm_compute. repeat split. Qed.
Print Assumptions C13_reopening_replaces_refuted.

Example C13_witness : tame log_env /\ Forall (fun s => lower_str s <> s2l "empty") (map s2l ["OPEN"; "a"; "bogus"; "operate"; "remove"; "soft"; "x"; "soft"; "2"; "info"; "7"; "1"; "end"])%string /\
  exists ws, menu log_env (map s2l ["OPEN"; "a"; "bogus"; "operate"; "remove"; "soft"; "x"; "soft"; "2"; "info"; "7"; "1"; "end"])%string = HExit ws /\
    dkeys ws = [s2l "a"; s2l "a_softened"] /\
    dget str_eqb (s2l "a_softened") ws = Some (lwin (s2l "a_softened") [(s2l "soften", [2%Q]); (s2l "a", [])]).
Proof. split; [|split].
  - unfold tame, log_env. cbn [e_load e_gvr e_soften e_add e_remove e_mitigate e_look W]. repeat split; intros; try discriminate.
    + destruct p; [right; congruence|]. destruct (Ascii.eqb _ _); [right; congruence|discriminate].
    + destruct w as [|x [|y w]]; congruence.
  - repeat (apply Forall_cons; [discriminate|]); apply Forall_nil.
  - eexists. split; [vm_compute; reflexivity|]. vm_compute. split; reflexivity. Qed.
