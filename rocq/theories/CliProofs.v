From Verif Require Import PyBase PyLemmas PyStr PyStrLemmas PyText D1SProofs2 CliModel CliSpec.
Open Scope nat_scope.

Definition suf (i inp : list str) : Prop := exists p, inp = p ++ i.
Lemma suf_refl i : suf i i. Proof. exists []. reflexivity. Qed.
Lemma suf_nil i : suf [] i. Proof. exists i. now rewrite app_nil_r. Qed.
Lemma suf_cons x i inp : suf i inp -> suf i (x :: inp). Proof. intros [p ->]. exists (x :: p). reflexivity. Qed.
Lemma suf_trans a b c : suf a b -> suf b c -> suf a c. Proof. intros [p ->] [q ->]. exists (q ++ p). now rewrite app_assoc. Qed.
Lemma suf_len i inp : suf i inp -> (length i <= length inp). Proof. intros [p ->]. rewrite app_length. lia. Qed.
Lemma suf_Forall P i inp : suf i inp -> Forall P inp -> Forall P i. Proof. intros [p ->] H. apply Forall_app in H. tauto. Qed.
#[export] Hint Resolve suf_refl suf_nil suf_cons : core.


Lemma parse_int_err s e : parse_int s = Err e -> e = ValueError.
Proof. unfold parse_int. destruct (take_sign s) as [b s1]. destruct (span_digits s1) as [[|c ds] [|d r]]; congruence. Qed.
Lemma parse_float_err s e : parse_float s = Err e -> e = ValueError.
Proof. unfold parse_float. destruct (take_sign s) as [b s1]. destruct (span_digits s1) as [ip r1].
  destruct (match r1 with [] => _ | _ => _ end) as [fp r2]. destruct (ip ++ fp) as [|c ds]; [congruence|].
  destruct (parse_exp r2) as [z|e'] eqn:X; simpl; [discriminate|]. intros H. injection H as <-. unfold parse_exp in X. destruct r2; [discriminate|].
  destruct (_ || _); [now apply parse_int_err in X|congruence]. Qed.

#[export] Hint Resolve suf_trans : suf.
Ltac sf := first [lia | solve [simpl in *; eauto 8 using suf_refl, suf_nil, suf_cons, suf_trans] | solve [simpl; auto; try lia]].
Section P.
Context (E : env).
Notation wins := (wins E).

Lemma select_facts ws inp : match select_key E ws inp with
  | HOk None ws' i => ws = [] /\ ws' = ws /\ i = inp
  | HOk (Some k) ws' i => ws' = ws /\ In k (dkeys ws) /\ suf i inp
  | HErr _ _ _ | HExit _ => False
  | HWait ws' => ws' = ws end.
Proof. unfold select_key. destruct ws as [|[k w] ws]; [auto|]. destruct ws as [|kw ws]; [simpl; auto|].
  set (WS := (k, w) :: kw :: ws). induction inp as [|s r IH]; cbn [ask_number hbind]; [reflexivity|].
  assert (G : match hbind E (ask_number E WS r) (fun k ws i => HOk (Some k) ws i) with
     | HOk None ws' i => WS = [] /\ ws' = WS /\ i = s :: r | HOk (Some k) ws' i => ws' = WS /\ In k (dkeys WS) /\ suf i (s :: r)
     | HErr _ _ _ | HExit _ => False | HWait ws' => ws' = WS end).
  { destruct (hbind E (ask_number E WS r) _) as [[k'|] ws' i| | |] eqn:X; auto.
    - destruct IH as (A & B & C). repeat split; auto.
    - destruct IH as (A & _). discriminate. }
  destruct (isdigit s); [|exact G]. destruct (num_of s) as [|n]; [exact G|]. destruct (nth_error (dkeys WS) _) as [k'|] eqn:N; [|exact G].
  cbn [hbind]. split; [reflexivity|]. split; [now apply nth_error_In in N|simpl; sf]. Qed.

Lemma floats_facts n : forall ws inp, match ask_floats E n ws inp with
  | HOk qs ws' i => ws' = ws /\ suf i inp /\ length qs = n
  | HErr e ws' i => ws' = ws /\ suf i inp /\ e = ValueError
  | HWait ws' => ws' = ws | HExit _ => False end.
Proof. induction n as [|n IH]; intros ws inp; cbn [ask_floats]; [auto|].
  destruct inp as [|s r]; cbn [hinput hbind]; [reflexivity|].
  destruct (parse_float s) as [q|e] eqn:P; cbn [hlift hbind].
  - specialize (IH ws r). destruct (ask_floats E n ws r) as [qs ws' i|e ws' i|ws'|ws']; cbn [hbind]; auto.
    + destruct IH as (A & B & C). simpl. repeat split; auto; sf.
    + destruct IH as (A & B & C). simpl. repeat split; auto; sf.
  - split; [reflexivity|]. split; [auto|]. now apply parse_float_err in P. Qed.

(** what an operation does *)
Lemma derive_facts n op suffix ws inp : NoDup (dkeys ws) -> match derive E n op suffix ws inp with
  | HOk _ ws' i => (ws' = ws /\ ws = []) \/
      (exists k w qs w', In k (dkeys ws) /\ dget str_eqb k ws = Some w /\ length qs = n /\ op qs (l_win w) = Ok w' /\
         ws' = put E (stem_of_name (k ++ suffix)) (mklw (k ++ suffix) w') ws)
  | HErr e ws' i => ws' = ws /\ suf i inp /\ (e = ValueError \/ exists k w qs, dget str_eqb k ws = Some w /\ op qs (l_win w) = Err e /\ length qs = n)
  | HWait ws' => ws' = ws | HExit _ => False end /\ match derive E n op suffix ws inp with HOk _ _ i => suf i inp | _ => True end.
Proof. intros ND. unfold derive. pose proof (select_facts ws inp) as S. destruct (select_key E ws inp) as [[k|] ws1 i1|e ws1 i1|ws1|ws1]; cbn [hbind]; try tauto.
  - destruct S as (-> & Hk & L). destruct (dget str_eqb k ws) as [w|] eqn:G.
    2:{ exfalso. apply (dget_none_iff str_eqb str_eqb_eq) in G. contradiction. }
    pose proof (floats_facts n ws i1) as F. destruct (ask_floats E n ws i1) as [qs ws2 i2|e ws2 i2|ws2|ws2]; cbn [hbind].
    + destruct F as (-> & L2 & Lq). destruct (op qs (l_win w)) as [w'|e] eqn:O; cbn [hlift hbind].
      * destruct (l_name w); [split; [|exact I]; repeat split; auto; sf|]. split; [|sf]. right. exists k, w, qs, w'. auto.
      * split; [|exact I]. repeat split; [sf|]. right. exists k, w, qs. auto.
    + destruct F as (-> & L2 & ->). split; [|exact I]. repeat split; auto; sf.
    + auto.
    + destruct F.
  - destruct S as (-> & -> & ->). split; [left; auto|sf]. Qed.

Definition kept (ws ws' : wins) : Prop := (NoDup (dkeys ws) -> NoDup (dkeys ws')) /\ forall k, In k (dkeys ws) -> In k (dkeys ws').
Lemma kept_refl ws : kept ws ws. Proof. split; auto. Qed.
Lemma kept_trans a b c : kept a b -> kept b c -> kept a c. Proof. intros [A1 A2] [B1 B2]. split; auto. Qed.
Lemma kept_put k w ws : kept ws (put E k w ws).
Proof. unfold put. split; [apply (dset_nodup str_eqb str_eqb_eq)|]. intros x Hx. apply (dset_keys str_eqb str_eqb_eq). auto. Qed.

Definition allmade (ws : wins) : Prop := Forall (fun kw => made E (l_win (snd kw))) ws.
Lemma allmade_put k w ws : allmade ws -> made E (l_win w) -> allmade (put E k w ws).
Proof. intros H Hw. unfold put, allmade in *. induction H as [|[k0 w0] ws Hx H IH]; simpl; [constructor; auto|]. destruct (str_eqb k k0); constructor; auto. Qed.
Lemma allmade_get k w ws : allmade ws -> dget str_eqb k ws = Some w -> made E (l_win w).
Proof. intros H G. apply (dget_some_in str_eqb str_eqb_eq) in G. unfold allmade in H. rewrite Forall_forall in H. apply (H _ G). Qed.

(** common invariant of all handlers *)
Definition fine {A} (ws : wins) (inp : list str) (r : hres E A) : Prop :=
  kept ws (windows_after r) /\ (allmade ws -> allmade (windows_after r)) /\ suf (unread r) inp.

Lemma load_fine p r ws inp inp0 : (forall w, r = Ok w -> made E w) -> suf inp inp0 -> fine ws inp0 (load_under E p r ws inp).
Proof. intros H L. unfold load_under. destruct r as [w|e].
  - repeat split; simpl; try apply kept_put; try exact L. intros HM. apply allmade_put; [exact HM|]. simpl. auto.
  - destruct e; (repeat split; simpl; auto; try sf). Qed.
Lemma fine_bind {A B} ws inp (m : hres E A) (f : A -> wins -> list str -> hres E B) :
  fine ws inp m -> (forall a ws' i, m = HOk a ws' i -> fine ws' i (f a ws' i)) -> fine ws inp (hbind E m f).
Proof. intros [K [M L]] H. destruct m as [a ws' i|e ws' i|ws'|ws']; simpl in *.
  - destruct (H a ws' i eq_refl) as [K2 [M2 L2]]. split; [eapply kept_trans; eauto|]. split; [auto|sf].
  - repeat split; simpl; auto; apply K.
  - repeat split; simpl; auto; apply K.
  - repeat split; simpl; auto; apply K. Qed.
Lemma fine_input ws inp : fine ws inp (hinput E ws inp).
Proof. destruct inp; repeat split; simpl; auto. Qed.
Lemma fine_weaken {A} ws inp inp' (r : hres E A) : fine ws inp r -> suf inp inp' -> fine ws inp' r.
Proof. intros [A1 [A2 A3]] H. repeat split; auto; try apply A1. sf. Qed.

Lemma open_fine fuel : forall ws inp, fine ws inp (handle_open E fuel ws inp).
Proof. induction fuel as [|fuel IH]; intros ws inp; cbn [handle_open]; [repeat split; simpl; auto; sf|]. destruct inp as [|p r]; [repeat split; simpl; auto|].
  destruct (dmem str_eqb _ ws).
  - apply fine_bind; [eapply fine_weaken; [apply IH|simpl; sf]|]. intros _ ws' i _. apply load_fine; [intros w Hw; econstructor; eauto|sf].
  - apply load_fine; [intros w Hw; econstructor; eauto|simpl; sf]. Qed.
Definition gvr_rest p (ws : wins) inp : hres E unit :=
  hbind E (hinput E ws inp) (fun a ws i1 => hbind E (hinput E ws i1) (fun b ws i2 =>
    load_under E p (do w <- e_gvr E p (float_or 5 a) 5; e_soften E w (float_or 1 b)) ws i2)).
Lemma gvr_rest_fine p ws inp : fine ws inp (gvr_rest p ws inp).
Proof. unfold gvr_rest. apply fine_bind; [apply fine_input|]. intros a ws1 i1 _. apply fine_bind; [apply fine_input|]. intros b ws2 i2 _. apply load_fine; [|sf].
  intros w Hw. destruct (e_gvr E p (float_or 5 a) 5) eqn:G; [|discriminate]. simpl in Hw. eapply made_gvr; eauto. Qed.
Lemma handle_gvr_unfold fuel ws inp : handle_gvr E fuel ws inp = match fuel, inp with
    | O, _ | _, [] => HWait ws
    | S fuel', p :: r => if dmem str_eqb (stem_of_name (path_name p)) ws then hbind E (handle_gvr E fuel' ws r) (fun _ ws1 r1 => gvr_rest p ws1 r1) else gvr_rest p ws r end.
Proof. destruct fuel; destruct inp; reflexivity. Qed.
Lemma gvr_fine fuel : forall ws inp, fine ws inp (handle_gvr E fuel ws inp).
Proof. induction fuel as [|fuel IH]; intros ws inp; rewrite handle_gvr_unfold; [repeat split; simpl; auto; sf|]. destruct inp as [|p r]; [repeat split; simpl; auto|].
  destruct (dmem str_eqb _ ws).
  - apply fine_bind; [eapply fine_weaken; [apply IH|simpl; sf]|]. intros _ ws' i _. apply gvr_rest_fine.
  - eapply fine_weaken; [apply gvr_rest_fine|simpl; sf]. Qed.
Lemma look_fine c ws inp : windows_after (handle_look E c ws inp) = ws /\ suf (unread (handle_look E c ws inp)) inp.
Proof. unfold handle_look. pose proof (select_facts ws inp) as S. destruct (select_key E ws inp) as [[k|] ws1 i1|e ws1 i1|ws1|ws1]; cbn [hbind]; try tauto.
  - destruct S as (-> & Hk & L). destruct (dget str_eqb k ws); [|simpl; auto]. destruct (e_look E c _); simpl; auto.
  - destruct S as (-> & -> & ->). simpl; auto.
  - subst. simpl. split; [reflexivity|sf]. Qed.
Lemma op_fine o ws inp : NoDup (dkeys ws) -> fine ws inp (handle_op E o ws inp).
Proof. intros ND. destruct (derive_facts (op_args o) (op_run E o) (op_suffix o) ws inp ND) as [H L]. unfold handle_op. destruct (derive E _ _ _ ws inp) as [u ws' i|e ws' i|ws'|ws'].
  - destruct H as [[-> ->]|(k & w & qs & w' & _ & G & _ & O & ->)]; [repeat split; simpl; auto|].
    split; [apply kept_put|]. split; [|exact L]. intros HM. simpl. apply allmade_put; [exact HM|]. simpl. eapply made_op; [|exact O]. eapply allmade_get; eauto.
  - destruct H as (-> & L2 & _). repeat split; simpl; auto.
  - subst. repeat split; simpl; auto; sf.
  - destruct H. Qed.
Lemma operate_fine fuel : forall ws inp, NoDup (dkeys ws) -> fine ws inp (operate_loop E fuel ws inp).
Proof. induction fuel as [|fuel IH]; intros ws inp ND; cbn [operate_loop]; [repeat split; simpl; auto; sf|]. destruct inp as [|s r]; [repeat split; simpl; auto|].
  destruct (str_eqb _ (s2l "empty")); [repeat split; simpl; auto; sf|]. destruct (str_eqb _ (s2l "end")); [repeat split; simpl; auto; sf|].
  destruct (opcmd_of _) as [o|]; [|eapply fine_weaken; [apply IH; exact ND|simpl; sf]].
  pose proof (op_fine o ws r ND) as F. destruct (handle_op E o ws r) as [u ws' i|e ws' i|ws'|ws'] eqn:HO; try (eapply fine_weaken; [exact F|simpl; sf]).
  destruct e; try (eapply fine_weaken; [exact F|simpl; sf]). destruct F as [K [M L]]. simpl in *.
  destruct (IH ws' i) as [K2 [M2 L2]]; [now apply K|]. split; [eapply kept_trans; eauto|]. split; [auto|sf]. Qed.
Lemma main_fine c ws inp : NoDup (dkeys ws) -> fine ws inp (main_command E c ws inp).
Proof. intros ND. unfold main_command. destruct (str_eqb c (s2l "open")); [apply open_fine|]. destruct (is_look c).
  { destruct (look_fine c ws inp) as [A B]. split; [rewrite A; apply kept_refl|]. split; [rewrite A; auto|exact B]. }
  destruct (str_eqb c (s2l "operate")); [now apply operate_fine|]. destruct (str_eqb c (s2l "gvr")); [apply gvr_fine|].
  destruct (str_eqb c (s2l "end")); [repeat split; simpl; auto; sf|]. destruct (str_eqb c (s2l "empty")); repeat split; simpl; auto. Qed.
Lemma session_fine fuel : forall ws inp, NoDup (dkeys ws) -> fine ws inp (session E fuel ws inp).
Proof. induction fuel as [|fuel IH]; intros ws inp ND; cbn [session]; [repeat split; simpl; auto; sf|]. destruct inp as [|s r]; [repeat split; simpl; auto|].
  pose proof (main_fine (lower_str s) ws r ND) as F. destruct (main_command E _ ws r) as [u ws' i|e ws' i|ws'|ws'] eqn:HO; try (eapply fine_weaken; [exact F|simpl; sf]).
  - destruct F as [K [M L]]. simpl in *. destruct (IH ws' i) as [K2 [M2 L2]]; [now apply K|]. split; [eapply kept_trans; eauto|]. split; [auto|sf].
  - destruct e; try (eapply fine_weaken; [exact F|simpl; sf]). destruct F as [K [M L]]. simpl in *. destruct (IH ws' i) as [K2 [M2 L2]]; [now apply K|]. split; [eapply kept_trans; eauto|]. split; [auto|sf]. Qed.

(** enough fuel *)
Lemma session_fuel : forall fuel fuel' ws inp, NoDup (dkeys ws) -> length inp <= fuel -> length inp <= fuel' -> session E fuel ws inp = session E fuel' ws inp.
Proof. induction fuel as [|fuel IH]; intros fuel' ws inp ND H H'.
  - destruct inp; [|simpl in H; lia]. destruct fuel'; reflexivity.
  - destruct inp as [|s r]; [destruct fuel'; reflexivity|]. destruct fuel' as [|fuel']; [simpl in H'; lia|]. cbn [session].
    pose proof (main_fine (lower_str s) ws r ND) as [K [_ L]]. apply suf_len in L. destruct (main_command E _ ws r) as [u ws' i|e ws' i|ws'|ws']; try reflexivity.
    + simpl in *. apply IH; [now apply K|lia|lia].
    + destruct e; try reflexivity. simpl in *. apply IH; [now apply K|lia|lia]. Qed.

(** names *)
Lemma rfind_none s i b : ~ In dot s -> rfind_dot s i b = b.
Proof. revert i b; induction s as [|c s IH]; intros i b H; simpl; [reflexivity|]. destruct (Ascii.eqb_spec c dot); [subst; exfalso; apply H; left; reflexivity|]. apply IH. intros X. apply H. right; exact X. Qed.
Lemma stem_dotless n : dotless n -> stem_of_name n = n.
Proof. intros H. unfold stem_of_name. now rewrite rfind_none. Qed.
Lemma suffix_dotless o : dotless (op_suffix o).
Proof. destruct o; intros X; simpl in X; repeat (destruct X as [X|X]; [discriminate|]); exact X. Qed.
Lemma suffix_ne k o : k ++ op_suffix o <> k.
Proof. intros H. apply (f_equal (@List.length ascii)) in H. rewrite app_length in H. destruct o; simpl in H; lia. Qed.

(** no crash *)
Lemma float_only_value s e : parse_float s = Err e -> e = ValueError.
Proof. pose proof (floats_facts 1 [] [s]) as H. cbn [ask_floats hinput hbind] in H. destruct (parse_float s); [discriminate|]. intros X. injection X as ->. apply H. Qed.
Definition ve {A} (r : hres E A) : Prop := match r with HErr e _ _ => e = ValueError | _ => True end.
Definition vf (e : exn) : Prop := e = ValueError \/ e = FileNotFoundError.
Lemma load_ve p r ws inp : (forall e, r = Err e -> vf e) -> ve (load_under E p r ws inp).
Proof. intros H. unfold load_under. destruct r as [w|e]; [exact I|]. destruct (H e eq_refl) as [->| ->]; simpl; auto. Qed.
Lemma ve_bind {A B} (m : hres E A) (f : A -> wins -> list str -> hres E B) : ve m -> (forall a ws i, m = HOk a ws i -> ve (f a ws i)) -> ve (hbind E m f).
Proof. intros H G. destruct m; simpl in *; auto. Qed.
Lemma input_ve ws inp : ve (hinput E ws inp). Proof. destruct inp; exact I. Qed.
Lemma open_ve : tame E -> forall fuel ws inp, ve (handle_open E fuel ws inp).
Proof. intros T. induction fuel as [|fuel IH]; intros ws inp; cbn [handle_open]; [exact I|]. destruct inp as [|p r]; [exact I|].
  destruct (dmem str_eqb _ ws); [apply ve_bind; [apply IH|intros]|]; apply load_ve; intros e He; apply T in He; exact He. Qed.
Lemma gvr_rest_ve p ws inp : tame E -> ve (gvr_rest p ws inp).
Proof. intros T. unfold gvr_rest. apply ve_bind; [apply input_ve|]. intros a ws1 i1 _. apply ve_bind; [apply input_ve|]. intros b ws2 i2 _. apply load_ve.
  intros e He. destruct (e_gvr E p _ 5) as [w|e'] eqn:G; simpl in He.
  - left. destruct T as (_ & _ & T & _). eapply T; eauto.
  - injection He as ->. destruct T as (_ & T & _). eapply T; eauto. Qed.
Lemma gvr_ve : tame E -> forall fuel ws inp, ve (handle_gvr E fuel ws inp).
Proof. intros T. induction fuel as [|fuel IH]; intros ws inp; rewrite handle_gvr_unfold; [exact I|]. destruct inp as [|p r]; [exact I|].
  destruct (dmem str_eqb _ ws); [apply ve_bind; [apply IH|intros]|]; now apply gvr_rest_ve. Qed.
Lemma look_ve c ws inp : tame E -> ve (handle_look E c ws inp).
Proof. intros T. unfold handle_look. pose proof (select_facts ws inp) as S. destruct (select_key E ws inp) as [[k|] ws1 i1|e ws1 i1|ws1|ws1]; cbn [hbind]; try exact I; [|destruct S].
  destruct S as (-> & Hk & _). destruct (dget str_eqb k ws) as [w|] eqn:G.
  - destruct (e_look E c (l_win w)) eqn:L; [exact I|]. simpl. destruct T as (_ & _ & _ & _ & _ & _ & T). eapply T; eauto.
  - exfalso. apply (dget_none_iff str_eqb str_eqb_eq) in G. contradiction. Qed.
Lemma op_ve o ws inp : tame E -> NoDup (dkeys ws) -> ve (handle_op E o ws inp).
Proof. intros T ND. destruct (derive_facts (op_args o) (op_run E o) (op_suffix o) ws inp ND) as [H _]. unfold handle_op. destruct (derive E _ _ _ ws inp) as [u ws' i|e ws' i|ws'|ws']; try exact I.
  destruct H as (_ & _ & [->|(k & w & qs & _ & O & Lq)]); [reflexivity|]. simpl. destruct T as (_ & _ & T1 & T2 & T3 & T4 & _).
  destruct o; simpl in Lq, O; destruct qs as [|a [|b [|c qs]]]; try discriminate; eauto. Qed.
Lemma operate_ve : tame E -> forall fuel ws inp, NoDup (dkeys ws) -> Forall (fun s => lower_str s <> s2l "empty") inp -> ve (operate_loop E fuel ws inp).
Proof. intros T. induction fuel as [|fuel IH]; intros ws inp ND HF; cbn [operate_loop]; [exact I|]. destruct inp as [|s r]; [exact I|]. inversion HF as [|? ? Hs HF']; subst.
  destruct (str_eqb (lower_str s) (s2l "empty")) eqn:X; [apply str_eqb_eq in X; contradiction|]. destruct (str_eqb _ (s2l "end")); [exact I|].
  destruct (opcmd_of _) as [o|]; [|now apply IH]. pose proof (op_ve o ws r T ND) as V. pose proof (op_fine o ws r ND) as [K [_ L]].
  destruct (handle_op E o ws r) as [u ws' i|e ws' i|ws'|ws']; try exact I. simpl in V. subst e. apply IH; [now apply K|]. eapply suf_Forall; [exact L|exact HF']. Qed.
Lemma main_ve c ws inp : tame E -> NoDup (dkeys ws) -> c <> s2l "empty" -> Forall (fun s => lower_str s <> s2l "empty") inp -> ve (main_command E c ws inp).
Proof. intros T ND Hc HF. unfold main_command. destruct (str_eqb c (s2l "open")); [now apply open_ve|]. destruct (is_look c); [now apply look_ve|].
  destruct (str_eqb c (s2l "operate")); [now apply operate_ve|]. destruct (str_eqb c (s2l "gvr")); [now apply gvr_ve|]. destruct (str_eqb c (s2l "end")); [exact I|].
  destruct (str_eqb c (s2l "empty")) eqn:X; [apply str_eqb_eq in X; contradiction|reflexivity]. Qed.
Lemma session_no_crash : tame E -> forall fuel ws inp, NoDup (dkeys ws) -> Forall (fun s => lower_str s <> s2l "empty") inp -> ~ crashed (session E fuel ws inp).
Proof. intros T. induction fuel as [|fuel IH]; intros ws inp ND HF; cbn [session]; [intros []|]. destruct inp as [|s r]; [intros []|]. inversion HF as [|? ? Hs HF']; subst.
  pose proof (main_ve (lower_str s) ws r T ND Hs HF') as V. pose proof (main_fine (lower_str s) ws r ND) as [K [_ L]].
  destruct (main_command E _ ws r) as [u ws' i|e ws' i|ws'|ws']; try (intros X; exact X).
  - apply IH; [now apply K|]. eapply suf_Forall; [exact L|exact HF'].
  - simpl in V. subst e. apply IH; [now apply K|]. eapply suf_Forall; [exact L|exact HF']. Qed.
End P.
