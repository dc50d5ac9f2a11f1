(** C124: deleting the fills of the cells. *)
From Coq Require Import ZArith Lia.
From Verif Require Import PyBase PyStr PyLemmas D1SProofs2 InpModel InpProofs FillModel FillSpec FillProofs.
Open Scope nat_scope.

(** When numjuggler can take out every fill: the keys stay, in the same order; the cells without a fill stay the same cards; the
    others are new cards, read from the text without the fill, the old card having been changed too; no other card changes. *)
Theorem C124_deleted : forall remove_fill again h cells, good_cells h cells ->
  (forall key l c, In (key, l) cells -> nth_error h l = Some c -> has_fill c -> exists c1 n, unfilled remove_fill again c c1 n) ->
  exists h' cells', delete_fill_cards remove_fill again h cells = ((h', cells'), None)
    /\ Forall2 (fun kl kl' => fst kl' = fst kl /\ exists c, nth_error h (snd kl) = Some c
         /\ (~ has_fill c -> snd kl' = snd kl /\ nth_error h' (snd kl') = Some c)
         /\ (has_fill c -> length h <= snd kl' /\ exists c1 n, remove_fill c = Ok c1 /\ again c1 = Ok n /\ nth_error h' (snd kl) = Some c1 /\ nth_error h' (snd kl') = Some n)) cells cells'
    /\ Forall (fun kl' => exists c', nth_error h' (snd kl') = Some c' /\ ~ has_fill c') cells'
    /\ (forall l, l < length h -> ~ In l (map snd cells) -> nth_error h' l = nth_error h l).
Proof.
  intros remove_fill again h cells (Nk & Nl & F) H.
  assert (R : Forall (ready remove_fill again h) cells).
  { rewrite Forall_forall in F |- *. intros [key l] I. destruct (F _ I) as (c & n & G & Cn & Kn). exists c, n. cbn [fst snd] in *. split; [exact G|]. split; [exact Cn|]. split; [exact Kn|]. exact (H key l c I G). }
  destruct (run remove_fill again cells h [] [] Nk Nl R) as (h' & b & E & B & _ & O). cbn [app] in E. rewrite !app_nil_r in E. exists h', b. split; [exact E|]. split; [|split; [|exact O]].
  - clear -B. induction B as [|kl kl' cells b (E & c & G & H) B IH]; constructor; [|exact IH]. split; [exact E|]. exists c. split; [exact G|]. destruct H as [(H1 & H2 & H3)|(H1 & H2 & c1 & n & H3 & H4 & H5 & H6 & H7)].
    + split; [intros _; split; [exact H2|exact (eq_trans (f_equal (nth_error h') H2) H3)]|intros X; destruct (X H1)].
    + split; [intros X; destruct (X H1)|]. intros _. split; [exact H2|]. exists c1, n. auto.
  - clear -B. induction B as [|kl kl' cells b (E & c & G & H) B IH]; constructor; [|exact IH]. unfold has_fill. destruct H as [(H1 & H2 & H3)|(H1 & H2 & c1 & n & H3 & H4 & H5 & H6 & H7)].
    + exists c. split; [exact (eq_trans (f_equal (nth_error h') H2) H3)|]. intros X. exact (X H1).
    + exists n. split; [exact H7|]. intros X. exact (X H5).
Qed.
(** Deleting again does nothing. *)
Theorem C124_twice : forall remove_fill again h cells, Forall (fun kl => exists c, nth_error h (snd kl) = Some c /\ ~ has_fill c) cells ->
  delete_fill_cards remove_fill again h cells = ((h, cells), None).
Proof.
  intros remove_fill again h cells F. apply none_filled. eapply Forall_impl; [|exact F]. intros kl (c & G & N). exists c. split; [exact G|]. unfold has_fill in N. destruct (get_f c); [|reflexivity]. destruct N. discriminate.
Qed.
(** A cell whose text without the fill cannot be read stops the deletion: those before it are done, those after it keep their fill,
    and the card of that cell has been changed but not read again. *)
Theorem C124_stops : forall remove_fill again h a key l b c c1 e, good_cells h (a ++ (key, l) :: b) ->
  (forall k x c, In (k, x) a -> nth_error h x = Some c -> has_fill c -> exists c1 n, unfilled remove_fill again c c1 n) ->
  nth_error h l = Some c -> has_fill c -> remove_fill c = Ok c1 -> again c1 = Err e ->
  exists h' a', delete_fill_cards remove_fill again h (a ++ (key, l) :: b) = ((h', a' ++ (key, l) :: b), Some e)
    /\ map fst a' = map fst a /\ nth_error h' l = Some c1 /\ Forall (fun kl' => exists c', nth_error h' (snd kl') = Some c' /\ ~ has_fill c') a'
    /\ (forall k x, In (k, x) b -> nth_error h' x = nth_error h x).
Proof.
  intros remove_fill again h a key l b c c1 e (Nk & Nl & F) H G HF RF AG.
  assert (Hl : l < length h) by (apply nth_error_Some; congruence).
  assert (R : Forall (ready remove_fill again h) a).
  { apply Forall_app in F as [F _]. rewrite Forall_forall in F |- *. intros [k x] I. destruct (F _ I) as (c' & n & G' & Cn & Kn). exists c', n. cbn [fst snd] in *. split; [exact G'|]. split; [exact Cn|]. split; [exact Kn|]. exact (H k x c' I G'). }
  rewrite map_app in Nl. cbn [map snd] in Nl. assert (Na : NoDup (map snd a)) by (apply nodup_left in Nl; exact Nl).
  assert (Nla : ~ In l (map snd a)) by (intros X; apply NoDup_remove_2 in Nl; apply Nl; apply in_or_app; left; exact X).
  unfold delete_fill_cards. rewrite del_app.
  assert (E : exists h' a', delete_fill remove_fill again h (a ++ (key, l) :: b) a = ((h', a' ++ (key, l) :: b), None) /\ Forall2 (became remove_fill again h h') a a' /\ length h <= length h'
    /\ (forall x, x < length h -> ~ In x (map snd a) -> nth_error h' x = nth_error h x)).
  { assert (Nk' : NoDup (map fst ([] ++ a))) by (rewrite map_app in Nk; apply nodup_left in Nk; exact Nk). destruct (run remove_fill again a h [] ((key, l) :: b) Nk' Na R) as (h' & a' & X). exists h', a'. exact X. }
  destruct E as (h' & a' & E & B & LL & O). rewrite E. cbn [delete_fill]. unfold hget. rewrite (O l Hl Nla), G. cbn [of_opt]. unfold has_fill in HF. destruct (get_f c) as [f|]; [|destruct (HF eq_refl)].
  rewrite RF. cbv zeta. rewrite AG. exists (hset h' l c1), a'. split; [reflexivity|].
  assert (Bk : map fst a' = map fst a). { clear -B. induction B as [|kl kl' a a' (X & _) B IH]; cbn [map]; [reflexivity|]. rewrite X, IH. reflexivity. }
  split; [exact Bk|]. split; [apply hset_same; lia|]. split.
  - clear -B Nla Hl. induction B as [|kl kl' a a' (E & c & G & H) B IH]; constructor.
    + unfold has_fill. destruct H as [(H1 & H2 & H3)|(H1 & H2 & c2 & n & H3 & H4 & H5 & H6 & H7)].
      * exists c. split; [|intros X; exact (X H1)]. apply (eq_trans (f_equal (nth_error (hset h' l c1)) H2)). rewrite hset_other; [exact H3|]. intros X. apply Nla. left. symmetry. exact X.
      * exists n. split; [|intros X; exact (X H5)]. rewrite hset_other; [exact H7|]. intros X. apply (Nat.lt_irrefl (length h)). apply (Nat.le_lt_trans _ _ _ H2). exact (eq_ind _ (fun v => v < length h) Hl _ X).
    + apply IH. intros X; apply Nla; right; exact X.
  - intros k x I. assert (Ix : In x (map snd b)) by (apply in_map_iff; exists (k, x); auto).
    assert (Nx : x <> l /\ ~ In x (map snd a)).
    { split; [intros ->; apply NoDup_remove_2 in Nl; apply Nl; apply in_or_app; right; exact Ix|]. intros X. clear -Nl X Ix. induction (map snd a) as [|y s IH]; [destruct X|]. cbn [app] in Nl. inversion Nl as [|? ? N1 N2]; subst. destruct X as [->|X]; [apply N1, in_or_app; right; right; exact Ix|exact (IH N2 X)]. }
    destruct Nx as [Nx1 Nx2]. rewrite hset_other by congruence. apply O; [|exact Nx2]. apply Forall_app in F as [_ F]. inversion F as [|? ? _ F']; subst. rewrite Forall_forall in F'. destruct (F' _ I) as (c' & n & G' & _). cbn [snd] in G'. apply nth_error_Some. congruence.
Qed.
Print Assumptions C124_deleted.
Print Assumptions C124_twice.
Print Assumptions C124_stops.
(* a cell filled with universe 5, and another one without a fill *)
Example C124_witness :
  let cut c := Ok (with_values c (filter (fun v => negb (kind_eqb (snd v) Kfill)) (c_values c))) in
  let h := [mkCard (Some 1%Z) [(1%Z, Kcel); (0%Z, Kmat); (5%Z, Kfill)] [] []; mkCard (Some 2%Z) [(2%Z, Kcel); (0%Z, Kmat)] [] []] in
  let cells := [(s2l "1", 0); (s2l "2", 1)] in
  good_cells h cells /\ (forall key l c, In (key, l) cells -> nth_error h l = Some c -> has_fill c -> exists c1 n, unfilled cut (@Ok card) c c1 n)
  /\ snd (fst (delete_fill_cards cut (@Ok card) h cells)) = [(s2l "1", 2); (s2l "2", 1)].
Proof.
  cbv zeta. split; [|split; [|vm_compute; reflexivity]].
  - split; [|split]; [repeat constructor; cbn; intuition discriminate|repeat constructor; cbn; intuition discriminate|].
    constructor; [|constructor; [|constructor]]; eexists _, _; split; [reflexivity|split; [reflexivity|vm_compute; reflexivity]|reflexivity|split; [reflexivity|vm_compute; reflexivity]].
  - intros key l c [E|[E|[]]] G HF; injection E as <- <-; injection G as <-; [|destruct HF; reflexivity]. eexists _, _. repeat split.
Qed.
