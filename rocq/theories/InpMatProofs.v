(** Proofs for C34: materials of cells. *)
From Coq Require Import Lia ZArith QArith.
From Verif Require Import PyBase PyLemmas PyStr PyStrLemmas PyText D1SProofs2 WWTextProofs LibModel MatModel MatProofs MatProofs2 MatProofs4 InpModel InpSpec InpGeomSpec InpUnionModel InpProofs InpProofs2 InpProofs6 InpGeomProofs InpGeomProofs2 InpGeomProofs3.
Open Scope nat_scope.

Lemma words_app (a b : list str) : words (a ++ b) = words a ++ words b. Proof. unfold words. now rewrite map_app, concat_app. Qed.
Lemma words_cons a b : words (a :: b) = split a ++ words b. Proof. reflexivity. Qed.
Lemma headed_m c n m : headed c n m -> get_m c = Some m.
Proof. intros [w0 [w1 [r [rest [rows [vs [_ [_ [V _]]]]]]]]]. unfold get_m. now rewrite V. Qed.
Lemma fill_head w0 w1 n m ws vs hs : fillw ([Hole w0] :: [Hole w1] :: ws) (n :: m :: vs) hs = match fillw ws vs hs with Ok (l, q) => Ok (ljust w0 (str_of_Z n) :: ljust w1 (str_of_Z m) :: l, q) | Err e => Err e end.
Proof. cbn [fillw fill bind]. rewrite !app_nil_r. destruct (fillw ws vs hs) as [[l q]|]; reflexivity. Qed.
Lemma fill_head3 w0 w1 n m ws vs d hs : fillw ([Hole w0] :: [Hole w1] :: [Ch tilde] :: ws) (n :: m :: vs) (d :: hs) = match fillw ws vs hs with Ok (l, q) => Ok (ljust w0 (str_of_Z n) :: ljust w1 (str_of_Z m) :: d :: l, q) | Err e => Err e end.
Proof. rewrite fill_head. cbn [fillw fill]. change (Ascii.eqb tilde tilde) with true. cbn [fill bind]. rewrite app_nil_r. destruct (fillw ws vs hs) as [[l q]|]; reflexivity. Qed.
(** the tail of the template and what it prints *)
Lemma headed_text c n m ls : headed c n m -> card_text c = Ok ls ->
  exists w0 w1 row0 rest rows vs tl_ l r, c_input c = row0 :: rows /\ tsplit row0 = [Hole w0] :: [Hole w1] :: (if (m =? 0)%Z then rest else [Ch tilde] :: rest) /\
    c_values c = (n, Kcel) :: (m, Kmat) :: vs /\ tl_ = rest ++ concat (map tsplit rows) /\ (m <> 0%Z -> c_hidden c <> []) /\
    fillw tl_ (map fst vs) (if (m =? 0)%Z then c_hidden c else tl (c_hidden c)) = Ok (l, r) /\
    words ls = str_of_Z n :: str_of_Z m :: (if (m =? 0)%Z then [] else match c_hidden c with d :: _ => split d | [] => [] end) ++ words l.
Proof. intros [w0 [w1 [row0 [rest [rows [vs [EI [ET [EV EH]]]]]]]]] T. destruct (text_words c ls T) as [l [r [F EW]]]. rewrite EI, EV in F. cbn [map concat fst] in F. rewrite ET in F.
  exists w0, w1, row0, rest, rows, vs, (rest ++ concat (map tsplit rows)). destruct (m =? 0)%Z eqn:E.
  - cbn [app] in F. rewrite fill_head in F. match type of F with match ?X with _ => _ end = _ => destruct X as [[l2 r2]|] eqn:F2 end; [|discriminate F]. injection F as <- <-.
    exists l2, r2. do 5 (split; [first [reflexivity|assumption]|]). split; [exact F2|]. rewrite EW, !words_cons, !split_ljust. reflexivity.
  - assert (N : m <> 0%Z) by (intros ->; discriminate E). destruct (c_hidden c) as [|d hs] eqn:HC; [now elim (EH N)|]. cbn [app] in F. rewrite fill_head3 in F.
    match type of F with match ?X with _ => _ end = _ => destruct X as [[l2 r2]|] eqn:F2 end; [|discriminate F]. injection F as <- <-.
    exists l2, r2. do 5 (split; [first [reflexivity|assumption]|]). cbn [tl]. split; [exact F2|]. rewrite EW, !words_cons, !split_ljust. reflexivity. Qed.
(** a card built with the same tail *)
Lemma retext c' n m w0 w1 row0 rest rows vs l r :
  c_input c' = row0 :: rows -> tsplit row0 = [Hole w0] :: [Hole w1] :: rest -> c_values c' = (n, Kcel) :: (m, Kmat) :: vs ->
  fillw (rest ++ concat (map tsplit rows)) (map fst vs) (c_hidden c') = Ok (l, r) ->
  exists ls', card_text c' = Ok ls' /\ words ls' = str_of_Z n :: str_of_Z m :: words l.
Proof. intros EI ET EV F. destruct (words_text c' (ljust w0 (str_of_Z n) :: ljust w1 (str_of_Z m) :: l) r) as [ls' [T E]].
  - rewrite EI, EV. cbn [map concat fst]. rewrite ET. cbn [app]. rewrite fill_head. match goal with |- match ?X with _ => _ end = _ => change X with (fillw (rest ++ concat (map tsplit rows)) (map fst vs) (c_hidden c')); rewrite F end. reflexivity.
  - exists ls'. split; [exact T|]. rewrite E, !words_cons, !split_ljust. reflexivity. Qed.
Lemma set_mat n m vs z : set_first Kmat z ((n, Kcel) :: (m, Kmat) :: vs) = (n, Kcel) :: (z, Kmat) :: vs. Proof. reflexivity. Qed.
Lemma tilde_fill tl_ vs d hs l r : fillw tl_ vs hs = Ok (l, r) -> fillw ([Ch tilde] :: tl_) vs (d :: hs) = Ok (d :: l, r).
Proof. intros F. cbn [fillw fill]. change (Ascii.eqb tilde tilde) with true. cbn [fill bind]. rewrite F. cbn [bind]. now rewrite app_nil_r. Qed.

Lemma replace_ok c n m ls new dens : headed c n m -> card_text c = Ok ls ->
  exists rest, words ls = str_of_Z n :: str_of_Z m :: (if (m =? 0)%Z then [] else match c_hidden c with d :: _ => split d | [] => [] end) ++ rest /\
  forall c', replace_cell_material new dens c = Ok c' ->
    (exists ls', card_text c' = Ok ls' /\ words ls' = str_of_Z n :: str_of_Z new :: (if (new =? 0)%Z then [] else split dens) ++ rest) /\
    get_m c' = Some new /\ c_name c' = c_name c /\ headed c' n new.
Proof. intros HD T. pose proof (headed_m c n m HD) as GM. destruct (headed_text c n m ls HD T) as [w0 [w1 [row0 [rest [rows [vs [tl_ [l [r [EI [ET [EV [-> [EH [F EW]]]]]]]]]]]]]]].
  exists (words l). split; [exact EW|]. intros c' R. unfold replace_cell_material in R. rewrite GM in R. destruct (m =? 0)%Z eqn:E0.
  - (* void cell *)
    unfold add_material_to_void_cell in R. destruct (parse_float dens) as [q|] eqn:P; cbn [bind] in R; [|discriminate]. destruct ((qtrunc q =? 0)%Z || (new <=? 0)%Z) eqn:G; [discriminate|].
    rewrite GM, E0, EI in R. injection R as <-. apply orb_false_elim in G as [_ G]. apply Z.leb_gt in G. assert (N : (new =? 0)%Z = false) by (apply Z.eqb_neq; lia). rewrite N.
    assert (WR : Forall word rest). { pose proof (tsplit_words row0) as W. rewrite ET in W. inversion W as [|? ? _ W1]; subst. now inversion W1. }
    assert (ET' : tsplit (tjoin (insert_at 2 (text [tilde]) (tsplit row0))) = [Hole w0] :: [Hole w1] :: [Ch tilde] :: rest).
    { rewrite ET. change (insert_at 2 (text [tilde]) ([Hole w0] :: [Hole w1] :: rest)) with ([Hole w0] :: [Hole w1] :: [Ch tilde] :: rest). rewrite tsplit_join. apply words_id. repeat (constructor; [split; [discriminate|repeat constructor]|]). exact WR. }
    set (c' := mkCard _ _ _ _). split; [|split; [|split; [reflexivity|]]].
    + destruct (retext c' n new w0 w1 (tjoin (insert_at 2 (text [tilde]) (tsplit row0))) ([Ch tilde] :: rest) rows vs (dens :: l) r) as [ls' [T' W']]; try reflexivity.
      * exact ET'.
      * unfold c'. cbn [c_values]. now rewrite EV.
      * unfold c'. cbn [c_hidden]. apply (tilde_fill (rest ++ concat (map tsplit rows))). exact F.
      * exists ls'. split; [exact T'|]. rewrite W', words_cons. reflexivity.
    + unfold get_m, c'. cbn [c_values]. now rewrite EV.
    + exists w0, w1, (tjoin (insert_at 2 (text [tilde]) (tsplit row0))), rest, rows, vs. rewrite N. unfold c'. cbn [c_input c_values c_hidden]. split; [reflexivity|]. split; [exact ET'|]. split; [now rewrite EV|discriminate].
  - assert (N : m <> 0%Z) by (intros ->; discriminate E0). destruct (c_hidden c) as [|d hs] eqn:HC; [now elim (EH N)|]. cbn [tl] in F. destruct (new =? 0)%Z eqn:E1.
    + (* to void *)
      apply Z.eqb_eq in E1. subst new. unfold set_cell_void in R. rewrite GM, E0, HC in R. injection R as <-. set (c' := mkCard _ _ _ _). split; [|split; [|split; [reflexivity|]]].
      * destruct (retext c' n 0%Z w0 w1 row0 ([Ch tilde] :: rest) rows vs ([] :: l) r) as [ls' [T' W']]; try assumption.
        -- unfold c'. cbn [c_values]. now rewrite EV.
        -- unfold c'. cbn [c_hidden]. apply (tilde_fill (rest ++ concat (map tsplit rows))). exact F.
        -- exists ls'. split; [exact T'|]. rewrite W', words_cons. reflexivity.
      * unfold get_m, c'. cbn [c_values]. now rewrite EV.
      * exists w0, w1, row0, ([Ch tilde] :: rest), rows, vs. unfold c'. cbn [c_input c_values c_hidden]. split; [exact EI|]. split; [exact ET|]. split; [now rewrite EV|discriminate].
    + injection R as <-. set (c' := mkCard _ _ _ _). split; [|split; [|split; [reflexivity|]]].
      * destruct (retext c' n new w0 w1 row0 ([Ch tilde] :: rest) rows vs (dens :: l) r) as [ls' [T' W']]; try assumption.
        -- unfold c'. cbn [c_values]. now rewrite EV.
        -- unfold c'. cbn [c_hidden]. apply (tilde_fill (rest ++ concat (map tsplit rows))). exact F.
        -- exists ls'. split; [exact T'|]. rewrite W', words_cons. reflexivity.
      * unfold get_m, c'. cbn [c_values]. now rewrite EV.
      * exists w0, w1, row0, rest, rows, vs. rewrite E1. unfold c'. cbn [c_input c_values c_hidden]. split; [exact EI|]. split; [exact ET|]. split; [now rewrite EV|discriminate]. Qed.
(** when it succeeds *)
Lemma replace_succeeds c n m new dens : headed c n m ->
  ((exists c', replace_cell_material new dens c = Ok c') <->
   (m <> 0%Z \/ (0 < new)%Z /\ exists q, parse_float dens = Ok q /\ qtrunc q <> 0%Z)).
Proof. intros HD. pose proof (headed_m c n m HD) as GM. destruct HD as [w0 [w1 [row0 [rest [rows [vs [EI [ET [EV EH]]]]]]]]]. unfold replace_cell_material. rewrite GM. destruct (Z.eqb_spec m 0) as [->|N].
  - unfold add_material_to_void_cell. rewrite GM, EI. change ((0 =? 0)%Z) with true. cbv iota. destruct (parse_float dens) as [q|]; cbn [bind].
    + destruct (Z.eqb_spec (qtrunc q) 0) as [Q|Q]; cbn [orb].
      * split; [intros [c' H]; discriminate|]. intros [H|[_ [q' [H1 H2]]]]; [now elim H|]. injection H1 as <-. contradiction.
      * destruct (Z.leb_spec new 0); (split; [|]).
        -- intros [c' X]; discriminate.
        -- intros [X|[X _]]; [now elim X|lia].
        -- intros _. right. split; [lia|]. exists q. auto.
        -- intros _. eexists. reflexivity.
    + split; [intros [c' X]; discriminate|]. intros [X|[_ [q [X _]]]]; [now elim X|discriminate].
  - split; [intros _; left; exact N|]. intros _. destruct (c_hidden c) as [|d hs] eqn:HC; [now elim (EH N)|]. destruct (new =? 0)%Z.
    + unfold set_cell_void. rewrite GM, HC. destruct (Z.eqb_spec m 0); [contradiction|]. eexists. reflexivity.
    + eexists. reflexivity. Qed.
(** over the whole input *)
Definition selected (old : Z) (us : option (list Z)) (c : card) : bool := optz_eqb (get_m c) old && in_universe us c.
Lemma replace_all new dens old us (d : cdict) : forall h h',
  foldM (fun h kl => do c <- hget h (snd kl); if optz_eqb (get_m c) old && in_universe us c then do c' <- replace_cell_material new dens c; Ok (hset h (snd kl) c') else Ok h) h d = Ok h' ->
  NoDup (locs d) ->
  length h' = length h /\ (forall l, ~ In l (locs d) -> nth_error h' l = nth_error h l) /\
  (forall l, In l (locs d) -> exists c, nth_error h l = Some c /\
     (selected old us c = true -> exists c', nth_error h' l = Some c' /\ replace_cell_material new dens c = Ok c') /\
     (selected old us c = false -> nth_error h' l = Some c)).
Proof. induction d as [|[key l0] d IH]; intros h h' H ND; cbn [foldM locs map snd] in *.
  - injection H as <-. repeat split; auto. intros l [].
  - inversion ND as [|? ? NI ND']; subst. destruct (hget h l0) as [c0|] eqn:G; cbn [bind] in H; [|discriminate]. apply hget_ok in G.
    fold (selected old us c0) in H. destruct (selected old us c0) eqn:S.
    + destruct (replace_cell_material new dens c0) as [c0'|] eqn:RC; cbn [bind] in H; [|discriminate]. destruct (IH _ _ H ND') as [L [FO FI]]. rewrite hset_length in L. split; [exact L|]. split.
      * intros l NIl. rewrite FO by (intros Q; apply NIl; right; exact Q). apply hset_other. intros ->. apply NIl. left. reflexivity.
      * intros l [<-|Il].
        -- exists c0. split; [exact G|]. split; [|congruence]. intros _. exists c0'. split; [|exact RC]. rewrite FO by exact NI. apply hset_same. eapply nth_lt; exact G.
        -- destruct (FI l Il) as [c [Hc R]]. rewrite hset_other in Hc by (intros ->; contradiction). exists c. auto.
    + cbn [bind] in H. destruct (IH _ _ H ND') as [L [FO FI]]. split; [exact L|]. split.
      * intros l NIl. apply FO. intros Q. apply NIl. right. exact Q.
      * intros l [<-|Il]; [|now apply FI]. exists c0. split; [exact G|]. split; [congruence|]. intros _. rewrite FO by exact NI. exact G. Qed.
