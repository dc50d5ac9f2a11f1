(** Proofs about reading xsdir files. *)
From Coq Require Import Lia ZArith.
From Verif Require Import PyBase PyLemmas PyStr PyText DataModel D1SProofs2 MeshSpec OutSpec OutProofs MatProofs LibModel XsModel XsSpec.
Open Scope nat_scope.

Lemma int_text w z : IntText w z -> parse_int w = Ok z.
Proof.
  intros (d & D & [[-> ->]|[[-> ->]|[-> ->]]]); [apply parse_digits; exact D| |]; destruct D as [Dn Dd]; pose proof (span_digits_app d [] Dd ltac:(intros c r E; discriminate E)) as E; rewrite app_nil_r in E;
  unfold parse_int, take_sign; [change (Ascii.eqb plus minus) with false; change (Ascii.eqb plus plus) with true|change (Ascii.eqb minus minus) with true]; cbn iota; rewrite E; destruct d; congruence.
Qed.
Lemma maybe_ok {A} (P : str -> A -> Prop) (f : str -> res A) o v : (forall w x, P w x -> f w = Ok x) -> Maybe P o v ->
  (match o with Some w => do z <- f w; Ok (Some z) | None => Ok None end) = Ok v.
Proof. intros H M. destruct o, v; cbn [Maybe] in M; try tauto. rewrite (H _ _ M). reflexivity. Qed.
Lemma table_ok (t : xtable) ws a f d n more : ws = x_name t :: a :: x_file t :: x_access t :: f :: d :: n :: more
     -> numeral a (x_awr t) -> IntText f (x_ftype t) -> IntText d (x_addr t) -> IntText n (x_len t)
     -> Maybe IntText (nth_error more 0) (x_rec t) -> Maybe IntText (nth_error more 1) (x_entries t) -> Maybe numeral (nth_error more 2) (x_temp t)
     -> (x_ptable t = true <-> nth_error more 3 = Some (s2l "ptable")) -> table_of ws = Ok t.
Proof.
  intros -> H1 H2 H3 H4 H5 H6 H7 H8. unfold table_of. rewrite H1. cbn [bind]. rewrite (int_text _ _ H2), (int_text _ _ H3), (int_text _ _ H4). cbn [bind].
  rewrite (maybe_ok IntText parse_int _ _ int_text H5), (maybe_ok IntText parse_int _ _ int_text H6), (maybe_ok numeral parse_float _ _ (fun _ _ h => h) H7). cbn [bind].
  destruct t as [tn ta tf tac tft tad tl tr te tm tp]; cbn [x_name x_awr x_file x_access x_ftype x_addr x_len x_rec x_entries x_temp x_ptable] in *. f_equal. f_equal.
  destruct (nth_error more 3) as [w|]; [|destruct tp; [destruct H8 as [H8 _]; specialize (H8 eq_refl); discriminate|reflexivity]].
  destruct (str_eqb w (s2l "ptable")) eqn:E.
  - apply str_eqb_eq in E as ->. symmetry. apply H8. reflexivity.
  - destruct tp; [|reflexivity]. destruct H8 as [H8 _]. specialize (H8 eq_refl). injection H8 as ->. rewrite str_eqb_refl in E. discriminate E.
Qed.

(** entries *)
Definition words (pend : option (list str)) (ws : list str) : list str := match pend with None => ws | Some p => p ++ ws end.
Lemma entry_read ws ls : EntryText ws ls -> forall pend rest,
  read_tables pend (ls ++ rest) = do t <- table_of (words pend ws); do ts <- read_tables None rest; Ok (t :: ts).
Proof.
  induction 1 as [l ws w E N|l a b ls E _ IH]; intros pend rest; cbn [app read_tables].
  - set (u := match pend with None => split l | Some p => p ++ split l end).
    assert (U : u = words pend ws ++ [w]) by (unfold u, words; rewrite E; destruct pend; [apply app_assoc|reflexivity]).
    rewrite U. assert (P : is_plus w = false) by (unfold is_plus; destruct (str_eqb w [plus]) eqn:X; [apply str_eqb_eq in X; elim (N X)|reflexivity]).
    assert (V : words pend ws ++ [w] = words pend (ws ++ [w])) by (destruct pend; [symmetry; apply app_assoc|reflexivity]).
    assert (M : forall (T : Type) (x : T) y, (match pend, words pend ws ++ [w] with None, [] => x | _, _ => y end) = y).
    { intros. destruct pend; [reflexivity|]. destruct (words None ws); reflexivity. }
    rewrite M, rev_unit, P, V. reflexivity.
  - set (u := match pend with None => split l | Some p => p ++ split l end).
    assert (U : u = words pend a ++ [s2l "+"]) by (unfold u, words; rewrite E; destruct pend; [apply app_assoc|reflexivity]).
    rewrite U.
    assert (M : forall (T : Type) (x : T) y, (match pend, words pend a ++ [s2l "+"] with None, [] => x | _, _ => y end) = y).
    { intros. destruct pend; [reflexivity|]. destruct (words None a); reflexivity. }
    rewrite M, rev_unit. change (is_plus (s2l "+")) with true. rewrite rev_involutive, IH. cbn [words].
    replace (words pend a ++ b) with (words pend (a ++ b)) by (destruct pend; [apply app_assoc|reflexivity]). reflexivity.
Qed.
Lemma tables_read ts ess e : Forall2 Entry ts ess -> End e -> read_tables None (concat ess ++ e) = Ok ts.
Proof.
  intros H He. induction H as [|t ls ts ess Ht _ IH]; cbn [concat app].
  - destruct He as [->|(l & r & -> & E)]; [reflexivity|]. cbn [read_tables]. rewrite E. reflexivity.
  - destruct Ht as (ws & Hw & a & f & d & n & more & Ht & H1 & H2 & H3 & H4 & H5 & H6 & H7 & H8). rewrite <- app_assoc, (entry_read ws ls Hw). cbn [words].
    rewrite (table_ok t ws a f d n more) by assumption. cbn [bind]. rewrite IH. reflexivity.
Qed.

(** weight ratios *)
Lemma pairs_flat ps : pairs (concat (map (fun p => [fst p; snd p]) ps)) = ps.
Proof. induction ps as [|[a b] ps IH]; [reflexivity|]. cbn [map concat app pairs fst snd]. f_equal. exact IH. Qed.
Lemma flat_even (ps : list (str * str)) : Nat.odd (length (concat (map (fun p => [fst p; snd p]) ps))) = false.
Proof. induction ps as [|[a b] ps IH]; [reflexivity|]. cbn [map concat app length]. rewrite !Nat.odd_succ, Nat.even_succ. exact IH. Qed.
Lemma directory_iff l w r : split l = w :: r -> str_eqb w directory = true <-> starts_directory l.
Proof.
  intros E. unfold starts_directory, directory. split.
  - intros X. apply str_eqb_eq in X as ->. exists r. exact E.
  - intros [r' X]. rewrite E in X. injection X as -> _. reflexivity.
Qed.
Definition put (d : list (str * str)) (p : str * str) := dset str_eqb (fst p) (snd p) d.
Lemma awr_pairs pss als : Forall2 PairLine pss als -> forall d rest, read_awr d (als ++ rest) = read_awr (fold_left put (concat pss) d) rest.
Proof.
  induction 1 as [|ps l pss als (E & N & D) _ IH]; intros d rest; [reflexivity|]. cbn [app read_awr concat]. rewrite E, flat_even, pairs_flat, fold_left_app, <- IH.
  destruct (concat (map (fun p : str * str => [fst p; snd p]) ps)) as [|w r] eqn:F; [destruct ps; [congruence|discriminate F]|].
  destruct (str_eqb w directory) eqn:X; [exfalso; apply D; exact (proj1 (directory_iff l w r E) X)|reflexivity].
Qed.
Lemma gap_read gap ld rest : Forall (fun l => split l <> [] /\ ~ starts_directory l) gap -> starts_directory ld -> forall l0, split l0 <> [] -> ~ starts_directory l0 ->
  to_directory (split l0) (gap ++ ld :: rest) = Ok rest.
Proof.
  intros H [r Hd]. induction H as [|l gap [H1 H2] _ IH]; intros l0 N D; cbn [app to_directory].
  - destruct (split l0) as [|w s] eqn:E; [congruence|]. destruct (str_eqb w directory) eqn:X; [exfalso; apply D; exact (proj1 (directory_iff l0 w s E) X)|].
    rewrite Hd. assert (Q : forall ls, to_directory (s2l "directory" :: r) ls = Ok ls) by (intros [|? ?]; reflexivity). apply Q.
  - destruct (split l0) as [|w s] eqn:E; [congruence|]. destruct (str_eqb w directory) eqn:X; [exfalso; apply D; exact (proj1 (directory_iff l0 w s E) X)|].
    apply IH; assumption.
Qed.
Lemma fold_put ps : forall d k, dget str_eqb k (fold_left put ps d) = match dget str_eqb k (fold_left put ps []) with Some v => Some v | None => dget str_eqb k d end.
Proof.
  induction ps as [|[a b] ps IH] using rev_ind; intros d k; [reflexivity|]. rewrite !fold_left_app. cbn [fold_left put fst snd]. destruct (str_eqb k a) eqn:E.
  - apply str_eqb_eq in E as ->. unfold put. rewrite !(dget_dset_same str_eqb str_eqb_eq). reflexivity.
  - assert (k <> a) by (intros ->; rewrite str_eqb_refl in E; discriminate E). unfold put. cbn [fst snd]. rewrite !(dget_dset_other str_eqb str_eqb_eq) by assumption. apply IH.
Qed.
Lemma put_keys ps : forall d, NoDup (dkeys d) -> NoDup (dkeys (fold_left put ps d)).
Proof. induction ps as [|p ps IH]; intros d H; [exact H|]. apply IH. apply (dset_nodup str_eqb str_eqb_eq). exact H. Qed.
Lemma last_of ps k v : dget str_eqb k (fold_left put ps []) = Some v <-> LastOf ps k v.
Proof.
  induction ps as [|[a b] ps IH] using rev_ind.
  - split; [discriminate|]. intros (x & y & E & _). destruct x; discriminate E.
  - rewrite fold_left_app. cbn [fold_left]. unfold put at 1. cbn [fst snd]. destruct (str_eqb k a) eqn:E.
    + apply str_eqb_eq in E as ->. rewrite (dget_dset_same str_eqb str_eqb_eq). split.
      * intros X. injection X as ->. exists ps, []. split; [reflexivity|intros []].
      * intros (x & y & X & Y). destruct (@exists_last _ ((a, v) :: y) ltac:(discriminate)) as (z & [a' b'] & Z). rewrite Z in X. rewrite app_assoc in X. apply app_inj_tail in X as [_ X]. injection X as -> ->.
        destruct y as [|p y] using rev_ind; [destruct z; [injection Z as ->; reflexivity|injection Z as _ Z; destruct z; discriminate Z]|].
        exfalso. apply Y. rewrite map_app. apply in_or_app. right. left. change ((a', v) :: y ++ [p]) with (((a', v) :: y) ++ [p]) in Z. apply app_inj_tail in Z as [_ ->]. reflexivity.
    + assert (N : k <> a) by (intros ->; rewrite str_eqb_refl in E; discriminate E). rewrite (dget_dset_other str_eqb str_eqb_eq) by assumption. rewrite IH. split.
      * intros (x & y & -> & Y). exists x, (y ++ [(a, b)]). split; [rewrite <- app_assoc; reflexivity|]. rewrite map_app. intros X. apply in_app_or in X as [X|[X|[]]]; [tauto|cbn [fst] in X; congruence].
      * intros (x & y & X & Y). destruct y as [|p y _] using rev_ind.
        -- apply app_inj_tail in X as [_ X]. injection X as -> _. congruence.
        -- change (x ++ (k, v) :: y ++ [p]) with (x ++ ((k, v) :: y) ++ [p]) in X. rewrite app_assoc in X. apply app_inj_tail in X as [-> _]. exists x, y. split; [reflexivity|]. intros Z. apply Y. rewrite map_app. apply in_or_app. left. exact Z.
Qed.
Lemma datapath_ok dp l : FirstLine dp l -> read_datapath l = Ok dp.
Proof.
  unfold FirstLine, read_datapath. destruct dp as [p|].
  - intros ((w & r & t & E & W) & a & b & L & N & ->). rewrite E, W. replace (strip_prefix (s2l "datapath") (s2l "datapath" ++ t)) with (Some t) by reflexivity.
    assert (A : after_equal l = Some b). { rewrite L. clear -N. induction a as [|c a IH]; cbn [app after_equal]; [reflexivity|]. destruct (Ascii.eqb_spec c "=") as [->|]; [exfalso; apply N; left; reflexivity|]. apply IH. intros X. apply N. right. exact X. }
    rewrite A. reflexivity.
  - intros H. destruct (split l) as [|w r]; [reflexivity|]. destruct (strip_prefix (s2l "datapath") (map lower w)) as [t|] eqn:P; [|reflexivity].
    exfalso. apply (H w r eq_refl). exists t. apply strip_prefix_some in P. exact P.
Qed.
Lemma title_ok l : SecondLine l <-> is_title l = true.
Proof.
  unfold SecondLine, is_title. split.
  - intros (a & b & c & -> & -> & -> & ->). reflexivity.
  - destruct (split l) as [|a [|b [|c [|]]]]; try discriminate. intros H. apply Bool.andb_true_iff in H as [H H3]. apply Bool.andb_true_iff in H as [H1 H2]. apply str_eqb_eq in H1, H2, H3. exists a, b, c. auto.
Qed.
Theorem xsdir_read dp ps ts lines : XsdirText dp ps ts lines -> exists awr, read_xsdir lines = Ok (mkX dp awr ts) /\ NoDup (map fst awr) /\ (forall k v, In (k, v) awr <-> LastOf ps k v).
Proof.
  intros (l1 & l2 & als & gap & ld & ess & e & pss & -> & H1 & H2 & H3 & -> & [G1 G2] & HD & HE & He).
  exists (fold_left put (concat pss) []). split; [|split].
  - unfold read_xsdir. cbn [readline]. rewrite (datapath_ok dp l1 H1). cbn [bind]. rewrite (proj1 (title_ok l2) H2). cbn [negb]. rewrite (awr_pairs pss als H3).
    destruct gap as [|g gap]; cbn [app].
    + destruct HD as [r HD]. cbn [read_awr]. rewrite HD. change (str_eqb (s2l "directory") directory) with true.
      assert (Q : forall ls, to_directory (s2l "directory" :: r) ls = Ok ls) by (intros [|? ?]; reflexivity).
      destruct (Nat.odd _); cbn [bind]; rewrite Q; cbn [bind]; rewrite (tables_read ts ess e HE He); reflexivity.
    + inversion G1 as [|? ? [N D] G]; subst. cbn [read_awr]. rewrite G2. cbn [bind]. rewrite (gap_read gap ld _ G HD g N D). cbn [bind]. rewrite (tables_read ts ess e HE He). reflexivity.
  - apply (put_keys (concat pss) []). constructor.
  - intros k v. rewrite <- last_of. split; [apply (in_dget str_eqb str_eqb_eq); apply (put_keys (concat pss) []); constructor|apply (dget_some_in str_eqb str_eqb_eq)].
Qed.

(** refusals *)
Theorem no_title l1 l2 rest : ~ SecondLine l2 -> exists e, read_xsdir (l1 :: l2 :: rest) = Err e.
Proof.
  intros H. unfold read_xsdir. cbn [readline]. destruct (read_datapath l1); cbn [bind]; [|eauto]. destruct (is_title l2) eqn:E; [exfalso; apply H; apply title_ok; exact E|cbn [negb]; eauto].
Qed.
Lemma awr_rest lines : forall d d' ws rest, read_awr d lines = Ok (d', ws, rest) -> exists a l, lines = a ++ l :: rest /\ ws = split l.
Proof.
  induction lines as [|l lines IH]; intros d d' ws rest; [discriminate|]. cbn [read_awr]. destruct (Nat.odd (length (split l))); [intros E; injection E as <- <- <-; exists [], l; auto|].
  destruct (split l) as [|w r] eqn:S; [discriminate|]. destruct (str_eqb w directory); [intros E; injection E as <- <- <-; exists [], l; auto|].
  intros E. destruct (IH _ _ _ _ E) as (a & x & -> & ->). exists (l :: a), x. auto.
Qed.
Lemma directory_rest lines : forall l0 rest, to_directory (split l0) lines = Ok rest -> exists a l b, l0 :: lines = a ++ l :: b /\ b = rest /\ starts_directory l.
Proof.
  induction lines as [|l lines IH]; intros l0 rest; cbn [to_directory]; destruct (split l0) as [|w r] eqn:S; try discriminate; destruct (str_eqb w directory) eqn:E; try discriminate.
  - intros X. injection X as <-. exists [], l0, []. split; [reflexivity|]. split; [reflexivity|]. exact (proj1 (directory_iff l0 w r S) E).
  - intros X. injection X as <-. exists [], l0, (l :: lines). split; [reflexivity|]. split; [reflexivity|]. exact (proj1 (directory_iff l0 w r S) E).
  - intros X. destruct (IH _ _ X) as (a & x & b & E1 & E2 & E3). exists (l0 :: a), x, b. rewrite E1. auto.
Qed.
Theorem read_has_parts lines x : read_xsdir lines = Ok x -> exists l1 l2 mid ld rest, lines = l1 :: l2 :: mid ++ ld :: rest /\ SecondLine l2 /\ starts_directory ld.
Proof.
  unfold read_xsdir. destruct lines as [|l1 [|l2 lines]]; cbn [readline]; [discriminate|destruct (read_datapath l1); discriminate|].
  destruct (read_datapath l1); [cbn [bind]|discriminate]. destruct (is_title l2) eqn:T; [cbn [negb]|discriminate]. destruct (read_awr [] lines) as [[[awr ws] r3]|] eqn:A; [cbn [bind]|discriminate].
  destruct (to_directory ws r3) as [r4|] eqn:D; [|discriminate]. intros _. destruct (awr_rest _ _ _ _ _ A) as (a & l & -> & ->). destruct (directory_rest _ _ _ D) as (b & ld & c & E & _ & Hd).
  exists l1, l2, (a ++ b), ld, c. rewrite <- app_assoc, <- E. split; [reflexivity|]. split; [apply title_ok; exact T|exact Hd].
Qed.
Lemma short_entry ws : length ws < 7 -> table_of ws = Err OtherError.
Proof. intros H. destruct ws as [|? [|? [|? [|? [|? [|? [|? ?]]]]]]]; try reflexivity. cbn [length] in H. lia. Qed.
Theorem short_refused ts ess ws ls rest : Forall2 Entry ts ess -> EntryText ws ls -> length ws < 7 -> read_tables None (concat ess ++ ls ++ rest) = Err OtherError.
Proof.
  intros H Hw Hl. induction H as [|t es ts ess Ht _ IH]; cbn [concat app].
  - rewrite (entry_read ws ls Hw). cbn [words]. rewrite short_entry by exact Hl. reflexivity.
  - destruct Ht as (vs & Hv & a & f & d & n & more & Ht & H1 & H2 & H3 & H4 & H5 & H6 & H7 & H8). rewrite <- app_assoc, (entry_read vs es Hv). cbn [words].
    rewrite (table_ok t vs a f d n more) by assumption. cbn [bind]. rewrite IH. reflexivity.
Qed.
Theorem short_file_refused l1 l2 als gap ld ts ess ws ls rest dp pss : FirstLine dp l1 -> SecondLine l2 -> Forall2 PairLine pss als -> Gap gap -> starts_directory ld ->
  Forall2 Entry ts ess -> EntryText ws ls -> length ws < 7 -> read_xsdir (l1 :: l2 :: als ++ gap ++ ld :: concat ess ++ ls ++ rest) = Err OtherError.
Proof.
  intros H1 H2 H3 [G1 G2] HD HE Hw Hl. unfold read_xsdir. cbn [readline]. rewrite (datapath_ok dp l1 H1). cbn [bind]. rewrite (proj1 (title_ok l2) H2). cbn [negb]. rewrite (awr_pairs pss als H3).
  destruct gap as [|g gap]; cbn [app].
  - destruct HD as [r HD]. cbn [read_awr]. rewrite HD. change (str_eqb (s2l "directory") directory) with true.
    assert (Q : forall ls, to_directory (s2l "directory" :: r) ls = Ok ls) by (intros [|? ?]; reflexivity).
    destruct (Nat.odd _); cbn [bind]; rewrite Q; cbn [bind]; rewrite (short_refused ts ess ws ls rest HE Hw Hl); reflexivity.
  - inversion G1 as [|? ? [N D] G]; subst. cbn [read_awr]. rewrite G2. cbn [bind]. rewrite (gap_read gap ld _ G HD g N D). cbn [bind]. rewrite (short_refused ts ess ws ls rest HE Hw Hl). reflexivity.
Qed.
