(** Proofs about reading a mctal file: words, sections, values. *)
From Coq Require Import Lia ZArith.
From Verif Require Import PyBase PyLemmas PyStr PyStrLemmas PyText D1SProofs2 MatProofs MatProofs2 DataModel MeshModel MeshSpec MeshProofs MctalModel MctalSpec.
Open Scope nat_scope.

(** ** strip and split *)
Lemma lstrip_decomp s : exists p, s = p ++ lstrip s /\ all_ws p /\ match lstrip s with c :: _ => is_ws c = false | [] => True end.
Proof.
  induction s as [|c s IH]; [exists []; repeat split; constructor|]. cbn [lstrip]. destruct (is_ws c) eqn:E.
  - destruct IH as (p & E1 & H & H2). exists (c :: p). split; [cbn [app]; f_equal; exact E1|]. split; [constructor; assumption|exact H2].
  - exists []. repeat split; [constructor|exact E].
Qed.
Lemma strip_decomp s : exists p q, s = p ++ strip s ++ q /\ all_ws p /\ all_ws q /\ match strip s with c :: _ => is_ws c = false | [] => True end.
Proof.
  destruct (lstrip_decomp s) as (p & E & H & H2). destruct (lstrip_decomp (rev (lstrip s))) as (q & E' & H' & H2').
  exists p, (rev q). apply (f_equal (@rev ascii)) in E'. rewrite rev_involutive, rev_app_distr in E'. fold (strip s) in E'.
  split; [rewrite E at 1; rewrite E' at 1; reflexivity|]. split; [exact H|]. split; [apply Forall_rev; exact H'|].
  destruct (strip s) as [|c r]; [exact I|]. rewrite E' in H2. exact H2.
Qed.
Lemma split_strip s : split (strip s) = split s.
Proof.
  destruct (strip_decomp s) as (p & q & E & Hp & Hq & _). rewrite E at 2. rewrite split_ws by exact Hp. symmetry. apply split_trail. exact Hq.
Qed.
Lemma split_head c s : is_ws c = false -> exists w ws, split (c :: s) = (c :: w) :: ws.
Proof.
  intros H. assert (G : forall x cur, cur <> [] -> exists w ws, split_aux cur x = (rev cur ++ w) :: ws).
  { induction x as [|a x IH]; intros cur Hc; cbn [split_aux].
    - destruct cur; [contradiction|]. exists [], []. rewrite app_nil_r. reflexivity.
    - destruct (is_ws a).
      + destruct cur as [|b cur]; [contradiction|]. exists [], (split_aux [] x). rewrite app_nil_r. reflexivity.
      + destruct (IH (a :: cur)) as (w & ws & E); [discriminate|]. exists (a :: w), ws. rewrite E. cbn [rev]. rewrite <- app_assoc. reflexivity. }
  destruct (G s [c]) as (w & ws & E); [discriminate|]. exists w, ws. unfold split. cbn [split_aux]. rewrite H. exact E.
Qed.
Lemma strip_nil s : strip s = [] <-> split s = [].
Proof.
  rewrite <- split_strip. destruct (strip_decomp s) as (_ & _ & _ & _ & _ & H). destruct (strip s) as [|c r]; [split; reflexivity|].
  destruct (split_head c r H) as (w & ws & ->). split; discriminate.
Qed.
Lemma strip_head s : match strip s with [] => split s = [] | c :: _ => exists w ws, split s = (c :: w) :: ws end.
Proof.
  rewrite <- split_strip. destruct (strip_decomp s) as (_ & _ & _ & _ & _ & H). destruct (strip s) as [|c r]; [reflexivity|].
  apply split_head. exact H.
Qed.
Lemma mentions_strip p s : mentions p (strip s) -> mentions p s.
Proof.
  intros (a & b & E). destruct (strip_decomp s) as (x & y & E2 & _). rewrite E2, E. exists (x ++ a), (b ++ y).
  rewrite <- !app_assoc. reflexivity.
Qed.
Lemma in_split_in s w : In w (split s) -> exists a b, s = a ++ w ++ b.
Proof.
  unfold split. assert (G : forall x cur, In w (split_aux cur x) -> exists a b, rev cur ++ x = a ++ w ++ b).
  { induction x as [|c x IH]; intros cur H; cbn [split_aux] in H.
    - destruct cur; [destruct H|]. destruct H as [<-|[]]. exists [], []. rewrite !app_nil_r. reflexivity.
    - destruct (is_ws c).
      + destruct cur as [|b cur].
        * destruct (IH [] H) as (a & b & E). exists (c :: a), b. cbn [rev app] in *. rewrite E. reflexivity.
        * destruct H as [<-|H]; [exists [], (c :: x); reflexivity|]. destruct (IH [] H) as (a & d & E).
          exists (rev (b :: cur) ++ [c] ++ a), d. cbn [rev app] in E. rewrite E. rewrite <- !app_assoc. reflexivity.
      + destruct (IH (c :: cur) H) as (a & b & E). exists a, b. rewrite <- E. cbn [rev]. rewrite <- app_assoc. reflexivity. }
  intros H. destruct (G s [] H) as (a & b & E). exists a, b. exact E.
Qed.

(** ** sections *)
Lemma section_ok {A} stop (ins : A -> str -> res A) h rest c r : h = c :: r -> lower c = stop -> stop <> sp ->
  forall ls a a', Forall (fun l => exists r, l = sp :: r) ls -> foldM ins a ls = Ok a' ->
  section stop ins a (hd [] (ls ++ h :: rest)) (tl (ls ++ h :: rest)) = Ok (a', h, rest).
Proof.
  intros -> Hc Hs ls. induction ls as [|l ls IH]; intros a a' HF E.
  - cbn [foldM] in E. injection E as <-. destruct rest; cbn [app hd tl section]; rewrite Hc, Ascii.eqb_refl; reflexivity.
  - inversion HF as [|x y [r' ->] HF']; subst. cbn [foldM] in E. destruct (ins a (sp :: r')) as [b|] eqn:Ei; [|discriminate E].
    cbn [bind] in E. specialize (IH b a' HF' E). cbn [app hd tl]. destruct (ls ++ (c :: r) :: rest) as [|l2 f2] eqn:El; [destruct ls; discriminate El|].
    cbn [section hd tl] in *. change (lower sp) with sp. destruct (Ascii.eqb_spec sp (lower c)); [congruence|]. rewrite Ei. cbn [bind]. exact IH.
Qed.

Lemma foldM_concat {A B} (f : A -> B -> res A) ls : forall a, foldM (fun a l => foldM f a l) a ls = foldM f a (concat ls).
Proof.
  assert (G : forall l a r, foldM f a (l ++ r) = do b <- foldM f a l; foldM f b r).
  { induction l as [|x l IH]; intros a r; [reflexivity|]. cbn [app foldM]. destruct (f a x) as [b|]; cbn [bind]; [apply IH|reflexivity]. }
  induction ls as [|l ls IH]; intros a; [reflexivity|]. cbn [foldM concat]. rewrite G. destruct (foldM f a l); cbn [bind]; auto.
Qed.
Lemma foldM_map {A B C} (g : C -> B) (f : A -> B -> res A) ls : forall a, foldM (fun a l => f a (g l)) a ls = foldM f a (map g ls).
Proof. induction ls as [|l ls IH]; intros a; [reflexivity|]. cbn [foldM map]. destruct (f a (g l)); cbn [bind]; auto. Qed.
Lemma insert_words {B} (P : str -> res B) (val : B -> Q) cap e ws : forall bs xs, Forall2 (fun w b => P w = Ok b) ws bs -> (Z.of_nat (length xs + length bs) <= cap + 1)%Z ->
  foldM (fun xs w => do x <- P w; insert cap e xs (val x)) xs ws = Ok (xs ++ map val bs).
Proof.
  induction ws as [|w ws IH]; intros bs xs H Hl; inversion H as [|a b c d Hw Hws]; subst; cbn [foldM map].
  - rewrite app_nil_r. reflexivity.
  - cbn [length] in Hl. rewrite Hw. cbn [bind]. unfold insert. replace (Z.of_nat (length xs) <=? cap)%Z with true by (symmetry; apply Z.leb_le; lia).
    cbn [bind]. rewrite (IH d) by (auto; rewrite app_length; cbn [length]; lia). rewrite <- app_assoc. reflexivity.
Qed.
Lemma insert_lines cap e ls qs : (Z.of_nat (length qs) <= cap + 1)%Z -> Numbers qs ls ->
  Forall (fun l => exists r, l = sp :: r) ls /\ foldM (insert_line cap e) [] ls = Ok qs.
Proof.
  intros Hl [Hf Hw]. split; [exact Hf|]. unfold insert_line.
  rewrite (foldM_map split (fun xs ws => foldM (fun xs w => do x <- parse_float w; insert cap e xs x) xs ws)), foldM_concat.
  rewrite (insert_words parse_float (fun x => x) cap e _ qs) by (auto; cbn [length]; lia). rewrite map_id. reflexivity.
Qed.
Lemma cell_lines cap ls zs : (Z.of_nat (length zs) <= cap + 1)%Z -> CellNumbers zs ls ->
  Forall (fun l => exists r, l = sp :: r) ls /\ foldM (cell_line cap) [] ls = Ok (map inject_Z zs).
Proof.
  intros Hl [[Hf Hw] Hd]. split; [exact Hf|].
  assert (E : forall ls a, Forall (fun l => ~ In dot l) ls -> foldM (cell_line cap) a ls = foldM (fun xs l => foldM (fun xs w => do z <- parse_int w; insert cap OtherError xs (inject_Z z)) xs (split l)) a ls).
  { induction ls0 as [|l ls0 IH]; intros a H; [reflexivity|]. inversion H as [|x y Hx Hy]; subst. cbn [foldM].
    assert (N : has_char dot l = false). { unfold has_char. destruct (existsb (Ascii.eqb dot) l) eqn:X; [|reflexivity]. apply existsb_exists in X as (c & Hc & Hc2). apply Ascii.eqb_eq in Hc2. subst. contradiction. }
    unfold cell_line at 1. rewrite N. cbn [andb]. destruct (foldM _ a (split l)); cbn [bind]; auto. }
  rewrite E by exact Hd. rewrite (foldM_map split (fun xs ws => foldM (fun xs w => do z <- parse_int w; insert cap OtherError xs (inject_Z z)) xs ws)), foldM_concat.
  rewrite (insert_words parse_int inject_Z cap OtherError _ zs) by (auto; cbn [length]; lia). reflexivity.
Qed.

(** ** head lines *)
Lemma str_eqb_refl' a : str_eqb a a = true. Proof. apply str_eqb_eq. reflexivity. Qed.
Lemma marker_ok letter tc w : marked letter tc w -> marker letter w = tc.
Proof.
  unfold marked, marker. intros ->. destruct tc as [[|]|].
  - rewrite str_eqb_refl'. reflexivity.
  - replace (str_eqb [letter; "c"%char] [letter; "t"%char]) with false; [rewrite str_eqb_refl'; reflexivity|].
    symmetry. destruct (str_eqb _ _) eqn:X; [apply str_eqb_eq in X; discriminate X|reflexivity].
  - replace (str_eqb [letter] [letter; "t"%char]) with false by (symmetry; destruct (str_eqb _ _) eqn:X; [apply str_eqb_eq in X; discriminate X|reflexivity]).
    replace (str_eqb [letter] [letter; "c"%char]) with false by (symmetry; destruct (str_eqb _ _) eqn:X; [apply str_eqb_eq in X; discriminate X|reflexivity]). reflexivity.
Qed.
Lemma marked_head letter tc w l more : marked letter tc w -> Starts w more l -> exists c r, l = c :: r /\ lower c = letter.
Proof.
  unfold marked. intros H [_ (r & ->)]. destruct w as [|c w]; [discriminate H|]. cbn [map] in H. injection H as H _. exists c, (w ++ r). split; [reflexivity|exact H].
Qed.
Lemma plain_ok letter a ls : PlainHead letter a ls -> Plain a ->
  exists l c r, ls = [l] /\ l = c :: r /\ lower c = letter /\ axis_line letter false l = Ok (a_n a, a_tc a, a_flag a).
Proof.
  intros (l & -> & w & n & more & HS & Hm & Hn) Hp. destruct (marked_head _ _ _ _ _ Hm HS) as (c & r & E & Hc).
  exists l, c, r. split; [reflexivity|]. split; [exact E|]. split; [exact Hc|]. unfold axis_line. destruct HS as [-> _].
  unfold word, int_at, word. cbn [nth_error of_opt bind andb]. rewrite Hn. cbn [bind]. rewrite (marker_ok _ _ _ Hm), Hp. reflexivity.
Qed.
Lemma axis_ok letter a ls : AxisHead letter a ls ->
  exists l c r, ls = [l] /\ l = c :: r /\ lower c = letter /\ axis_line letter true l = Ok (a_n a, a_tc a, a_flag a).
Proof.
  intros (l & -> & w & n & more & HS & Hm & Hn & Hf). destruct (marked_head _ _ _ _ _ Hm HS) as (c & r & E & Hc).
  exists l, c, r. split; [reflexivity|]. split; [exact E|]. split; [exact Hc|]. unfold axis_line. destruct HS as [-> _].
  unfold word, int_at, word. cbn [nth_error of_opt bind andb]. rewrite Hn. cbn [bind].
  rewrite (marker_ok _ _ _ Hm). destruct more as [|x [|y z]]; cbn [length Nat.eqb nth_error of_opt bind] in *.
  - rewrite Hf. reflexivity.
  - rewrite Hf. reflexivity.
  - contradiction.
Qed.

(** ** time bins *)
Lemma numeral_not_vals w q : numeral w q -> map lower w <> s2l "vals".
Proof.
  unfold numeral. intros H E. destruct w as [|c w]; [discriminate E|]. cbn [map s2l list_ascii_of_string] in E. injection E as E _.
  assert (X : c = "v"%char \/ c = "V"%char) by (destruct c as [[] [] [] [] [] [] [] []]; try discriminate E; auto).
  destruct X as [-> | ->]; discriminate H.
Qed.
Lemma time_ok cap h rest : map lower (strip h) = s2l "vals" -> forall ls xs qs,
  Forall2 numeral (concat (map split ls)) qs -> (Z.of_nat (length xs + length qs) <= cap + 1)%Z ->
  time_bins cap xs (hd [] (ls ++ h :: rest)) (tl (ls ++ h :: rest)) = Ok (xs ++ qs, h, rest).
Proof.
  intros Hh. induction ls as [|l ls IH]; intros xs qs H Hl.
  - cbn [map concat] in H. inversion H; subst. rewrite app_nil_r. destruct rest; cbn [app hd tl time_bins]; rewrite Hh; reflexivity.
  - cbn [map concat] in H. apply Forall2_app_inv_l in H as (q1 & q2 & H1 & H2 & ->). rewrite app_length in Hl.
    cbn [app hd tl]. destruct (ls ++ h :: rest) as [|l2 f2] eqn:El; [destruct ls; discriminate El|]. cbn [time_bins].
    assert (N : str_eqb (map lower (strip l)) (s2l "vals") = false).
    { destruct (str_eqb (map lower (strip l)) (s2l "vals")) eqn:X; [|reflexivity]. apply str_eqb_eq in X. exfalso.
      rewrite <- split_strip in H1. pose proof X as X'. destruct (strip l) as [|a [|b [|c [|d [|? ?]]]]]; try discriminate X. cbn [map] in X. injection X as E1 E2 E3 E4.
      assert (Wa : forall x y, lower x = y -> In y (s2l "vals") -> is_ws x = false).
      { intros x y <- Hy. cbn in Hy. destruct x as [[] [] [] [] [] [] [] []]; cbn in Hy; try reflexivity; repeat destruct Hy as [Hy|Hy]; try discriminate Hy; try contradiction. }
      rewrite split_tok_end in H1; [|repeat constructor; (eapply Wa; [eassumption|cbn; tauto])|discriminate].
      inversion H1 as [|w q ? ? Hw _ E5 E6]. apply numeral_not_vals in Hw. exact (Hw X'). }
    rewrite N. unfold insert_line. rewrite (insert_words parse_float (fun x => x) cap OtherError _ q1) by (auto; lia). rewrite map_id. cbn [bind].
    specialize (IH (xs ++ q1) q2 H2). cbn [hd tl] in IH. rewrite IH by (rewrite app_length; lia). rewrite app_assoc. reflexivity.
Qed.
