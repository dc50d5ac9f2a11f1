(** What the small predicates on characters, words and tables that some specifications use mean. *)
From Coq Require Import Lia ZArith.
From Verif Require Import PyBase PyStr PyText PyStrLemmas D1SModel D1SProofs2 MatInfoSpec MatInfoProofs2 DataModel LibModel OutModel FispModel EeoutModel TalSumModel PathsModel InpModel EliteModel MatModel XsModel XsSpec XsProofs HelpSpec HelpProofs.
Open Scope nat_scope.

(* C80: the characters of the names of the counts and of the types of the edits, and the lines of values *)
Theorem C80_characters : forall c, (info_char c = true <-> Letter c \/ Blank c \/ Digit c) /\ (is_word c = true <-> Letter c \/ Digit c \/ c = "_"%char).
Proof.
  intros c. unfold info_char, is_word. rewrite !Bool.orb_true_iff, digit_iff, blank_iff, Ascii.eqb_eq.
  assert (L : is_letter c = true <-> Letter c) by (first [exact (letter_iff c)|unfold is_letter, is_upper, is_lower, in_range, Letter; cbv zeta; rewrite Bool.orb_true_iff, !range_iff; reflexivity]). rewrite L. tauto.
Qed.
Print Assumptions C80_characters.
Theorem C80_value_lines : forall l, value_line l = true <-> exists a b c r, l = a :: b :: c :: r /\ Blank a /\ (Blank b \/ b = "-"%char) /\ Digit c.
Proof.
  intros l. split.
  - intros H. destruct l as [|a [|b [|c r]]]; try discriminate H. cbn [value_line] in H. rewrite !Bool.andb_true_iff, Bool.orb_true_iff, digit_iff, !blank_iff, Ascii.eqb_eq in H. exists a, b, c, r. tauto.
  - intros (a & b & c & r & -> & A & B & C). cbn [value_line]. rewrite !Bool.andb_true_iff, Bool.orb_true_iff, digit_iff, !blank_iff, Ascii.eqb_eq. tauto.
Qed.
Print Assumptions C80_value_lines.
(* C80: the three lists of coordinates of the nodes must be of one length *)
Theorem C80_node_columns : forall x y z, (length x = length y /\ length y = length z /\ columns3 x y z = Ok (combine (combine x y) z))
  \/ (~ (length x = length y /\ length y = length z) /\ columns3 x y z = Err ValueError).
Proof.
  induction x as [|a x IH]; intros [|b y] [|c z]; cbn [columns3 length]; try (right; split; [lia|reflexivity]).
  - left. repeat split.
  - destruct (IH y z) as [(A & B & ->)|(N & ->)]; cbn [bind]; [left|right]; (split; [lia|]); [split; [lia|reflexivity]|reflexivity].
Qed.
Print Assumptions C80_node_columns.
(* C78, C80: capital letters *)
Theorem C78_capitals : forall c, (is_upper c = true <-> between 65 90 c) /\ (is_lower c = true <-> between 97 122 c).
Proof. intros c. split; apply range_iff. Qed.
Print Assumptions C78_capitals.
(* C98: the particles of a tally are n, p and commas, in both cases; the comment lines of its cards start with C *)
Theorem C98_characters : (forall c, is_np c = true <-> In c (s2l "nN,pP")) /\ forall l, c_line l = true <-> exists c r, l = c :: r /\ (c = "C"%char \/ c = "c"%char).
Proof.
  split.
  - intros c. unfold is_np. rewrite !Bool.orb_true_iff, !Ascii.eqb_eq. cbn. intuition congruence.
  - intros [|c r]; cbn [c_line]; [split; [discriminate|intros (c & r & X & _); discriminate X]|]. rewrite Bool.orb_true_iff, !Ascii.eqb_eq. split; [intros H; exists c, r; auto|intros (c' & r' & X & H)]. injection X as -> ->. exact H.
Qed.
Print Assumptions C98_characters.
(* C37, C46: the order of texts is that of dictionaries: a proper beginning comes first, otherwise the first different character decides *)
Theorem C46_order : forall a b, D1SModel.str_leb a b = true <-> (exists r, b = a ++ r) \/ exists p x y r s, a = p ++ x :: r /\ b = p ++ y :: s /\ (N_of_ascii x < N_of_ascii y)%N.
Proof.
  induction a as [|x a IH]; intros b; cbn [D1SModel.str_leb].
  - split; [intros _; left; exists b; reflexivity|reflexivity].
  - destruct b as [|y b]. { split; [discriminate|]. intros [(r & X)|(p & u & v & r & s & _ & X & _)]; [discriminate X|destruct p; discriminate X]. }
    rewrite Bool.orb_true_iff, Bool.andb_true_iff, N.ltb_lt, Ascii.eqb_eq, IH. split.
    + intros [H|[-> [(r & ->)|(p & u & v & r & s & -> & -> & L)]]]; [right; exists [], x, y, a, b; auto|left; exists r; reflexivity|right; exists (y :: p), u, v, r, s; auto].
    + intros [(r & X)|(p & u & v & r & s & A & B & L)].
      * injection X as -> ->. right. split; [reflexivity|]. left. exists r. reflexivity.
      * destruct p as [|z p]; cbn [app] in A, B; [injection A as -> ->; injection B as -> ->; left; exact L|]. injection A as -> ->. injection B as -> ->. right. split; [reflexivity|]. right. exists p, u, v, r, s. auto.
Qed.
Print Assumptions C46_order.
Theorem C37_order : forall a1 a2 a3 b1 b2 b3, triple_leb (a1, a2, a3) (b1, b2, b3) = true <->
  str_lt a1 b1 \/ (a1 = b1 /\ (str_lt a2 b2 \/ (a2 = b2 /\ (a3 = b3 \/ str_lt a3 b3)))).
Proof.
  assert (I : forall a b, str_lt a b -> a <> b). { intros a b H ->. apply str_lt_leb in H. assert (D1SModel.str_leb b b = true) by (apply str_leb_iff; left; reflexivity). congruence. }
  intros. cbn [triple_leb]. destruct (str_eqb a1 b1) eqn:E1; [apply str_eqb_eq in E1; subst b1|].
  - destruct (str_eqb a2 b2) eqn:E2; [apply str_eqb_eq in E2; subst b2|].
    + rewrite str_leb_iff. split; [auto|]. intros [H|[_ [H|[_ H]]]]; [destruct (I _ _ H eq_refl)..|exact H].
    + rewrite str_leb_iff. split; [intros [->|H]; [rewrite (proj2 (str_eqb_eq b2 b2) eq_refl) in E2; discriminate E2|auto]|]. intros [H|[_ [H|[-> _]]]]; [destruct (I _ _ H eq_refl)|auto|auto].
  - rewrite str_leb_iff. split; [intros [->|H]; [rewrite (proj2 (str_eqb_eq b1 b1) eq_refl) in E1; discriminate E1|auto]|]. intros [H|[-> _]]; auto.
Qed.
Print Assumptions C37_order.
(* C32: the key of a card is the first word, in capitals, of its first line that is neither empty nor a comment *)
Theorem C32_key_of_a_card : forall a l b, Forall Skipped a -> ~ Skipped l -> key_of_lines (a ++ l :: b) = match split l with w :: _ => Ok (upper w) | [] => Err IndexError end.
Proof.
  intros a l b F N. induction F as [|x a H _ IH]; cbn [app key_of_lines].
  - destruct l as [|c l]; [destruct N; left; reflexivity|]. destruct (pat_comment ((c :: l) ++ [nl])) eqn:P; [destruct N; right; exact P|reflexivity].
  - destruct x as [|c x]; [exact IH|]. destruct H as [H|H]; [discriminate H|]. rewrite H. exact IH.
Qed.
Print Assumptions C32_key_of_a_card.
Theorem C32_no_key : forall a, Forall Skipped a -> key_of_lines a = Err ValueError.
Proof. intros a F. induction F as [|x a H _ IH]; cbn [key_of_lines]; [reflexivity|]. destruct x as [|c x]; [exact IH|]. destruct H as [H|H]; [discriminate H|]. rewrite H. exact IH. Qed.
Print Assumptions C32_no_key.
(* C33: the words with a letter *)
Theorem C33_letters : forall w, has_alpha w = true <-> exists c, In (Ch c) w /\ Letter c.
Proof.
  intros w. unfold has_alpha. rewrite existsb_exists. split.
  - intros ([c|h] & I & H); [|discriminate H]. exists c. split; [exact I|]. unfold is_alpha in H. cbv zeta in H. rewrite Bool.orb_true_iff, !range_iff in H. exact H.
  - intros (c & I & H). exists (Ch c). split; [exact I|]. unfold is_alpha. cbv zeta. rewrite Bool.orb_true_iff, !range_iff. exact H.
Qed.
Print Assumptions C33_letters.
(* C44: the sectors go once around: each one starts where the one before ends, 40 degrees each and 80 for 2 & 3; all the tables have all the sectors *)
Theorem C44_tables : map fst sector_angles = sector_names /\ map fst sector_boundaries = sector_names /\ map fst plasma_cells = sector_names
  /\ map (fun p => snd (snd p)) sector_angles = tl (map (fun p => fst (snd p)) sector_angles) ++ [10%Z]
  /\ map (fun p => width (snd p)) sector_angles = [40; 80; 40; 40; 40; 40; 40; 40]%Z /\ hd 0%Z (map (fun p => fst (snd p)) sector_angles) = 10%Z
  /\ NoDup (map snd plasma_cells) /\ NoDup (concat (map (fun p => [Z.abs (fst (snd p)); Z.abs (snd (snd p))]) sector_boundaries)).
Proof. repeat split; try (vm_compute; reflexivity); repeat constructor; vm_compute; intuition congruence. Qed.
Print Assumptions C44_tables.
(* C83: a file whose lines end, or have an empty one, before any line starting with directory is refused *)
Theorem C83_no_directory : forall dp l1 l2 a rest, FirstLine dp l1 -> SecondLine l2 -> Forall (fun l => ~ starts_directory l) a -> (rest = [] \/ exists l r, rest = l :: r /\ split l = []) ->
  read_xsdir (l1 :: l2 :: a ++ rest) = Err IndexError.
Proof. exact no_directory_refused. Qed.
Print Assumptions C83_no_directory.
Example Help_witness : value_line (s2l "  1.5") = true /\ Skipped (s2l "c text") /\ ~ Skipped (s2l "F4:n 1") /\ key_of_lines [s2l "c text"; s2l "f4:n 1"] = Ok (s2l "F4:N").
Proof. repeat split; try (vm_compute; reflexivity); [right; vm_compute; reflexivity|]. intros [X|X]; vm_compute in X; discriminate X. Qed.
Example C83_no_directory_case : FirstLine None (s2l "x") /\ SecondLine (s2l "atomic weight ratios") /\ read_xsdir [s2l "x"; s2l "atomic weight ratios"; s2l "1001 0.99"; s2l "date"; []; s2l "directory"] = Err IndexError.
Proof. split; [|split; [exists (s2l "atomic"), (s2l "weight"), (s2l "ratios"); repeat split|vm_compute; reflexivity]]. intros w r E (t & X). vm_compute in E. injection E as <- <-. discriminate X. Qed.
