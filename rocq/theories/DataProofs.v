(** Proofs about data cards. *)
From Coq Require Import Lia ZArith QArith Qabs.
From Verif Require Import PyBase PyLemmas PyStr PyStrLemmas PyFmtLemmas PyText D1SModel D1SProofs2 WWTextProofs LibModel MatModel MatProofs InpModel InpGeomSpec InpGeomProofs2 InpMatProofs DataModel DataSpec.
Open Scope nat_scope.

Notation lett := LibModel.is_letter.
Definition letters (p : str) : Prop := Forall (fun c => lett c = true) p.
Lemma digit_not_letter c : is_digit c = true -> lett c = false.
Proof. unfold is_digit, LibModel.is_letter. intros H. apply andb_true_iff in H as [A B]. apply N.leb_le in A, B. apply orb_false_iff. split; apply andb_false_iff; left; apply N.leb_gt; lia. Qed.
Lemma str_of_Z_first z : exists c r, str_of_Z z = c :: r /\ lett c = false.
Proof. assert (D : forall n, exists c r, str_of_N n = c :: r /\ lett c = false). { intros n. pose proof (str_of_N_digits n) as D. pose proof (str_of_N_ne n) as N. destruct (str_of_N n) as [|c r]; [now elim N|]. exists c, r. split; [reflexivity|]. inversion D. now apply digit_not_letter. }
  destruct z; cbn [str_of_Z]; try apply D. exists minus. eexists. split; reflexivity. Qed.
Lemma span_letters_app p r : letters p -> (match r with c :: _ => lett c = false | [] => True end) -> LibModel.span_letters (p ++ r) = (p, r).
Proof. intros H R. induction H as [|c p H _ IH]; cbn [app LibModel.span_letters].
  - destruct r as [|c r]; [reflexivity|]. cbn [LibModel.span_letters]. now rewrite R.
  - now rewrite H, IH. Qed.
Lemma kcat_span p id : letters (s2l p) -> LibModel.span_letters (kcat p id) = (s2l p, str_of_Z id).
Proof. intros H. apply span_letters_app; [exact H|]. destruct (str_of_Z_first id) as [c [r [-> E]]]. exact E. Qed.
Lemma kcat_inj p q i j : letters (s2l p) -> letters (s2l q) -> kcat p i = kcat q j -> s2l p = s2l q /\ i = j.
Proof. intros P Q E. pose proof (kcat_span p i P) as A. rewrite E, (kcat_span q j Q) in A. injection A as A B. split; [now symmetry|]. assert (X : parse_int (str_of_Z j) = parse_int (str_of_Z i)) by now rewrite B. rewrite !parse_str_of_Z in X. congruence. Qed.
Ltac lets := unfold letters; repeat constructor.
Lemma kF : letters (s2l "F"). Proof. lets. Qed. Lemma kFC : letters (s2l "FC"). Proof. lets. Qed.
Lemma kE : letters (s2l "E"). Proof. lets. Qed. Lemma kSD : letters (s2l "SD"). Proof. lets. Qed. Lemma kFM : letters (s2l "FM"). Proof. lets. Qed.
#[global] Hint Resolve kF kFC kE kSD kFM : kc.
Ltac kneq := let X := fresh in intros X; apply kcat_inj in X as [X _]; [discriminate X|auto with kc|auto with kc].
Lemma put_same key ls d : dget str_eqb key (d_other (put key ls d)) = Some ls.
Proof. apply (dget_dset_same str_eqb str_eqb_eq). Qed.
Lemma put_other key k ls d : k <> key -> dget str_eqb k (d_other (put key ls d)) = dget str_eqb k (d_other d).
Proof. intros H. apply (dget_dset_other str_eqb str_eqb_eq). congruence. Qed.

(** words *)
Lemma split_nil_r a c : is_ws c = true -> split (a ++ [c]) = split a.
Proof. intros H. rewrite split_app_ws by exact H. change (split []) with (@nil str). apply app_nil_r. Qed.
Lemma joined_words ws : forall a, split (fold_left (fun s w => s ++ w ++ [sp]) ws (a ++ [sp])) = split a ++ concat (map split ws).
Proof. induction ws as [|w ws IH]; intros a; cbn [fold_left map concat].
  - rewrite app_nil_r. now apply split_nil_r.
  - replace ((a ++ [sp]) ++ w ++ [sp]) with (((a ++ [sp]) ++ w) ++ [sp]) by (now rewrite <- app_assoc). rewrite IH. rewrite <- app_assoc. cbn [app]. rewrite split_app_ws by reflexivity. now rewrite <- app_assoc. Qed.
Lemma joined_line ws : split (joined ws ++ [nl]) = concat (map split ws).
Proof. rewrite split_nil_r by reflexivity. unfold joined. change (repeat sp 5) with (repeat sp 4 ++ [sp]). rewrite joined_words. reflexivity. Qed.
Lemma kcat_no_ws p id : letters (s2l p) -> no_ws (kcat p id) .
Proof. intros H. apply Forall_app. split; [|apply str_of_Z_no_ws]. revert H. apply Forall_impl. intros c H. unfold LibModel.is_letter in H. unfold is_ws. apply orb_true_iff in H. 
  destruct c as [[] [] [] [] [] [] [] []]; vm_compute in H; vm_compute; try reflexivity; destruct H; discriminate. Qed.
Lemma kcat_ne p id : kcat p id <> []. Proof. unfold kcat. intros H. apply app_eq_nil in H as [_ H]. now apply (proj2 (str_of_Z_no_ws id)). Qed.

Lemma sep_nonempty (p : str) : forall q, fold_left (fun (s : str) c => s ++ ","%char :: [c]) q p = comma_list (p :: map (fun c => [c]) q).
Proof. intros q. revert p. induction q as [|c q IH]; intros p; [reflexivity|]. cbn [fold_left map]. rewrite IH. destruct q as [|c2 q]; [reflexivity|].
  cbn [map comma_list]. now rewrite <- app_assoc. Qed.

(** the number formats *)
Lemma fmt_e_no_ws q : no_ws (fmt_e q) /\ fmt_e q <> [].
Proof. unfold fmt_e. destruct (Qeq_bool q 0); [split; [repeat constructor|discriminate]|]. destruct (Qle_bool 0 q).
  - destruct (dec5 q). apply sci_no_ws. now left.
  - destruct (dec5 (- q)%Q) as [d x]. destruct (sci_no_ws "e"%char d x (or_introl eq_refl)) as [A B]. split; [constructor; [reflexivity|exact A]|discriminate]. Qed.
Lemma parse_fmt_e q : exists v, parse_float (fmt_e q) = Ok v /\ (Qabs (v - q) <= (1 # 20000) * Qabs q)%Q.
Proof. exists (round5 q). split; [|apply round5_acc]. unfold fmt_e, round5. destruct (Qcase q) as [[-> _]|[[-> [-> H]]|[-> [-> H]]]]; [reflexivity| |].
  - destruct (dec5 q) as [d x] eqn:E. destruct (dec5_spec q d x H E) as [Hd _]. apply parse_sci; auto.
  - destruct (dec5 (-q)) as [d x] eqn:E. destruct (dec5_spec (-q) d x H E) as [Hd _]. apply parse_sci; auto. Qed.

(** repetition *)
Lemma repeat_count_R n : repeat_count (str_of_N n ++ s2l "R") = Some (N.to_nat n).
Proof. unfold repeat_count. rewrite span_digits_app; [|apply str_of_N_digits|reflexivity]. pose proof (num_of_str n) as E. pose proof (str_of_N_ne n) as N. destruct (str_of_N n) as [|c r]; [now elim N|]. change (s2l "R") with ["R"%char]. cbv iota. change (Ascii.eqb "R" "R") with true. cbv iota. now rewrite E. Qed.
(** optional cards *)
Lemma peel_if (b : bool) key k ls d : k <> key -> dget str_eqb k (d_other (if b then put key ls d else d)) = dget str_eqb k (d_other d).
Proof. intros H. destruct b; [now apply put_other|reflexivity]. Qed.
Lemma peel_opt {A} (o : option A) key k (ls : A -> list str) d : k <> key -> dget str_eqb k (d_other (match o with Some x => put key (ls x) d | None => d end)) = dget str_eqb k (d_other d).
Proof. intros H. destruct o; [now apply put_other|reflexivity]. Qed.
