(** C116: when two objects are equal, and what a modified irradiation time is. *)
From Coq Require Import Lia ZArith QArith Qabs.
From Verif Require Import PyBase PyStr WWTextModel WWTextSpec PyText D1SModel D1SSpec D1SProofs D1SProofs2 D1SProps EqModel EqSpec EqProofs.
Open Scope nat_scope.

(** C116: two irradiations with numeric fields are equal exactly when they have the same daughter, the same decay constant and, in
    order, the same times, as numbers: how the numbers are written and the comments do not matter. *)
Theorem C116_equal_irradiations : forall a b, numeric_irr a -> numeric_irr b -> exists r, irr_eq a b = Ok r /\
  (r = true <-> i_daughter a = i_daughter b /\ same_number (i_lambda a) (i_lambda b) /\ Forall2 same_number (i_times a) (i_times b)).
Proof. exact eq_numeric. Qed.
Print Assumptions C116_equal_irradiations.
Theorem C116_equivalence : (forall a, numeric_irr a -> irr_eq a a = Ok true) /\ (forall a b, irr_eq a b = irr_eq b a) /\
  (forall a b c, irr_eq a b = Ok true -> irr_eq b c = Ok true -> irr_eq a c = Ok true).
Proof. split; [exact eq_refl_num|]. split; [exact eq_sym|exact eq_trans]. Qed.
Print Assumptions C116_equivalence.
(** C116: the comparison raises ValueError, and only that, exactly when a decay constant is not a number, or the numbers of times are
    equal and one of the times is not a number. *)
Theorem C116_when_comparing_raises : forall a b e, irr_eq a b = Err e <-> e = ValueError /\
  (~ numeric (i_lambda a) \/ ~ numeric (i_lambda b) \/
   (length (i_times a) = length (i_times b) /\ exists t, In t (i_times a ++ i_times b) /\ ~ numeric t)).
Proof. exact eq_raises. Qed.
Print Assumptions C116_when_comparing_raises.
Example C116_case : irr_eq (mkirr (s2l "24051") (s2l "2.896e-07") [s2l "5.982e+00"; s2l "0"] (Some (s2l "Cr51")))
    (mkirr (s2l "24051") (s2l "28.96E-8") [s2l "5.9820"; s2l "-0.0"] None) = Ok true /\
  irr_eq (mkirr (s2l "24051") (s2l "2.896e-07") [s2l "5.982e+00"] None) (mkirr (s2l "24051") (s2l "2.896e-07") [s2l "5.983e+00"] None) = Ok false /\
  irr_eq (mkirr (s2l "24051") (s2l "2.896e-07") [s2l "x"] None) (mkirr (s2l "24052") (s2l "2.896e-07") [s2l "5.983e+00"] None) = Err ValueError /\
  irr_eq (mkirr (s2l "24051") (s2l "2.896e-07") [s2l "x"] None) (mkirr (s2l "24051") (s2l "2.896e-07") [] None) = Ok false.
Proof. vm_compute. repeat split. Qed.

(** C116: after modify_time_val on a file that its columns can carry (times column wider than 11, the default is 13), the new time
    is the given value to four significant digits, no other field of the file changes, and the file is still one that is written
    and read back as it is, each irradiation read being equal to the one written. *)
Theorem C116_modified_time_survives_the_file : forall f k ix v i, carryable f -> match f_fmt f with (_, _, w3, _) => 11 < w3 end -> in_range v ->
  nth_error (f_scheds f) k = Some i -> (0 <= ix < Z.of_nat (length (i_times i)))%Z -> Forall numeric_irr (f_scheds f) ->
  let f' := modify_time_val f k ix v in
  (exists i', nth_error (f_scheds f') k = Some i' /\ i_daughter i' = i_daughter i /\ i_lambda i' = i_lambda i /\ i_comment i' = i_comment i /\
    (forall j, j <> Z.to_nat ix -> nth_error (i_times i') j = nth_error (i_times i) j) /\
    (exists t q, nth_error (i_times i') (Z.to_nat ix) = Some t /\ parse_float t = Ok q /\ (Qabs (q - v) * 2000 <= Qabs v)%Q)) /\
  (forall j, j <> k -> nth_error (f_scheds f') j = nth_error (f_scheds f) j) /\
  carryable f' /\ Forall numeric_irr (f_scheds f') /\
  exists text f'', iwrite f' = (text, None) /\ iread text = Ok f'' /\ f_nsc f'' = f_nsc f' /\
    Forall2 (fun a b => irr_eq a b = Ok true) (f_scheds f') (f_scheds f'').
Proof. intros f k ix v i C W R Hi Hx N f'. destruct (modified f k ix v i C W R Hi Hx) as (C' & i' & A1 & A2 & A3 & A4 & A5 & A6 & A7).
  assert (N' : Forall numeric_irr (f_scheds f')).
  { apply Forall_forall. intros y Hy. apply In_nth_error in Hy. destruct Hy as [j Hj]. destruct (Nat.eq_dec j k) as [->|Hk].
    - unfold f' in Hj. rewrite A1 in Hj. injection Hj as <-. rewrite Forall_forall in N. destruct (N i (nth_error_In _ _ Hi)) as [N1 N2]. split; [rewrite A3; exact N1|].
      apply Forall_forall. intros t Ht. apply In_nth_error in Ht. destruct Ht as [m Hm]. destruct (Nat.eq_dec m (Z.to_nat ix)) as [->|Hm'].
      + destruct A6 as (t' & q & B1 & B2 & _). rewrite B1 in Hm. injection Hm as <-. now exists q.
      + rewrite A5 in Hm by exact Hm'. rewrite Forall_forall in N2. apply N2. exact (nth_error_In _ _ Hm).
    - unfold f' in Hj. rewrite A7 in Hj by exact Hk. rewrite Forall_forall in N. apply N. exact (nth_error_In _ _ Hj). }
  split; [exists i'; repeat (split; [assumption|]); assumption|]. split; [exact A7|]. split; [exact C'|]. split; [exact N'|].
  destruct (iread_iwrite f' C') as (t & Wt & Rt). exists t. eexists. split; [exact Wt|]. split; [exact Rt|]. split; [reflexivity|]. cbn [f_scheds].
  apply F2_refl. eapply Forall_impl; [|exact N']. exact eq_refl_num. Qed.
Print Assumptions C116_modified_time_survives_the_file.
Example C116_modify_hypotheses : carryable ex_irr /\ match f_fmt ex_irr with (_, _, w3, _) => 11 < w3 end /\ in_range (123456 # 100) /\
  Forall numeric_irr (f_scheds ex_irr) /\ nth_error (i_times (nth 1 (f_scheds (modify_time_val ex_irr 1 0 (123456 # 100))) (mkirr [] [] [] None))) 0 = Some (s2l "1.235e+03").
Proof. split; [exact C14_witness|]. split; [cbn; lia|]. split; [right; split; apply Qle_bool_iff || (apply Qnot_le_lt; intros K; apply Qle_bool_iff in K; vm_compute in K; discriminate K); vm_compute; reflexivity|].
  split; [repeat (apply Forall_cons); try apply Forall_nil; (split; [eexists; vm_compute; reflexivity|]; repeat (apply Forall_cons); try apply Forall_nil; eexists; vm_compute; reflexivity)|]. vm_compute. reflexivity. Qed.

(** C116: mesh vectors are equal exactly when each of the three has as many points as its counterpart, pairwise less than 1.5e-6
    apart; equality is reflexive and symmetric ... *)
Theorem C116_equal_vectors : forall x y, vectors_eq x y = true <->
  close_points (fst (fst x)) (fst (fst y)) /\ close_points (snd (fst x)) (snd (fst y)) /\ close_points (snd x) (snd y).
Proof. intros [[xi xj] xk] [[yi yj] yk]. unfold vectors_eq. cbn [fst snd]. rewrite !andb_true_iff, !almost_iff. tauto. Qed.
Print Assumptions C116_equal_vectors.
Theorem C116_vectors_reflexive_symmetric : (forall x, vectors_eq x x = true) /\ (forall x y, vectors_eq x y = vectors_eq y x).
Proof. split.
  - intros [[xi xj] xk]. unfold vectors_eq. rewrite !andb_true_iff, !almost_iff. repeat split; apply close_refl.
  - intros [[xi xj] xk] [[yi yj] yk]. unfold vectors_eq. now rewrite (almost_sym xi), (almost_sym xj), (almost_sym xk). Qed.
Print Assumptions C116_vectors_reflexive_symmetric.
(** ... but not transitive, and different small meshes are equal: all the points of two meshes of a micrometre can differ. *)
Theorem C116_vectors_transitive_refuted : exists x y z, vectors_eq x y = true /\ vectors_eq y z = true /\ vectors_eq x z = false.
Proof. exists ([0], [0], [0])%Q, ([1 # 1000000], [0], [0])%Q, ([2 # 1000000], [0], [0])%Q. vm_compute. auto. Qed.
Print Assumptions C116_vectors_transitive_refuted.
