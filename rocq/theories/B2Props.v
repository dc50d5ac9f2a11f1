(** Properties C01 and C02. *)
From Verif Require Import PyBase B2Model B2Spec B2Proofs.
Open Scope Q_scope.

(** C01: compose then split gives back the coarse points and the counts. *)
Theorem C01_compose_then_decompose : forall coarse fine,
  length coarse = S (length fine) ->
  exists b2 coarse', compose_b2 coarse fine = Ok b2 /\
    decompose_b2 b2 = Ok (coarse', fine) /\ qlist_eq coarse' coarse.
Proof. exact compose_decompose. Qed.
Print Assumptions C01_compose_then_decompose.

(** C01: the composed vector is the one the file format prescribes, for every
    coordinate, also those equal to the filler. *)
Theorem C01_compose_is_format : forall c0 rest,
  exists v, compose_b2 (c0 :: map snd rest) (map fst rest) = Ok v /\ qlist_eq v (b2_layout c0 rest).
Proof. exact compose_layout. Qed.
Print Assumptions C01_compose_is_format.

(** C01: splitting a vector of the file format gives its points and counts. *)
Theorem C01_decompose_is_format : forall c0 rest,
  decompose_b2 (b2_layout c0 rest) = Ok (c0 :: map snd rest, map fst rest).
Proof. exact decompose_layout. Qed.
Print Assumptions C01_decompose_is_format.

(** C01: split then compose gives the same vector. *)
Theorem C01_decompose_then_compose : forall c0 rest,
  exists coarse fine v, decompose_b2 (b2_layout c0 rest) = Ok (coarse, fine) /\
    compose_b2 coarse fine = Ok v /\ qlist_eq v (b2_layout c0 rest).
Proof. exact decompose_compose. Qed.
Print Assumptions C01_decompose_then_compose.

(** Non-trivial case: the first coordinate equals the filler 1. *)
Example C01_case : compose_b2 [1; 2; 5] [1%Z; 3%Z] = Ok [1; 1; 2; 1; 3; 5; 1]
  /\ decompose_b2 [1; 1; 2; 1; 3; 5; 1] = Ok ([1; 2; 5], [1%Z; 3%Z]).
Proof. split; vm_compute; reflexivity. Qed.

(** C02: size, position of every point, coarse points kept, strictly increasing. *)
Theorem C02_fine_mesh_refines_coarse : forall fine coarse,
  length coarse = S (length fine) -> Forall (fun n => 0 < n)%Z fine ->
  exists v, build_1d coarse fine = Ok v /\
    length v = S (Z.to_nat (zsum fine)) /\
    (forall i c c' n s, nth_error coarse i = Some c -> nth_error coarse (S i) = Some c' ->
      nth_error fine i = Some n -> (s <= Z.to_nat n)%nat ->
      exists x, nth_error v (fine_index fine i + s) = Some x /\
        x == c + inject_Z (Z.of_nat s) * ((c' - c) / inject_Z n)) /\
    (forall i c, nth_error coarse i = Some c ->
      exists x, nth_error v (fine_index fine i) = Some x /\ x == c) /\
    (strictly_increasing coarse -> strictly_increasing v).
Proof. exact build_1d_spec. Qed.
Print Assumptions C02_fine_mesh_refines_coarse.

Example C02_case : length [0; 1; 4] = S (length [2%Z; 3%Z]) /\ Forall (fun n => 0 < n)%Z [2%Z; 3%Z]
  /\ strictly_increasing [0; 1; 4]
  /\ option_map (map Qred) (match build_1d [0; 1; 4] [2%Z; 3%Z] with Ok v => Some v | _ => None end)
     = Some [0; 1#2; 1; 2; 3; 4].
Proof. repeat split; try (repeat constructor; lia).
  intros [|[|[|i]]] a b; simpl; intros H1 H2; inversion H1; inversion H2; subst; try reflexivity; destruct i; discriminate. Qed.
