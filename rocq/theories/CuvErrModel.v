(** Model of src/f4enix/output/cuv_sampling_error.py.  An open file is the list of the lines still to
    be read (MeshModel); floats are exact rationals. *)
From Verif Require Import PyBase PyStr DataModel MeshModel.
Open Scope nat_scope.

(** the value of an expression x ** 0.5 / y: Python gives a complex number when x is negative *)
Inductive num := Real (q : Q) | Complex.

Section Root.
  (** [root x] is x ** 0.5 for x >= 0: a parameter, nothing is assumed about it here *)
  Context (root : Q -> Q).

  (** 63-68 calculate_volume_sampling_error: / and the final division raise for a zero divisor *)
  Definition sampling_error (p : Q) (points : Z) : res num :=
    if Z.eqb points 0 then Err ZeroDivisionError
    else let x := ((p - p * p) / inject_Z points)%Q in
         if Qeq_bool p 0 then Err ZeroDivisionError
         else if Qle_bool 0 x then Ok (Real (root x / p)%Q) else Ok Complex.

  (** 45-51: one cell line *)
  Definition read_cell (points : Z) (f : file) : res ((Z * num) * file) :=
    let (l, f1) := readline f in
    match split l with
    | [] => Err IndexError
    | [w0] => do _ <- parse_int w0; Err IndexError
    | w0 :: w1 :: _ => do c <- parse_int w0; do v <- parse_float w1; do e <- sampling_error v points; Ok ((c, e), f1)
    end.

  (** 41-60 _read_voxel *)
  Definition read_voxel (points : Z) (f : file) : res ((Z * list (Z * num)) * file) :=
    let (l, f1) := readline f in
    match split l with
    | [] => Err IndexError
    | w0 :: ws =>
        do i <- parse_int w0;
        match nth_error ws 4 with
        | None => Err IndexError
        | Some w5 =>
            do n <- parse_int w5;
            do '(cs, f2) <- loop (Z.to_nat n) (read_cell points) f1;
            Ok (((i - 1)%Z, fold_left (fun d c => dset Z.eqb (fst c) (snd c) d) cs []), skipline (Z.to_nat (2 * n)) f2)
        end
    end.

  (** 26-38 _read_cuv_data: until an IndexError.  Each turn reads a line, so as many turns as there are
      lines and one more, which meets the end of the file, are enough *)
  Fixpoint read_cuv_data (fuel : nat) (points : Z) (d : list (Z * list (Z * num))) (f : file) : res (list (Z * list (Z * num))) :=
    match fuel with
    | O => Ok d
    | S fuel' =>
        match read_voxel points f with
        | Ok (v, f1) => read_cuv_data fuel' points (dset Z.eqb (fst v) (snd v) d) f1
        | Err IndexError => Ok d
        | Err e => Err e
        end
    end.

  (** 10-24 get_volume_sampling_error_from_cuv *)
  Fixpoint volume_errors (points : Z) (f : file) : res (list (Z * list (Z * num))) :=
    match f with
    | [] => Ok []
    | l :: f1 => if has "INDEX" l then read_cuv_data (S (length f1)) points [] f1 else volume_errors points f1
    end.

  (** max(..., default=0) of a list of numbers (complex numbers cannot be compared), stored in a float array
      (which takes no complex number) *)
  Fixpoint max_num (m : Q) (l : list num) : res Q :=
    match l with
    | [] => Ok m
    | Real q :: l' => max_num (if Qle_bool q m then m else q) l'
    | Complex :: _ => Err TypeError
    end.
  Definition cell_error (d : list (Z * list (Z * num))) (i : nat) : res Q :=
    match dget Z.eqb (Z.of_nat i) d with
    | None | Some [] => Ok 0%Q
    | Some ((_, Complex) :: _) => Err TypeError
    | Some ((_, Real q) :: cs) => max_num q (map snd cs)
    end.
  (** 76-93 add_sampling_error_to_vtk: the new cell array of a grid of [n] cells *)
  Definition add_sampling_error (n : nat) (points : Z) (f : file) : res (list Q) :=
    do d <- volume_errors points f; mapM (cell_error d) (seq 0 n).
End Root.
