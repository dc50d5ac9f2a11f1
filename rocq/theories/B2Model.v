(** Model of src/f4enix/input/ww_gvr/utils.py (mesh vectors of a weight window).
    Simplifications: floats are exact rationals; a [Vectors] object is modelled one
    axis at a time (the code treats its three axes identically and independently). *)
From Verif Require Import PyBase.
Open Scope Q_scope.

(** utils.py 41: np.insert(b2_vector, 1, 1.0000); numpy raises IndexError on an
    empty vector. *)
Definition insert_filler (b2 : list Q) : res (list Q) :=
  match b2 with [] => Err IndexError | x :: xs => Ok (x :: 1 :: xs) end.

(** utils.py 42: [vector[i] for i in range(len(vector)) if i % 3 == 0] *)
Definition coarse_of (v : list Q) : list Q :=
  map (fun i => nth i v 0) (filter (fun i => Nat.eqb (i mod 3) 0) (seq 0 (length v))).

(** utils.py 43-49: [int(vector[j+2]) for j in range(len(vector))
    if j % 3 == 0 and j + 2 < len(vector)] *)
Definition fine_of (v : list Q) : list Z :=
  map (fun j => qtrunc (nth (j + 2) v 0))
      (filter (fun j => Nat.eqb (j mod 3) 0 && Nat.ltb (j + 2) (length v)) (seq 0 (length v))).

(** utils.py 13-62 decompose_b2_vectors, one axis *)
Definition decompose_b2 (b2 : list Q) : res (list Q * list Z) :=
  do v <- insert_filler b2; Ok (coarse_of v, fine_of v).

(** utils.py 84-93, loop over [range(len(coarse_vector) - 1)]: coarse[i], 1.0,
    fine[i] are appended; IndexError when fine_ints is too short. *)
Fixpoint compose_loop (coarse : list Q) (fine : list Z) : res (list Q) :=
  match coarse with
  | [] => Err IndexError                 (* coarse_vector[-1] of an empty vector *)
  | [c] => Ok [c; 1]                     (* utils.py 89-90 *)
  | c :: cs =>
      match fine with
      | [] => Err IndexError
      | n :: ns => do r <- compose_loop cs ns; Ok (c :: 1 :: inject_Z n :: r)
      end
  end.

(** utils.py 67-99 compose_b2_vectors, one axis: [current_vector.remove(1)]
    deletes the FIRST element equal to 1 (by value). *)
Definition compose_b2 (coarse : list Q) (fine : list Z) : res (list Q) :=
  do v <- compose_loop coarse fine;
  Ok (remove_first (fun x => Qeq_bool x 1) v).

(** np.linspace(a, b, num).tolist() for num = n + 1 >= 1: numpy computes
    a + i*step and then sets the last point to b (when num > 1). *)
Definition linspace (a b : Q) (n : nat) : list Q :=
  match n with
  | O => [a]
  | S m => map (fun i => a + inject_Z (Z.of_nat i) * ((b - a) / inject_Z (Z.of_nat n))) (seq 0 n) ++ [b]
  end.

(** utils.py 126-131: the pieces [linspace(c_i, c_{i+1}, int(n_i + 1)).tolist()[1:]];
    numpy raises ValueError for a negative number of samples (n < -1);
    for n = -1 linspace is empty. *)
Fixpoint build_1d_loop (coarse : list Q) (fine : list Z) : res (list Q) :=
  match coarse with
  | [] => Ok []
  | [c] => Ok []
  | a :: ((b :: _) as cs) =>
      match fine with
      | [] => Err IndexError
      | n :: ns =>
          if (n <? -1)%Z then Err ValueError
          else do r <- build_1d_loop cs ns;
               Ok ((if (n <? 0)%Z then [] else tl (linspace a b (Z.to_nat n))) ++ r)
      end
  end.

(** utils.py 102-138 build_1d_vectors, one axis *)
Definition build_1d (coarse : list Q) (fine : list Z) : res (list Q) :=
  match coarse with
  | [] => Err IndexError
  | c :: _ => do r <- build_1d_loop coarse fine; Ok (c :: r)
  end.
