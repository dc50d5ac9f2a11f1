(** When the library calls two objects equal: Irradiation.__eq__ and the value modify_time_val stores, Vectors.__eq__.
    Simplified: float() is exact (two texts that differ beyond the precision of a double are different numbers here), inf and nan
    are not numbers, and float() does not strip blanks (the fields of a file have none). *)
From Coq Require Import Qabs.
From Verif Require Import PyBase PyStr PySci D1SModel.
Open Scope nat_scope.

(** d1suned.py 424-430: one pair of times; both are converted, also after a difference was found *)
Definition time_eq (eq : bool) (p : str * str) : res bool :=
  do a <- parse_float (fst p); do b <- parse_float (snd p); Ok (if negb (Qeq_bool a b) then false else eq).
(** d1suned.py 415-434 Irradiation.__eq__ between two irradiations *)
Definition irr_eq (x y : irr) : res bool :=
  let daughter_eq := str_eqb (i_daughter x) (i_daughter y) in
  do a <- parse_float (i_lambda x); do b <- parse_float (i_lambda y);
  let lamb_eq := Qeq_bool a b in
  do times_eq <- (if Nat.eqb (length (i_times x)) (length (i_times y))
                  then foldM time_eq true (combine (i_times x) (i_times y)) else Ok false);
  Ok (daughter_eq && lamb_eq && times_eq).

(** d1suned.py 458: the text of a new time, ".3e" *)
Definition time_text (v : Q) : str := fmt_sci Two "e"%char 3 v.
(** d1suned.py 438-458 modify_time_val on the k-th irradiation of the file *)
Definition modify_time_val (f : ifile) (k : nat) (ix : Z) (v : Q) : ifile := istep f (OpModify k ix (time_text v)).

(** input/ww_gvr/models.py 31-38 Vectors: the three vectors of a mesh *)
Definition vectors : Type := (list Q * list Q * list Q)%type.
(** numpy.testing.assert_array_almost_equal with its 6 decimals, for two vectors: shapes first, then |a - b| < 1.5e-6 everywhere *)
Definition almost_equal (a b : list Q) : bool :=
  Nat.eqb (length a) (length b) && forallb (fun p => negb (Qle_bool (3 # 2000000) (Qabs (fst p - snd p)))) (combine a b).
(** models.py 40-47 Vectors.__eq__ *)
Definition vectors_eq (x y : vectors) : bool :=
  match x, y with (xi, xj, xk), (yi, yj, yk) => almost_equal xi yi && almost_equal xj yj && almost_equal xk yk end.
