(** Python's format(x, '.kE') and '.ke' for any number k of decimals: numbers in scientific
    notation rounded half to even to k+1 significant digits. *)
From Verif Require Import PyBase PyStr.
Open Scope nat_scope.

(** q > 0: mantissa of k+1 digits and decimal exponent *)
Definition decn (k : nat) (q : Q) : Z * Z :=
  let x := ilog10 q in
  let d := qround_even (q / p10 (x - Z.of_nat k))%Q in
  if (d =? 10 ^ (Z.of_nat k + 1))%Z then (10 ^ Z.of_nat k, x + 1)%Z else (d, x).
(** the exponent of a float has at least two digits, that of a Decimal has as few as possible *)
Inductive expstyle := Two | Short.
Definition exp_text (st : expstyle) (x : Z) : str :=
  match st with Two => exp_digits x | Short => (if (x <? 0)%Z then minus else plus) :: str_of_N (Z.to_N (Z.abs x)) end.
Definition scin (st : expstyle) (e : ascii) (k : nat) (d x : Z) : str :=
  match ndig (S k) (Z.to_N d) with
  | c :: cs => c :: dot :: cs ++ e :: exp_text st x
  | [] => []
  end.
(** zero: a float has exponent +00, a Decimal('0') has exponent +k *)
Definition fmt_sci (st : expstyle) (e : ascii) (k : nat) (q : Q) : str :=
  if Qeq_bool q 0 then scin st e k 0 (match st with Two => 0%Z | Short => Z.of_nat k end)
  else if Qle_bool 0 q then let (d, x) := decn k q in scin st e k d x
       else let (d, x) := decn k (- q)%Q in minus :: scin st e k d x.
(** the number that the text denotes *)
Definition roundn (st : expstyle) (k : nat) (q : Q) : Q :=
  if Qeq_bool q 0 then (inject_Z 0 * p10 (match st with Two => 0%Z | Short => Z.of_nat k end - Z.of_nat k))%Q
  else if Qle_bool 0 q then let (d, x) := decn k q in (inject_Z d * p10 (x - Z.of_nat k))%Q
       else let (d, x) := decn k (- q)%Q in (- (inject_Z d * p10 (x - Z.of_nat k)))%Q.
