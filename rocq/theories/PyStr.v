(** Models of the Python string operations used by the text readers and writers:
    split, rjust, int(), float(), str(int), and the '#.5g' / '.4E' formatters.
    Strings are lists of 8-bit characters.  Floats are exact rationals; the formatters
    round the exact value half-to-even, as CPython does. *)
From Verif Require Import PyBase.
From Coq Require Export String.
Open Scope nat_scope.
Open Scope list_scope.
Notation length := List.length.
Notation concat := List.concat.

Definition str := list ascii.
Definition s2l (s : string) : str := list_ascii_of_string s.

Definition sp : ascii := " "%char.
Definition nl : ascii := "010"%char.
Definition dot : ascii := "."%char.

(** whitespace of str.split() (ASCII part): \t \n \v \f \r, \x1c-\x1f and blank *)
Definition is_ws (c : ascii) : bool :=
  let n := N_of_ascii c in
  ((9 <=? n) && (n <=? 13) || (28 <=? n) && (n <=? 32))%N.

(** s.split() *)
Fixpoint split_aux (cur : str) (s : str) : list str :=
  match s with
  | [] => match cur with [] => [] | _ => [rev cur] end
  | c :: s' => if is_ws c
               then match cur with [] => split_aux [] s' | _ => rev cur :: split_aux [] s' end
               else split_aux (c :: cur) s'
  end.
Definition split (s : str) : list str := split_aux [] s.

(** f"{s:>w}" *)
Definition rjust (w : nat) (s : str) : str := repeat sp (w - length s) ++ s.

Definition ascii_eqb := Ascii.eqb.
Fixpoint str_eqb (a b : str) : bool :=
  match a, b with
  | [], [] => true
  | x :: a', y :: b' => Ascii.eqb x y && str_eqb a' b'
  | _, _ => false
  end.

(** digits *)
Definition is_digit (c : ascii) : bool := let n := N_of_ascii c in ((48 <=? n) && (n <=? 57))%N.
Definition dig_val (c : ascii) : N := (N_of_ascii c - 48)%N.
Definition dig_chr (d : N) : ascii := ascii_of_N (48 + d).
Definition num_of (l : str) : N := fold_left (fun acc c => (acc * 10 + dig_val c)%N) l 0%N.
(** the k low decimal digits of n *)
Fixpoint ndig (k : nat) (n : N) : str :=
  match k with O => [] | S k' => ndig k' (n / 10)%N ++ [dig_chr (n mod 10)%N] end.
(** number of decimal digits (fuelled by the binary size) *)
Fixpoint dlen_aux (fuel : nat) (n : N) : nat :=
  match fuel with
  | O => 1
  | S f => if (n <? 10)%N then 1 else S (dlen_aux f (n / 10)%N)
  end.
Definition dlen (n : N) : nat := dlen_aux (N.size_nat n) n.
(** str(n) for n >= 0, str(z) *)
Definition str_of_N (n : N) : str := ndig (dlen n) n.
Definition minus : ascii := "-"%char.
Definition plus : ascii := "+"%char.
Definition str_of_Z (z : Z) : str :=
  match z with Zneg p => minus :: str_of_N (Npos p) | _ => str_of_N (Z.to_N z) end.

(** longest prefix of digits, and the rest *)
Fixpoint span_digits (s : str) : str * str :=
  match s with
  | c :: s' => if is_digit c then let (a, b) := span_digits s' in (c :: a, b) else ([], s)
  | [] => ([], [])
  end.

Definition take_sign (s : str) : bool * str :=
  match s with
  | c :: s' => if Ascii.eqb c minus then (true, s') else if Ascii.eqb c plus then (false, s') else (false, s)
  | [] => (false, [])
  end.

(** int(s): optional sign and decimal digits, surrounding blanks already removed.
    (Python also accepts underscores between digits; not modelled, such text is an error
    here.) *)
Definition parse_int (s : str) : res Z :=
  let (neg, s1) := take_sign s in
  let (ds, r) := span_digits s1 in
  match ds, r with
  | _ :: _, [] => Ok (if neg then (- Z.of_N (num_of ds))%Z else Z.of_N (num_of ds))
  | _, _ => Err ValueError
  end.

Definition p10 (z : Z) : Q := Qpower (10 # 1) z.

(** exponent part of a float literal: nothing, or e/E, sign, digits *)
Definition parse_exp (s : str) : res Z :=
  match s with
  | [] => Ok 0%Z
  | c :: s' => if Ascii.eqb c "e"%char || Ascii.eqb c "E"%char then parse_int s' else Err ValueError
  end.
(** float(s): [sign] digits [. digits] [e[sign]digits] with at least one digit.
    (inf, nan and underscores are not modelled: an error here.) *)
Definition parse_float (s : str) : res Q :=
  let (neg, s1) := take_sign s in
  let (ip, r1) := span_digits s1 in
  let (fp, r2) := match r1 with
                  | c :: r' => if Ascii.eqb c dot then span_digits r' else ([], r1)
                  | [] => ([], [])
                  end in
  match ip ++ fp with
  | [] => Err ValueError
  | ds => do e <- parse_exp r2;
          let v := (inject_Z (Z.of_N (num_of ds)) * p10 (e - Z.of_nat (length fp)))%Q in
          Ok (if neg then (- v)%Q else v)
  end.

(** floor(log10 q) for q > 0 *)
Definition ilog10 (q : Q) : Z :=
  let x0 := (Z.of_nat (dlen (Z.to_N (Qnum q))) - Z.of_nat (dlen (Npos (Qden q))))%Z in
  if Qle_bool (p10 x0) q then x0 else (x0 - 1)%Z.

(** q > 0 rounded to 5 significant decimal digits: mantissa in 10000..99999 and decimal
    exponent *)
Definition dec5 (q : Q) : Z * Z :=
  let x := ilog10 q in
  let d := qround_even (q / p10 (x - 4))%Q in
  if (d =? 100000)%Z then (10000, x + 1)%Z else (d, x).

Definition exp_digits (x : Z) : str :=
  let n := Z.to_N (Z.abs x) in
  (if (x <? 0)%Z then minus else plus) :: (if (n <? 100)%N then ndig 2 n else str_of_N n).
Definition sci (e : ascii) (d x : Z) : str :=
  match ndig 5 (Z.to_N d) with
  | c :: cs => c :: dot :: cs ++ e :: exp_digits x
  | [] => []
  end.
(** format(q, '#.5g') for q > 0 *)
Definition fmt_g_pos (q : Q) : str :=
  let (d, x) := dec5 q in
  if ((-4 <=? x) && (x <? 5))%Z
  then let s := ndig 5 (Z.to_N d) in
       if (0 <=? x)%Z then firstn (S (Z.to_nat x)) s ++ dot :: skipn (S (Z.to_nat x)) s
       else "0"%char :: dot :: repeat "0"%char (Z.to_nat (- x - 1)) ++ s
  else sci "e"%char d x.
(** format(q, '#.5g') *)
Definition fmt_g (q : Q) : str :=
  if Qeq_bool q 0 then s2l "0.0000"
  else if Qle_bool 0 q then fmt_g_pos q else minus :: fmt_g_pos (- q)%Q.
(** format(q, '.4E') (the '#' flag changes nothing as there is always a point) *)
Definition fmt_E (q : Q) : str :=
  if Qeq_bool q 0 then s2l "0.0000E+00"
  else if Qle_bool 0 q then let (d, x) := dec5 q in sci "E"%char d x
       else let (d, x) := dec5 (- q)%Q in minus :: sci "E"%char d x.

(** the number the printed text denotes *)
Definition round5 (q : Q) : Q :=
  if Qeq_bool q 0 then (inject_Z 0 * p10 (-4))%Q
  else if Qle_bool 0 q then let (d, x) := dec5 q in (inject_Z d * p10 (x - 4))%Q
       else let (d, x) := dec5 (- q)%Q in (- (inject_Z d * p10 (x - 4)))%Q.
