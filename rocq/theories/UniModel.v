(** Model of src/f4enix/input/auxiliary.py 28, 57-93 (debug_file_unicode): the report of the bytes of a file that are not UTF-8.
    A file is the list of its bytes (integers between 0 and 255); open() uses UTF-8, the default of the supported platforms. *)
From Verif Require Import PyBase PyStr RssaModel.
Open Scope nat_scope.

(** the character a byte string starts with, and the rest: the UTF-8 decoder of Python *)
Definition char_at (s : bytes) : option (Z * bytes) :=
  match s with
  | [] => None
  | a :: s1 =>
      if btw 0 127 a then Some (a, s1)
      else match s1 with
           | [] => None
           | b :: s2 =>
               if btw 194 223 a && btw 128 191 b then Some (((a - 192) * 64 + (b - 128))%Z, s2)
               else match s2 with
                    | [] => None
                    | c :: s3 =>
                        if (a =? 224)%Z && btw 160 191 b && btw 128 191 c
                           || (btw 225 236 a || btw 238 239 a) && btw 128 191 b && btw 128 191 c
                           || (a =? 237)%Z && btw 128 159 b && btw 128 191 c
                        then Some (((a - 224) * 4096 + (b - 128) * 64 + (c - 128))%Z, s3)
                        else match s3 with
                             | [] => None
                             | d :: s4 =>
                                 if ((a =? 240)%Z && btw 144 191 b || btw 241 243 a && btw 128 191 b
                                     || (a =? 244)%Z && btw 128 143 b) && btw 128 191 c && btw 128 191 d
                                 then Some (((a - 240) * 262144 + (b - 128) * 4096 + (c - 128) * 64 + (d - 128))%Z, s4) else None
                             end
                    end
           end
  end.
(** auxiliary.py 84 errors="surrogateescape": a byte where no character starts becomes the code 0xDC00 + byte, and decoding goes on
    with the next one.  (Python escapes the bytes of a broken sequence together: they are continuation bytes, where no character
    starts either.) *)
Fixpoint decode (fuel : nat) (s : bytes) : list Z :=
  match fuel, s with
  | S f, a :: s1 => match char_at s with Some (c, r) => c :: decode f r | None => (56320 + a)%Z :: decode f s1 end
  | _, _ => []
  end.
(** universal newlines: \r\n and \r are read as \n *)
Fixpoint universal (s : list Z) : list Z :=
  match s with
  | [] => []
  | c :: r => if (c =? 13)%Z then 10%Z :: match r with d :: r' => if (d =? 10)%Z then universal r' else universal r | [] => [] end
              else c :: universal r
  end.
(** for line in f: the lines, with their ends; [cur] is the line so far, reversed *)
Fixpoint text_lines (cur : list Z) (s : list Z) : list (list Z) :=
  match s with
  | [] => match cur with [] => [] | _ => [rev cur] end
  | c :: r => if (c =? 10)%Z then rev (c :: cur) :: text_lines [] r else text_lines (c :: cur) r
  end.
(** auxiliary.py 28, 57-67 _detect_decoding_errors_line: positions and bytes *)
Fixpoint decoding_errors (i : nat) (l : list Z) : list (nat * Z) :=
  match l with
  | [] => []
  | c :: r => if btw 56448 56575 c then (i, (c - 56320)%Z) :: decoding_errors (S i) r else decoding_errors (S i) r
  end.
(** format 02x of a byte *)
Definition hex_digit (z : Z) : ascii := nth (Z.to_nat z) (s2l "0123456789abcdef") "0"%char.
Definition hex2 (b : Z) : str := [hex_digit (b / 16); hex_digit (b mod 16)].
(** auxiliary.py 90: one error *)
Definition error_text (e : nat * Z) : str := s2l " " ++ rjust 2 (str_of_N (N.of_nat (fst e + 1))) ++ s2l ": " ++ hex2 (snd e).
(** auxiliary.py 85-91 the loop over the lines, numbered from i *)
Fixpoint report (i : nat) (ls : list (list Z)) : str :=
  match ls with
  | [] => []
  | l :: r => (match decoding_errors 0 l with
               | [] => []
               | es => s2l "Found errors on line " ++ str_of_N (N.of_nat i) ++ s2l ":" ++ concat (map error_text es) ++ [nl]
               end) ++ report (S i) r
  end.
(** auxiliary.py 70-93 debug_file_unicode *)
Definition debug_file_unicode (file : bytes) : str := report 1 (text_lines [] (universal (decode (length file) file))).
