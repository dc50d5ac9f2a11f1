(** Vocabulary for the command line session. *)
From Verif Require Import PyBase PyStr PyText CliModel.
Open Scope nat_scope.

(** the windows after a (possibly unfinished) call *)
Definition windows_after {E A} (r : hres E A) : wins E :=
  match r with HOk _ ws _ | HErr _ ws _ => ws | HWait ws | HExit ws => ws end.
(** what the user typed and was not read yet *)
Definition unread {E A} (r : hres E A) : list str :=
  match r with HOk _ _ i | HErr _ _ i => i | _ => [] end.
Definition crashed {E A} (r : hres E A) : Prop := match r with HErr _ _ _ => True | _ => False end.

(** a name without a dot *)
Definition dotless (k : str) : Prop := ~ In dot k.

(** windows that come from files and documented operations only *)
Inductive made (E : env) : W E -> Prop :=
| made_load p w : e_load E p = Ok w -> made E w
| made_gvr p t m s w0 w : e_gvr E p t m = Ok w0 -> e_soften E w0 s = Ok w -> made E w
| made_op o qs w0 w : made E w0 -> op_run E o qs w0 = Ok w -> made E w.

(** operations that only raise ValueError (and, for files, FileNotFoundError) *)
Definition tame (E : env) : Prop :=
  (forall p e, e_load E p = Err e -> e = ValueError \/ e = FileNotFoundError) /\
  (forall p t m e, e_gvr E p t m = Err e -> e = ValueError \/ e = FileNotFoundError) /\
  (forall w s e, e_soften E w s = Err e -> e = ValueError) /\
  (forall w n s e, e_add E w n s = Err e -> e = ValueError) /\
  (forall w e, e_remove E w = Err e -> e = ValueError) /\
  (forall w r e, e_mitigate E w r = Err e -> e = ValueError) /\
  (forall c w e, e_look E c w = Err e -> e = ValueError).

(** what the user types for each operation (menu word, then its numbers), the suffix given to the
    new name, and the operation it stands for *)
Inductive typed_op (E : env) : str -> list str -> str -> W E -> W E -> Prop :=
| typed_soft t s w w' : parse_float t = Ok s -> e_soften E w s = Ok w' ->
    typed_op E (s2l "soft") [t] (s2l "_softened") w w'
| typed_add t1 n t2 s w w' : parse_float t1 = Ok n -> parse_float t2 = Ok s -> e_add E w n s = Ok w' ->
    typed_op E (s2l "add") [t1; t2] (s2l "_2_particles") w w'
| typed_remove w w' : e_remove E w = Ok w' -> typed_op E (s2l "remove") [] (s2l "_1_particle") w w'
| typed_mitigate t r w w' : parse_float t = Ok r -> e_mitigate E w r = Ok w' ->
    typed_op E (s2l "mitigate") [t] (s2l "_mitigated") w w'.
