(** Specification vocabulary for the D1S-UNED files. *)
From Verif Require Import PyBase PyStr PyText D1SModel WWTextModel.
Open Scope nat_scope.

(** one non-empty word without blanks or line breaks *)
Definition token (s : str) : Prop := s <> [] /\ Forall (fun c => is_ws c = false) s.
(** words separated by single blanks (possibly none) *)
Definition words_text (s : str) : Prop := exists ws, Forall token ws /\ s = join_sp ws.
(** not made of letters c only *)
Definition real_tag (s : str) : Prop := exists c, In c s /\ c <> "c"%char /\ c <> "C"%char.
(** complete lines (each ends in a newline) that do not start with "nsc" *)
Definition header_text (h : str) : Prop :=
  exists ls, h = concat ls /\ Forall (fun l => exists b, l = b ++ [nl] /\ ~ In nl b /\ pat_nsc l = false) ls.

(** An irradiation file that its columns can carry: as many times as schedules, every field
    a word shorter than its column, a (possibly empty) comment shorter than its column. *)
Definition carryable (f : ifile) : Prop :=
  match f_fmt f with (w1, w2, w3, w4) =>
    (0 <= f_nsc f)%Z /\
    match f_header f with Some h => header_text h | None => True end /\
    Forall (fun i =>
      token (i_daughter i) /\ real_tag (i_daughter i) /\ length (i_daughter i) < w1 /\
      token (i_lambda i) /\ length (i_lambda i) < w2 /\
      Z.of_nat (length (i_times i)) = f_nsc f /\
      Forall (fun t => token t /\ length t < w3) (i_times i) /\
      exists c, i_comment i = Some c /\ words_text c /\ length c < w4) (f_scheds f)
  end.

(** a reaction its columns can carry *)
Definition carryable_reac (r : reac) : Prop :=
  token (x_parent r) /\ length (x_parent r) < 13 /\
  (exists z, x_mt r = str_of_Z z) /\ length (x_mt r) < 7 /\
  token (x_daughter r) /\ length (x_daughter r) < 12 /\
  match x_comment r with Some c => words_text c /\ length c < 40 | None => True end.

(** every irradiation has as many times as the file has schedules *)
Definition rectangular (f : ifile) : Prop := Forall (fun i => Z.of_nat (length (i_times i)) = f_nsc f) (f_scheds f).

(** [a] is obtained from [b] by deleting elements *)
Inductive subseq {A} : list A -> list A -> Prop :=
| subseq_nil : subseq [] []
| subseq_keep x a b : subseq a b -> subseq (x :: a) (x :: b)
| subseq_drop x a b : subseq a b -> subseq a (x :: b).

(** n-fold repetition of a call that must not raise *)
Fixpoint repeat_remove (n : nat) (ix : Z) (f : ifile) : option ifile :=
  match n with
  | O => Some f
  | S n' => match remove_time f ix with (f', None) => repeat_remove n' ix f' | (_, Some _) => None end
  end.
