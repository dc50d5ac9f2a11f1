(** Shared vocabulary of the models: Python exceptions as values, Python
    dictionaries as association lists in insertion order, nested lists as numpy
    arrays.  Nothing here models a particular file of /repo; it models the
    Python/numpy runtime operations that the cited code calls. *)
From Coq Require Export List ZArith QArith Lia Bool.
From Coq Require Export Ascii.
Export ListNotations.
Open Scope nat_scope.

(** Python exceptions that the modelled code can raise ([OtherError]: any class not listed,
    such as IOError, RuntimeError or SystemExit), plus [Diverges] for a [while] loop that
    never ends (no model catches it). *)
Inductive exn : Type :=
| ValueError | KeyError | IndexError | TypeError | AttributeError
| UnboundLocalError | ZeroDivisionError | FileNotFoundError | NotImplementedError
| OtherError | Diverges.

Inductive res (A : Type) : Type :=
| Ok : A -> res A
| Err : exn -> res A.
Arguments Ok {A} _.
Arguments Err {A} _.

Definition bind {A B} (m : res A) (f : A -> res B) : res B :=
  match m with Ok a => f a | Err e => Err e end.
Notation "'do' x <- m ; f" := (bind m (fun x => f))
  (at level 200, x name, m at level 100, f at level 200).
Notation "'do' ' p <- m ; f" := (bind m (fun p => f))
  (at level 200, p strict pattern, m at level 100, f at level 200).

Definition of_opt {A} (e : exn) (o : option A) : res A :=
  match o with Some a => Ok a | None => Err e end.

Definition is_ok {A} (r : res A) : bool := match r with Ok _ => true | Err _ => false end.

(** Left-to-right evaluation of a list comprehension whose body may raise. *)
Fixpoint mapM {A B} (f : A -> res B) (l : list A) : res (list B) :=
  match l with
  | [] => Ok []
  | x :: xs => do y <- f x; do ys <- mapM f xs; Ok (y :: ys)
  end.

(** A [for] loop over a list, with early exit on an exception. *)
Fixpoint foldM {A B} (f : A -> B -> res A) (a : A) (l : list B) : res A :=
  match l with
  | [] => Ok a
  | x :: xs => do a' <- f a x; foldM f a' xs
  end.

(** Python [dict] (insertion ordered): assignment to an existing key keeps its
    position, assignment to a new key appends. *)
Section Dict.
  Context {K V : Type} (eqb : K -> K -> bool).

  Fixpoint dget (k : K) (d : list (K * V)) : option V :=
    match d with
    | [] => None
    | (k', v) :: d' => if eqb k k' then Some v else dget k d'
    end.

  Fixpoint dset (k : K) (v : V) (d : list (K * V)) : list (K * V) :=
    match d with
    | [] => [(k, v)]
    | (k', v') :: d' => if eqb k k' then (k', v) :: d' else (k', v') :: dset k v d'
    end.

  Fixpoint ddel (k : K) (d : list (K * V)) : list (K * V) :=
    match d with
    | [] => []
    | (k', v') :: d' => if eqb k k' then d' else (k', v') :: ddel k d'
    end.

  Definition dmem (k : K) (d : list (K * V)) : bool :=
    match dget k d with Some _ => true | None => false end.
End Dict.
Definition dkeys {K V} (d : list (K * V)) : list K := map fst d.
Definition dvals {K V} (d : list (K * V)) : list V := map snd d.

(** Membership test [x in l] and [l.index(x)]. *)
Fixpoint memb {A} (eqb : A -> A -> bool) (x : A) (l : list A) : bool :=
  match l with [] => false | y :: ys => eqb x y || memb eqb x ys end.

Fixpoint index_of {A} (eqb : A -> A -> bool) (x : A) (l : list A) : option nat :=
  match l with
  | [] => None
  | y :: ys => if eqb x y then Some 0 else option_map S (index_of eqb x ys)
  end.

(** [l.remove(x)]: removes the first element equal to [x]. *)
Fixpoint remove_first {A} (p : A -> bool) (l : list A) : list A :=
  match l with
  | [] => []
  | y :: ys => if p y then ys else y :: remove_first p ys
  end.

(** [l[i:i+n]] packs: [[l[i:i+n] for i in range(0, len(l), n)]]. *)
Fixpoint packs_aux {A} (fuel n : nat) (l : list A) : list (list A) :=
  match fuel with
  | O => []
  | S fuel' => match l with
               | [] => []
               | _ => firstn n l :: packs_aux fuel' n (skipn n l)
               end
  end.
Definition packs {A} (n : nat) (l : list A) : list (list A) := packs_aux (length l) n l.

(** Sum of a list of rationals, left to right ([sum]/[np.sum]). *)
Definition qsum (l : list Q) : Q := fold_right Qplus 0%Q l.

(** Python's [int(x)] on a float: truncation towards zero. *)
Definition qtrunc (q : Q) : Z := Z.quot (Qnum q) (Zpos (Qden q)).

(** Python's [round]-half-even of an exact rational to an integer, used by the
    ["%.nf"]/["%.ng"] formatters. *)
Definition qround_even (q : Q) : Z :=
  let n := Qnum q in let d := Zpos (Qden q) in
  let f := Z.div n d in
  let r := (2 * Z.modulo n d)%Z in
  if (r <? d)%Z then f else if (d <? r)%Z then (f + 1)%Z
  else if Z.even f then f else (f + 1)%Z.
