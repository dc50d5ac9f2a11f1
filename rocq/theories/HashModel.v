(** Model of Input.hash_multiple_cells, src/f4enix/input/MCNPinput.py 1475-1488: for every entry of
    the dictionary and every cell of its list, hash_cell (InpModel.v) in place.  When a cell is missing
    the changes made before remain. *)
From Verif Require Import PyBase PyStr PyText LibModel MatModel InpModel.
Open Scope nat_scope.

(** one cell: the heap after it *)
Definition hash_one (cells : cdict) (id : Z) (h : heap) (n : Z) : res heap :=
  do l <- of_opt KeyError (dget str_eqb (str_of_Z n) cells);
  do c <- hget h l;
  do c' <- hash_cell id None c;
  Ok (hset h l c').
(** a loop that stops at the first exception and keeps what was done *)
Fixpoint loop {A B} (f : A -> B -> res A) (a : A) (l : list B) : A * option exn :=
  match l with
  | [] => (a, None)
  | x :: l' => match f a x with Ok a' => loop f a' l' | Err e => (a, Some e) end
  end.
Fixpoint hash_multiple_cells (cells : cdict) (h : heap) (d : list (Z * list Z)) : heap * option exn :=
  match d with
  | [] => (h, None)
  | (id, ns) :: d' => match loop (hash_one cells id) h ns with
                      | (h', None) => hash_multiple_cells cells h' d'
                      | r => r
                      end
  end.
