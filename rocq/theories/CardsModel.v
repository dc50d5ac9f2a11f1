(** input/MCNPinput.py 53-87: the dictionary of cells or of surfaces (CardsDict), as the dictionary that a script works with. *)
From Coq Require Import ZArith.
From Verif Require Import PyBase PyStr PyText InpModel.
Open Scope nat_scope.

(** what a script may use as a key or as a value: a string, or any other hashable object; a card (an object of the heap), or
    any other object *)
Inductive pkey := KS (s : str) | KX (n : nat).
Inductive pval := VC (l : loc) | VX (n : nat).
(** equality of keys: dict of Python *)
Definition pkey_eqb (a b : pkey) : bool :=
  match a, b with KS s, KS t => str_eqb s t | KX m, KX n => Nat.eqb m n | _, _ => false end.
Definition store := list (pkey * pval).
(** 78: str(value.name) *)
Definition name_text (c : card) : str := match c_name c with Some n => str_of_Z n | None => s2l "None" end.
(** 74-84: [k] is the type of the dictionary (card_type); int(num) is computed before the card is changed *)
Definition force_key (k : kind) (num : str) (h : heap) (l : loc) : res heap :=
  do c <- hget h l;
  if str_eqb num (name_text c) then Ok h else do z <- parse_int num; Ok (hset h l (rename k z c)).
(** 63-87 __setitem__ *)
Definition cset (k : kind) (h : heap) (d : store) (key : pkey) (v : pval) : res (heap * store) :=
  match key with
  | KX _ => Err ValueError
  | KS s => match v with
            | VX _ => Err ValueError
            | VC l => do h' <- force_key k (key_num s) h l; Ok (h', dset pkey_eqb key v d)
            end
  end.
(** 60-61: the items of one dictionary, one by one; what is reached when one of them raises is kept *)
Fixpoint cset_all (k : kind) (h : heap) (d : store) (items : list (pkey * pval)) : (heap * store) * option exn :=
  match items with
  | [] => ((h, d), None)
  | (key, v) :: rest => match cset k h d key v with
                        | Ok (h', d') => cset_all k h' d' rest
                        | Err e => ((h, d), Some e)
                        end
  end.
(** 60, the dict made of the arguments: later items replace the values of earlier ones, which keep their place *)
Definition py_dict (items : list (pkey * pval)) : list (pkey * pval) :=
  fold_left (fun d kv => dset pkey_eqb (fst kv) (snd kv) d) items [].
(** 58-61 update *)
Definition cupdate (k : kind) (h : heap) (d : store) (items : list (pkey * pval)) : (heap * store) * option exn :=
  cset_all k h d (py_dict items).

(** what a script can do to the dictionary: the two methods of the class, and those of dict it does not override.
    setdefault and |= of dict do not call __setitem__. *)
Inductive op := OSet (key : pkey) (v : pval) | OUpdate (items : list (pkey * pval)) | ODel (key : pkey) | OPop (key : pkey) | OPopitem | OClear
  | OSetdefault (key : pkey) (v : pval) | OOr (items : list (pkey * pval)).
(** one operation: the new state and the exception it raised *)
Definition do_op (k : kind) (h : heap) (d : store) (o : op) : (heap * store) * option exn :=
  match o with
  | OSet key v => match cset k h d key v with Ok s => (s, None) | Err e => ((h, d), Some e) end
  | OUpdate items => cupdate k h d items
  | ODel key | OPop key => if dmem pkey_eqb key d then ((h, ddel pkey_eqb key d), None) else ((h, d), Some KeyError)
  | OPopitem => match d with [] => ((h, d), Some KeyError) | _ => ((h, removelast d), None) end
  | OClear => ((h, []), None)
  | OSetdefault key v => if dmem pkey_eqb key d then ((h, d), None) else ((h, d ++ [(key, v)]), None)
  | OOr items => ((h, fold_left (fun d kv => dset pkey_eqb (fst kv) (snd kv) d) items d), None)
  end.
(** a script that goes on after every exception *)
Fixpoint run_ops (k : kind) (h : heap) (d : store) (os : list op) : heap * store :=
  match os with [] => (h, d) | o :: os' => let '(s, _) := do_op k h d o in run_ops k (fst s) (snd s) os' end.
