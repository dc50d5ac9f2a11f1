(** Model of src/f4enix/input/MCNPinput.py 497-550 (Input.translate, update_zaidinfo), materials.py 559-666 (the choice of
    the library when it is given as a dictionary of any shape) and 1578-1636 (MatCardsList.translate, update_info).
    json.loads of the standard library is a parameter.  The zaids, the conversion and the in-line information are in
    MatModel.v, LibModel.v and MatInfoModel.v. *)
From Verif Require Import PyBase PyStr PyText LibModel MatModel MatInfoModel.
Open Scope nat_scope.

(** a value of the dictionary: a text, something with members (a list, or another dictionary: its texts and its keys are
    the members that can equal a zaid), or something without (number, true, false, null) *)
Inductive dval := VText (s : str) | VMembers (l : list str) | VOther.
(** the argument newlib: a text or a dictionary *)
Inductive libarg := AText (t : str) | ADict (d : list (str * dval)).

(** [w in s] on texts *)
Fixpoint starts (w s : str) : bool :=
  match w, s with
  | [], _ => true
  | a :: w', b :: s' => Ascii.eqb a b && starts w' s'
  | _ :: _, [] => false
  end.
Fixpoint occurs (w s : str) : bool :=
  starts w s || match s with [] => false | _ :: s' => occurs w s' end.
(** materials.py 608-611 zaidnum in zaids *)
Definition member (num : str) (v : dval) : res bool :=
  match v with VText s => Ok (occurs num s) | VMembers l => Ok (memb str_eqb num l) | VOther => Err TypeError end.
(** materials.py 605-618 the explicit assignment *)
Fixpoint find_lib (num : str) (d : list (str * dval)) : res str :=
  match d with
  | [] => Err ValueError
  | (l, v) :: d' => do b <- member num v; if b : bool then Ok l else find_lib num d'
  end.
(** materials.py 587-621 on a decoded argument: the tag, which may be no text *)
Definition pick (a : libarg) (z : zaid) : res dval :=
  match a with
  | AText t => Ok (VText t)
  | ADict [] => Err IndexError
  | ADict (((_, VText _) :: _) as d) =>
      match z_lib z with None => Err ValueError | Some l => of_opt ValueError (dget str_eqb l d) end
  | ADict d => do l <- find_lib (z_num z) d; Ok (VText l)
  end.
(** materials.py 623-644: a tag that is no text cannot be put in the message of the ValueError of convertZaid (393-394):
    TypeError *)
Definition zaid_conv (E : matenv) (a : libarg) (z : zaid) : res (option (list (str * transl))) :=
  do tag <- pick a z;
  if match z_lib z with Some l => memb str_eqb l (m_dosim E) | None => false end
  then Ok (Some [(z_num z, (z_lib z, 1%Q, 1%Q))])
  else match tag with
       | VText l => match convertZaid (m_lib E) (z_num z) l with Ok tr => Ok (Some tr) | Err ValueError => Ok None | Err e => Err e end
       | _ => Err TypeError
       end.
(** materials.py 559-666 *)
Definition conv_zaid (E : matenv) (a : libarg) (z : zaid) : res (list zaid) :=
  do o <- zaid_conv E a z;
  match o with Some tr => new_zaids z tr | None => Ok [] end.
Definition conv_sub (E : matenv) (a : libarg) (s : submat) : res submat :=
  do l <- mapM (conv_zaid E a) (s_zaids s);
  Ok (mk_submat (concat l)).
(** materials.py 1041-1079: a submaterial that raises leaves the earlier ones translated *)
Fixpoint conv_subs (E : matenv) (a : libarg) (l : list submat) : list submat * option exn :=
  match l with
  | [] => ([], None)
  | s :: l' => match conv_sub E a s with
               | Err e => (s :: l', Some e)
               | Ok s' => let (r, o) := conv_subs E a l' in (s' :: r, o)
               end
  end.
Definition opt_err {A} (r : res A) : option exn := match r with Ok _ => None | Err e => Some e end.
Definition conv_mat (E : matenv) (a : libarg) (m : material) : material * option exn :=
  match conv_subs E a (mt_subs m) with
  | (l, Some e) => (mkmat (mt_name m) l, Some e)
  | (l, None) => (mkmat (mt_name m) l, opt_err (update_info E (mkmat (mt_name m) l)))
  end.
(** materials.py 1608-1614: one material after the other, its elements rebuilt *)
Definition recollapse (m : material) : material := mkmat (mt_name m) (map (fun s => mk_submat (s_zaids s)) (mt_subs m)).
Fixpoint conv_list (E : matenv) (a : libarg) (l : list material) : list material * option exn :=
  match l with
  | [] => ([], None)
  | m :: l' => match conv_mat E a m with
               | (m', Some e) => (m' :: l', Some e)
               | (m', None) => let (r, o) := conv_list E a l' in (recollapse m' :: r, o)
               end
  end.
(** materials.py 1620-1636 *)
Definition list_update (E : matenv) (l : list material) : option exn := opt_err (mapM (update_info E) l).
(** materials.py 1578-1618 MatCardsList.translate *)
Definition translate_cards (E : matenv) (a : libarg) (l : list material) : list material * option exn :=
  match conv_list E a l with
  | (l', Some e) => (l', Some e)
  | (l', None) => (l', list_update E l')
  end.

Section Json.
  (** json.loads on a text that starts with a brace: the dictionary, or its exception *)
  Context (loads : str -> res (list (str * dval))).
  (** MCNPinput.py 524-530: only a KeyError would be caught *)
  Definition decode (a : libarg) : res libarg :=
    match a with
    | ADict _ => Ok a
    | AText [] => Err IndexError
    | AText ((c :: _) as t) => if Ascii.eqb c "{"%char then do d <- loads t; Ok (ADict d) else Ok a
    end.
  (** MCNPinput.py 497-533: the materials afterwards and the exception *)
  Definition input_translate (E : matenv) (a : libarg) (l : list material) : list material * option exn :=
    match decode a with
    | Err e => (l, Some e)
    | Ok a' => match list_update E l with
               | Some e => (l, Some e)
               | None => translate_cards E a' l
               end
    end.
End Json.
