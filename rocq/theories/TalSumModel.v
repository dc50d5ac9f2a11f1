(** Model of the summary of the tallies, src/f4enix/input/MCNPinput.py 1147-1240.  The data part of
    the input is [odict] of DataModel.v (the lines of each data card under its name); a missing value
    (pd.NA) is None. *)
From Verif Require Import PyBase PyStr PyText MatModel DataModel.
Open Scope nat_scope.

(** str.replace(p, ""): the occurrences of p from left to right, without overlaps (p is not empty) *)
Fixpoint remove_go (p s : str) (skip : nat) : str :=
  match s with
  | [] => []
  | c :: r => match skip with
              | S k => remove_go p r k
              | O => match strip_prefix p s with
                     | Some _ => remove_go p r (length p - 1)
                     | None => c :: remove_go p r 0
                     end
              end
  end.
Definition remove_all (p s : str) : str := remove_go p s 0.

(** constants.py 49 PAT_NP (?<=:)[nN,pP]+ searched in a line *)
Definition is_np (c : ascii) : bool :=
  Ascii.eqb c "n" || Ascii.eqb c "N" || Ascii.eqb c "," || Ascii.eqb c "p" || Ascii.eqb c "P".
Fixpoint span_np (s : str) : str := match s with c :: r => if is_np c then c :: span_np r else [] | [] => [] end.
Fixpoint search_np (s : str) : option str :=
  match s with
  | [] => None
  | c :: r => if Ascii.eqb c ":" then match span_np r with [] => search_np r | m => Some m end else search_np r
  end.

(** MCNPinput.py 1160-1165 _retrieve_input: a name that is not there is KeyError, a card without lines IndexError *)
Definition retrieve_input (d : odict) (tag : str) : res str :=
  match dget str_eqb tag d with
  | None => Err KeyError
  | Some [] => Err IndexError
  | Some (l :: _) => Ok (strip (remove_all (map lower tag) (strip (remove_all tag l))))
  end.

Section Summary.
  (* repr of a text *)
  Context (repr : str -> str).
  (** str of a list of texts *)
  Fixpoint commas (ws : list str) : str :=
    match ws with [] => [] | [w] => repr w | w :: ws' => repr w ++ s2l ", " ++ commas ws' end.
  Definition repr_list (ws : list str) : str := s2l "[" ++ commas ws ++ s2l "]".
  Definition c_line (l : str) : bool := match l with c :: _ => Ascii.eqb c "C" || Ascii.eqb c "c" | [] => false end.
  (** MCNPinput.py 1167-1183 _retrieve_FM *)
  Definition retrieve_FM (d : odict) (tag : str) : res (list str) :=
    match dget str_eqb tag d with
    | None => Err KeyError
    | Some ls =>
        match retrieve_input d tag with
        | Err e => Err e
        | Ok t =>
            let first := split t in
            if length ls =? 1 then Ok first
            else Ok (s2l "N.A." :: (match first with [] => [] | _ => [repr_list first] end)
                       ++ map strip (filter (fun l => negb (c_line l)) (tl ls)))
        end
    end.

  Record trow := mkTR { r_tally : Z; r_particle : option str; r_desc : option str; r_norm : option str; r_others : option (list str) }.
  (** MCNPinput.py 1214-1224: the cards of one tally, in the order of the data *)
  Definition starts2 (p : string) (key : str) : bool := str_eqb (firstn 2 key) (s2l p).
  Record tinfo := mkTI { i_particle : option str; i_desc : option str; i_mult : option (list str) }.
  Definition add_card (tag : string) (n : Z) (d : odict) (i : tinfo) (key : str) : res tinfo :=
    if starts2 "FC" key then match retrieve_input d key with Ok t => Ok (mkTI (i_particle i) (Some t) (i_mult i)) | Err e => Err e end
    else if str_eqb key (kcat tag n) then
      match dget str_eqb key d with
      | None => Err KeyError
      | Some [] => Err IndexError
      | Some (l :: _) => match search_np l with
                         | None => Err AttributeError (* None.group() *)
                         | Some m => Ok (mkTI (Some (upper m)) (i_desc i) (i_mult i)) (* strip(":"): no colon in a match *)
                         end
      end
    else if starts2 "FM" key then match retrieve_FM d key with Ok m => Ok (mkTI (i_particle i) (i_desc i) (Some m)) | Err e => Err e end
    else Ok i.
  (** MCNPinput.py 1211-1238: one row *)
  Definition tally_row (tag : string) (d : odict) (n : Z) : res trow :=
    match foldM (add_card tag n d) (mkTI None None None) (get_tally_cards n (mkD d [])) with
    | Err e => Err e
    | Ok i => match i_mult i with
              | None => Ok (mkTR n (i_particle i) (i_desc i) None None)
              | Some [] => Err IndexError
              | Some (m :: ms) => Ok (mkTR n (i_particle i) (i_desc i) (Some m) (match ms with [] => None | _ => Some ms end))
              end
    end.
  (** sort_index: rows of equal numbers keep their order here (pandas does not say) *)
  Fixpoint insert_row (x : trow) (l : list trow) : list trow :=
    match l with [] => [x] | y :: l' => if (r_tally x <=? r_tally y)%Z then x :: l else y :: insert_row x l' end.
  Definition sort_rows (l : list trow) : list trow := fold_right insert_row [] l.
  (** MCNPinput.py 1184-1240 get_tally_summary; set_index of a table without rows is KeyError *)
  Definition get_tally_summary (fmesh : bool) (d : odict) (tally_keys fmesh_keys : list Z) : res (list trow) :=
    let tag := if fmesh then "FMESH"%string else "F"%string in
    let tallies := if fmesh then fmesh_keys else tally_keys in
    match mapM (tally_row tag d) tallies with
    | Err e => Err e
    | Ok [] => Err KeyError
    | Ok rows => Ok (sort_rows rows)
    end.
End Summary.
