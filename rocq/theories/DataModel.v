(** Model of the data cards of src/f4enix/input/MCNPinput.py: reading the data section and the
    methods that add data cards.  A data card is seen through its lines; [wrap] is numjuggler's
    card(wrap=True) followed by a new parsing (external code, a parameter of the model).
    Float arguments are exact rationals. *)
From Verif Require Import PyBase PyStr PyText LibModel MatModel InpModel D1SModel.
Open Scope nat_scope.

(** MCNPinput.py 1028-1043 _clean_card_name.  [match_key]: one attempt of the pattern
    constants.py 43 (FMESH|TR|F)\d+ at a position *)
Fixpoint strip_prefix (p s : str) : option str :=
  match p, s with
  | [], _ => Some s
  | c :: p', d :: s' => if Ascii.eqb c d then strip_prefix p' s' else None
  | _ :: _, [] => None
  end.
Definition match_alt (p s : str) : option str :=
  match strip_prefix p s with
  | Some r => match fst (span_digits r) with [] => None | ds => Some (p ++ ds) end
  | None => None
  end.
Definition match_key (s : str) : option str :=
  match match_alt (s2l "FMESH") s with
  | Some m => Some m
  | None => match match_alt (s2l "TR") s with
            | Some m => Some m
            | None => match_alt (s2l "F") s
            end
  end.
(* re.search: the leftmost position *)
Fixpoint search_key (s : str) : option str :=
  match match_key s with
  | Some m => Some m
  | None => match s with [] => None | _ :: s' => search_key s' end
  end.
(* "TF" in key *)
Fixpoint contains (p s : str) : bool :=
  match strip_prefix p s with
  | Some _ => true
  | None => match s with [] => false | _ :: s' => contains p s' end
  end.
Definition clean_card_name (key : str) : str :=
  let key := upper key in
  match search_key key with
  | Some new => if contains (s2l "TF") key then "T"%char :: new else new
  | None => key
  end.

(** MCNPinput.py 726-757 _parse_data_section on the result of _to_dict.  A card: its lines, the kind
    of its first value (None: it has no values) and whether numjuggler's dtype is "TRn".  PAT_MT is
    m[tx]\d+ ignoring case, at the start of the first or of the last line (line 48).
    [from_text] is Material.from_text; add_mx appends the card to the last material. *)
Record dcard := mkDC { dc_lines : list str; dc_first : option kind; dc_tr : bool }.
Definition pat_mt (l : str) : bool :=
  match l with
  | m :: t :: d :: _ => Ascii.eqb (lower m) "m"%char && (Ascii.eqb (lower t) "t"%char || Ascii.eqb (lower t) "x"%char) && is_digit d
  | _ => false
  end.
Definition last_line (ls : list str) : str := last ls [].
Section ParseData.
  Context {M : Type} (from_text : list str -> res M).
  Record sections := mkSec { sec_mats : list (M * list dcard); sec_tr : list (str * dcard); sec_other : list (str * dcard) }.
  Definition to_other (s : sections) (key : str) (c : dcard) : sections := mkSec (sec_mats s) (sec_tr s) (dset str_eqb key c (sec_other s)).
  Definition parse_card (s : sections) (kc : str * dcard) : res sections :=
    let key := clean_card_name (fst kc) in
    let c := snd kc in
    match dc_first c with
    | None => Ok (to_other s key c)
    | Some Kmat =>
        if pat_mt (hd [] (dc_lines c)) || pat_mt (last_line (dc_lines c))
        then match rev (sec_mats s) with
             | [] => Ok (to_other s key c)
             | (m, mx) :: r => Ok (mkSec (rev ((m, mx ++ [c]) :: r)) (sec_tr s) (sec_other s))
             end
        else match from_text (dc_lines c) with
             | Ok m => Ok (mkSec (sec_mats s ++ [(m, [])]) (sec_tr s) (sec_other s))
             | Err IndexError => Ok (to_other s key c)
             | Err e => Err e
             end
    | Some _ => if dc_tr c then Ok (mkSec (sec_mats s) (dset str_eqb key c (sec_tr s)) (sec_other s)) else Ok (to_other s key c)
    end.
  Definition parse_data (cards : list (str * dcard)) : res sections := foldM parse_card (mkSec [] [] []) cards.
End ParseData.
Arguments sections : clear implicits.

(** the data part of an input: other_data (lines of each card) and tally_keys *)
Definition odict := list (str * list str).
Record dinput := mkD { d_other : odict; d_keys : list Z }.
Definition put (key : str) (ls : list str) (d : dinput) : dinput := mkD (dset str_eqb key ls (d_other d)) (d_keys d).
Definition kcat (p : string) (id : Z) : str := s2l p ++ str_of_Z id.

(** MCNPinput.py 1653-1656: only the characters of the second entry are added *)
Definition particles_text (ps : list str) : res str :=
  match ps with
  | [] => Err IndexError
  | [p] => Ok p
  | p :: q :: _ => Ok (fold_left (fun s c => s ++ "," %char :: [c]) q p)
  end.
(** MCNPinput.py 1614-1702 add_F_tally; [cells] are already texts (str(cell)) *)
Section Tally.
  Context (wrap : list str -> list str).
  Definition joined (ws : list str) : str := fold_left (fun s w => s ++ w ++ [sp]) ws (repeat sp 5).
  (* f"{energy:.4e}" *)
  Definition fmt_e (q : Q) : str :=
    if Qeq_bool q 0 then s2l "0.0000e+00"
    else if Qle_bool 0 q then let (d, x) := dec5 q in sci "e"%char d x else minus :: (let (d, x) := dec5 (- q)%Q in sci "e"%char d x).
  Definition add_F_tally (id : Z) (particles cells : list str) (add_total : bool) (energies : option (list Q))
    (description multiplier : option str) (add_SD : bool) (d : dinput) : dinput * option exn :=
    let d := mkD (d_other d) (d_keys d ++ [id]) in
    match particles_text particles with
    | Err e => (d, Some e)
    | Ok ps =>
        let d := match description with Some t => put (kcat "FC" id) [kcat "FC" id ++ sp :: t ++ [nl]] d | None => d end in
        let cells := if add_total then cells ++ [s2l "T"] else cells in
        let d := put (kcat "F" id) (wrap [kcat "F" id ++ ":"%char :: ps ++ [nl]; joined cells ++ [nl]]) d in
        let d := match energies with Some es => put (kcat "E" id) (wrap [kcat "E" id ++ [nl]; joined (map fmt_e es) ++ [nl]]) d | None => d end in
        let d := if add_SD
                 then let n := (Z.of_nat (length cells) - 1)%Z in
                      put (kcat "SD" id) [kcat "SD" id ++ s2l " 1" ++ (if (n =? 0)%Z then [] else sp :: str_of_Z n ++ s2l "R") ++ [nl]] d
                 else d in
        (match multiplier with Some m => put (kcat "FM" id) [kcat "FM" id ++ sp :: m ++ [nl]] d | None => d end, None)
    end.
End Tally.
(** MCNPinput.py 1704-1723 add_stopCard; int(nps) *)
Definition add_stopCard (nps : Q) (d : dinput) : dinput :=
  put (s2l "NPS") [s2l "NPS " ++ str_of_Z (qtrunc nps) ++ sp :: [nl]] d.

(** MCNPinput.py 2063-2082 add_PIKMT_card (None: no reaction file, nothing happens) *)
Definition pikmt_lines (parents : list str) : list str :=
  (s2l "PIKMT" ++ [nl]) :: map (fun p => repeat sp 9 ++ p ++ repeat sp 4 ++ s2l "0" ++ [nl]) parents.
Definition add_PIKMT_card (reacs : option (list reac)) (d : dinput) : dinput :=
  match reacs with None => d | Some l => put (s2l "PIKMT") (pikmt_lines (get_parents l)) d end.

(** MCNPinput.py 2153-2161 _get_num_tally *)
Definition get_num_tally (key : str) : res Z :=
  match first_digits key with Some ds => Ok (Z.of_N (num_of ds)) | None => Err ValueError end.
Inductive who := Parent | Daughter | BadWho.
(** MCNPinput.py 2084-2125 add_track_contribution: the lines of the card *)
Definition add_line (s : str) : str := repeat sp 9 ++ s ++ [nl].
Definition add_track_contribution (key : str) (zaids : list str) (w : who) (d : dinput) : dinput * option exn :=
  match dget str_eqb key (d_other d) with
  | None => (d, Some KeyError)
  | Some ls =>
      match get_num_tally key with
      | Err e => (d, Some e)
      | Ok n =>
          let ls := ls ++ [kcat "FU" n ++ s2l " 0" ++ [nl]] in
          match w with
          | Parent => (put key (ls ++ map (fun z => add_line ("-"%char :: z)) zaids) d, None)
          | Daughter => (put key (ls ++ map add_line zaids) d, None)
          | BadWho => (put key ls d, Some ValueError)
          end
      end
  end.

(** MCNPinput.py 1149-1158 _get_tally_cards: F[a-zA-Z]*{idx}$, matched at the start of the key *)
Definition is_tally_card (idx : Z) (key : str) : bool :=
  match key with
  | c :: r => Ascii.eqb c "F"%char && str_eqb (snd (LibModel.span_letters r)) (str_of_Z idx)
  | [] => false
  end.
Definition get_tally_cards (idx : Z) (d : dinput) : list str := filter (is_tally_card idx) (dkeys (d_other d)).
