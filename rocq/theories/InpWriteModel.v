(** Model of the writing of an input file: src/f4enix/input/MCNPinput.py 359-382 write, 563-573 _print_cards and
    817-878 write_blocks.  The text of a card is that of the parser (numjuggler), card.card(wrap), a parameter; a file
    is the text written to it. *)
From Verif Require Import PyBase PyStr PyText MatTextModel.
Open Scope nat_scope.

(** MCNPinput.py 49 PAT_BLANK_LINE = \n[\s\t]*\n : what follows the longest white space that ends with a line end *)
Fixpoint blank_run (s : str) : option str :=
  match s with
  | c :: r => if is_ws c then match blank_run r with Some x => Some x | None => if Ascii.eqb c nl then Some r else None end else None
  | [] => None
  end.
(** PAT_BLANK_LINE.sub("\n", s), from left to right *)
Fixpoint sub_blank (n : nat) (s : str) : str :=
  match n, s with
  | S n', c :: r => if Ascii.eqb c nl then match blank_run r with Some r' => nl :: sub_blank n' r' | None => nl :: sub_blank n' r end
                    else c :: sub_blank n' r
  | _, _ => s
  end.
(** 563-573 _print_cards: a card as a function of wrap *)
Definition wcard := bool -> str.
Definition print_card (wrap : bool) (c : wcard) : str :=
  let t := no_cr (strip_nl (c wrap) ++ [nl]) in sub_blank (length t) t.
Definition print_cards (wrap : bool) (cs : list wcard) : str := concat (map (print_card wrap) cs).
(** 818-878 write_blocks; the text of the materials is missing when there are none *)
Record blocks := mkBl { bl_header : option (list str); bl_cells : list wcard; bl_surfs : list wcard; bl_trans : option (list wcard); bl_mats : option str; bl_other : option (list wcard) }.
Definition opt_cards (wrap : bool) (o : option (list wcard)) : str := match o with Some cs => print_cards wrap cs | None => [] end.
Definition write_blocks (wrap : bool) (b : blocks) : str :=
  match bl_header b with Some ls => concat (map no_cr ls) | None => s2l "C" ++ [nl] end ++
  print_cards wrap (bl_cells b) ++ [nl] ++ print_cards wrap (bl_surfs b) ++ [nl] ++ opt_cards false (bl_trans b) ++
  match bl_mats b with Some t => t ++ [nl] | None => [] end ++ opt_cards wrap (bl_other b).
