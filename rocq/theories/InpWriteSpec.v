(** Vocabulary for the statements about the text of an input file. *)
From Verif Require Import PyBase PyStr PyText MatTextModel MatTextSpec InpWriteModel.
Open Scope nat_scope.

(** a line with nothing but white space *)
Definition blank (l : str) : bool := forallb is_ws l.
(** the lines of a text, without carriage returns, that are not blank *)
Definition kept (t : str) : list str := filter (fun l => negb (blank l)) (file_lines (no_cr t)).
(** a text that starts, after line ends, with a line that is not blank *)
Definition Printable (t : str) : Prop := exists k b r, t = repeat nl k ++ b ++ r /\ ~ In nl b /\ exists c, In c b /\ is_ws c = false.
(** complete lines that are not blank *)
Definition FullLine (l : str) : Prop := (exists b, l = b ++ [nl] /\ ~ In nl b) /\ blank (no_cr l) = false.
Definition header_lines (o : option (list str)) : list str := match o with Some ls => map no_cr ls | None => [s2l "C" ++ [nl]] end.
Definition kept_cards (wrap : bool) (cs : list wcard) : list str := concat (map (fun c => kept (c wrap)) cs).
Definition kept_opt (wrap : bool) (o : option (list wcard)) : list str := match o with Some cs => kept_cards wrap cs | None => [] end.
(** the lines of the materials *)
Definition mats_lines (o : option str) : list str := match o with Some t => file_lines t | None => [] end.
(** what can be written: complete header lines that are not blank, printable cards, materials without blank lines *)
Definition Writable (wrap : bool) (b : blocks) : Prop :=
  match bl_header b with Some ls => Forall FullLine ls | None => True end /\ Forall (fun c => Printable (c wrap)) (bl_cells b) /\ Forall (fun c => Printable (c wrap)) (bl_surfs b) /\
  match bl_trans b with Some cs => Forall (fun c => Printable (c false)) cs | None => True end /\
  match bl_mats b with Some t => Forall (fun l => blank l = false) (file_lines t) | None => True end /\
  match bl_other b with Some cs => Forall (fun c => Printable (c wrap)) cs | None => True end.
