(** Concrete inputs used to show that the hypotheses of the theorems of InpProps are met. *)
From Verif Require Import PyBase PyStr PyText LibModel MatModel InpModel.
Open Scope nat_scope.

(** "@" stands for a hole of width 1 *)
Definition tmpl (s : string) : tline := map (fun c => if Ascii.eqb c "@" then Hole 1 else Ch c) (s2l s).
Definition cellcard (n : Z) (vs : list (Z * kind)) (t : string) : card := mkCard (Some n) ((n, Kcel) :: vs) [tmpl t] [].
Definition surfcard (n : Z) (t : string) : card := mkCard (Some n) [(n, Ksur)] [tmpl t] [].

(* 1 0 -10 11        2 0 #1 11 fill=5       3 0 -10 u=5    4 0 (-10 11) *)
Definition x_c1 := cellcard 1 [(0, Kmat); (10, Ksur); (11, Ksur)]%Z "@ @ -@ @".
Definition x_c2 := cellcard 2 [(0, Kmat); (1, Kcel); (11, Ksur); (5, Kfill)]%Z "@ @ #@ @ fill=@".
Definition x_c3 := cellcard 3 [(0, Kmat); (10, Ksur); (5, Ku)]%Z "@ @ -@ u=@".
Definition x_c4 := cellcard 4 [(0, Kmat); (12, Ksur)]%Z "@ @ @".
Definition x_s10 := surfcard 10 "@ so 1".
Definition x_s11 := surfcard 11 "*@ so 2".
Definition x_s12 := surfcard 12 "@ px 0".
Definition x_f4 := mkCard (Some 4%Z) [(4, Kother); (1, Kcel)]%Z [tmpl "f@:n @"] [].
Definition x_heap : heap := [x_c1; x_c2; x_c3; x_c4; x_s10; x_s11; x_s12; x_f4].
Definition x_cells : cdict := [(s2l "1", 0); (s2l "2", 1); (s2l "3", 2); (s2l "4", 3)].
Definition x_surfs : cdict := [(s2l "10", 4); (s2l "*11", 5); (s2l "12", 6)].
Definition x_inp : input := mkInp x_cells x_surfs (ml_new mt_name []) [] [(s2l "F4", 7)] [4%Z] [] [].
(** a second input, in the same heap *)
Definition y_heap : heap := x_heap ++ [cellcard 7 [(0, Kmat); (13, Ksur)]%Z "@ @ @"; surfcard 13 "@ so 3"; cellcard 2 [(0, Kmat); (13, Ksur)]%Z "@ @ @"].
Definition y_inp : input := mkInp [(s2l "7", 8)] [(s2l "13", 9)] (ml_new mt_name []) [] [] [] [] [].
(** it has a cell 7, and a cell 2 that [x_inp] has too *)
Definition z_inp : input := mkInp [(s2l "7", 8); (s2l "2", 10)] [(s2l "13", 9)] (ml_new mt_name []) [] [] [] [] [].
(** two cells that exclude each other *)
Definition loop_heap : heap := [cellcard 1 [(0, Kmat); (2, Kcel)]%Z "@ @ #@"; cellcard 2 [(0, Kmat); (1, Kcel)]%Z "@ @ #@"].
Definition loop_inp : input := mkInp [(s2l "1", 0); (s2l "2", 1)] [] (ml_new mt_name []) [] [] [] [] [].
(** the universe written without an equal sign *)
Definition u_card := cellcard 3 [(0, Kmat); (10, Ksur); (5, Ku)]%Z "@ @ -@ u @".

Definition ncard (s : string) : pcard := mkP true [s2l s].
Definition ucard (s : string) : pcard := mkP false [s2l s].

(** C33/C34: cells with a material, a universe, several rows *)
Definition g_c1 := mkCard (Some 1%Z) [(1, Kcel); (2, Kmat); (10, Ksur); (11, Ksur); (12, Ksur); (5, Ku)]%Z [tmpl "@ @ ~ -@ :@"; tmpl "     -@ imp:n=1 u=@"] [s2l "-7.8"].
Definition g_void := mkCard (Some 3%Z) [(3, Kcel); (0, Kmat); (10, Ksur)]%Z [tmpl "@ @ -@"] [].
Definition g_glued := mkCard (Some 1%Z) [(1, Kcel); (0, Kmat); (1, Ksur); (2, Ksur); (3, Ksur)]%Z [tmpl "@ @(@:-@):@"] [].
Definition g_heap : heap := [g_c1; g_void; mkCard (Some 4%Z) [(4, Kcel); (3, Kmat); (10, Ksur)]%Z [tmpl "@ @ ~ @"] [s2l "0.5"]].
Definition g_inp : input := mkInp [(s2l "1", 0); (s2l "3", 1); (s2l "4", 2)] [] (ml_new mt_name []) [] [] [] [] [].
