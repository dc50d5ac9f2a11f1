(** Theorems about hash_multiple_cells (C102). *)
From Coq Require Import Lia ZArith.
From Verif Require Import PyBase PyLemmas PyStr PyText LibModel MatModel InpModel InpSpec InpGeomSpec HashModel HashSpec HashProofs.
Open Scope nat_scope.

(** every cell is left without the cells whose lists name it: a point is in the new cell iff it is in the old one and in none
    of them.  Number, material, density and keywords stay, and cards that are not listed do not change *)
Theorem C102_hash_multiple_cells : forall cells h d, NoDup (locs cells) ->
  (forall id ns, In (id, ns) d -> (0 <= id)%Z /\ forall n, In n ns -> exists l c ls g head kw,
     dget str_eqb (str_of_Z n) cells = Some l /\ nth_error h l = Some c /\ Readable c n ls g head kw) ->
  exists h', hash_multiple_cells cells h d = (h', None) /\ length h' = length h /\
    (forall l, (forall n, In n (concat (map snd d)) -> dget str_eqb (str_of_Z n) cells <> Some l) -> nth_error h' l = nth_error h l) /\
    (forall n l c ls g head kw, dget str_eqb (str_of_Z n) cells = Some l -> nth_error h l = Some c -> Readable c n ls g head kw ->
       exists c' ls' g', nth_error h' l = Some c' /\ c_name c' = c_name c /\ Readable c' n ls' g' head kw /\
         forall side cell, inside side cell g' = inside side cell g && forallb (fun id => negb (cell (str_of_Z id))) (hashes d n)).
Proof.
  intros cells h d ND H. assert (IO : forall id n, In (id, n) (ops d) <-> exists ns, In (id, ns) d /\ In n ns).
  { intros id n. unfold ops. rewrite in_concat. split.
    - intros (x & X & Y). apply in_map_iff in X as ([i ns] & <- & X). cbn [fst snd] in Y. apply in_map_iff in Y as (m & E & Y). injection E as <- <-. exists ns. now split.
    - intros (ns & X & Y). exists (map (pair id) ns). split; [apply in_map_iff; exists (id, ns); now split|]. now apply in_map. }
  destruct (run_ops cells (ops d) ND h) as (h' & E & L & O & I).
  { intros id n X. apply IO in X as (ns & X & Y). destruct (H id ns X) as [P Q]. split; [exact P|]. destruct (Q n Y) as (l & c & ls & g & hd' & kw & A & B & C). exists l, c, ls, g, hd', kw. split; [now split|exact C]. }
  exists h'. split; [now rewrite multi_flat|]. split; [exact L|]. split.
  - intros l N. apply O. intros id n X. apply IO in X as (ns & X & Y). apply N. apply in_concat. exists ns. split; [|exact Y]. change ns with (snd (id, ns)). now apply in_map.
  - intros n l c ls g head kw A B R. destruct (I n l c ls g head kw (conj A B) R) as (c' & ls' & g' & X1 & X2 & X3 & X4). exists c', ls', g'. rewrite <- for_cell_hashes. auto.
Qed.
Print Assumptions C102_hash_multiple_cells.
(** a cell that is not in the input is refused with KeyError after the cells before it were changed *)
Theorem C102_missing_cell : forall cells h d1 id ns n ns' d2 h', hash_multiple_cells cells h (d1 ++ [(id, ns)]) = (h', None) -> dget str_eqb (str_of_Z n) cells = None ->
  hash_multiple_cells cells h (d1 ++ (id, ns ++ n :: ns') :: d2) = (h', Some KeyError).
Proof.
  intros cells h d1 id ns n ns' d2 h' H N. rewrite multi_flat in *. unfold ops in *. rewrite map_app, concat_app, loop_app in *. cbn [map concat fst snd] in *. rewrite app_nil_r in H.
  destruct (loop (op cells) h (concat (map (fun p => map (pair (fst p)) (snd p)) d1))) as [h1 [e|]]; [discriminate|]. rewrite map_app, <- app_assoc, loop_app, H. cbn [map app loop]. unfold op at 1, hash_one. cbn [fst snd]. rewrite N. reflexivity.
Qed.
Print Assumptions C102_missing_cell.

Definition tmpl (s : string) : tline := map (fun c => if Ascii.eqb c "@" then Hole 1 else Ch c) (s2l s).
Definition ec : card := mkCard (Some 1%Z) [(1, Kcel); (2, Kmat); (10, Ksur); (11, Ksur); (5, Ku)]%Z [tmpl "@ @ ~ -@ :@ imp:n=1 u=@"] [s2l "-7.8"].
Example C102_case : Readable ec 1 [s2l "1 2 -7.8 -10 :11 imp:n=1 u=5"] (GOr (GSurf true (s2l "10")) (GSurf false (s2l "11"))) (map s2l ["1"; "2"; "-7.8"]%string) (map s2l ["imp:n=1"; "u=5"]%string) /\
  (exists h', hash_multiple_cells [(s2l "1", 0)] [ec] [(7, [1]); (45, [1])]%Z = (h', None) /\ map card_text h' = [Ok [s2l "1 2 -7.8 ( ( -10 :11 ) #7 ) #45  imp:n=1 u=5"]]) /\
  hashes [(7, [1]); (45, [1])]%Z 1%Z = [7; 45]%Z.
Proof.
  split; [|split; [eexists; split; vm_compute; reflexivity|reflexivity]]. constructor.
  - exists 2%Z, [tmpl "-@"; tmpl ":@"], [tmpl "imp:n=1"; tmpl "u=@"]. split; [|reflexivity]. constructor.
    + exists 1, 1. do 3 eexists. split; [reflexivity|]. split; [vm_compute; reflexivity|]. vm_compute. reflexivity.
    + repeat constructor; intros Q; cbn in Q; intuition discriminate.
    + left. reflexivity.
    + exists [(10, Ksur); (11, Ksur)]%Z, [(5, Ku)]%Z. split; [reflexivity|]. split; [reflexivity|]. split; [discriminate|]. split; [repeat constructor|]. constructor; [|constructor]. intros [Q|Q]; discriminate.
    + intros _. exists (s2l "-7.8"), []. split; [reflexivity|]. split; [discriminate|]. repeat constructor.
  - vm_compute. reflexivity.
  - unfold region_of. change (tokens _) with ([TNum true (s2l "10")] ++ TColon :: [TNum false (s2l "11")]). apply u_or; [apply u_one, i_one, f_surf|]. apply i_one, f_surf.
  - vm_compute. reflexivity.
Qed.
