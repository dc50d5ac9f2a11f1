(** C111: extracting sectors of E-Lite one after the other from the same object. *)
From Coq Require Import Lia ZArith QArith Sorted.
From Verif Require Import PyBase PyLemmas PyStr PyStrLemmas PyText D1SProofs2 LibModel MatModel MatProofs MatProofs2 InpModel InpSpec InpGeomSpec InpProofs InpProofs2 InpProofs3 InpProofs4 InpExamples LookModel LookProofs EliteModel EliteSpec EliteProofs EliteProofs5 EliteProps EliteRunModel EliteRunSpec EliteRunProofs EliteRunProofs2 EliteRunProofs3 EliteRunProofs4.
Open Scope nat_scope.

Section Calls.
  Variable sind cosd : Z -> Q.
  Variable cosq : Q -> Q.
  Variable norm : vec3 -> Q.
  Variable void_d : Q.
  Variable view : card -> surf.
  Variable paint : surf -> card -> card.
  Variable trans_of : card -> trans.
  Notation call_it := (extract_sector sind cosd cosq norm void_d view paint trans_of).
  Notation history := (run sind cosd cosq norm void_d view paint trans_of).

  (** ** the object is not consumed *)
  (** Whatever sectors have been extracted, successfully or not, every card of the input is as it was read. *)
  Theorem C111_input_untouched h a cs : input_allocated h a -> forall l, l < length h -> nth_error (e_heap (history a (mkE h None) cs)) l = nth_error h l.
  Proof. intros AL. destruct (run_calls sind cosd cosq norm void_d view paint trans_of h a cs AL (mkE h None) (frame_refl h)) as [F _]. exact (proj2 F). Qed.
  (** What a call writes does not depend on the calls before it, but for the table that they have left. *)
  Theorem C111_independent_of_the_history h a cs c : input_allocated h a ->
    snd (call_it a (history a (mkE h None) cs) c) = snd (call_it a (mkE h (e_table (history a (mkE h None) cs))) c).
  Proof. intros AL. destruct (run_calls sind cosd cosq norm void_d view paint trans_of h a cs AL (mkE h None) (frame_refl h)) as [F _].
    pose proof (one_call sind cosd cosq norm void_d view paint trans_of h a _ c AL F) as O1. pose proof (one_call sind cosd cosq norm void_d view paint trans_of h a (mkE h (e_table (history a (mkE h None) cs))) c AL (frame_refl h)) as O2.
    destruct (call_it a (history a (mkE h None) cs) c) as [s1 r1]. destruct (call_it a (mkE h (e_table (history a (mkE h None) cs))) c) as [s2 r2]. cbn [snd e_table] in *. destruct O1 as (_ & -> & _), O2 as (_ & -> & _). reflexivity. Qed.

  (** ** the Excel file *)
  (** The table in use is that of the first call whose file could be read and passed its check; a call that is refused
      leaves no table. *)
  Theorem C111_first_accepted_file h a cs t rs : input_allocated h a -> get_cells_summary void_d h (i_cells a) = Ok rs ->
    e_table (history a (mkE h None) cs) = Some t <->
    exists pre c post, cs = pre ++ c :: post /\ accepted h a c t /\ Forall (fun c' => forall t', ~ accepted h a c' t') pre.
  Proof. intros AL SU. destruct (run_calls sind cosd cosq norm void_d view paint trans_of h a cs AL (mkE h None) (frame_refl h)) as [_ T]. cbn [e_table] in T. rewrite T. exact (kept_first void_d h a t rs SU cs). Qed.
  (** With a check, a file that does not list the cells outside universes is refused and nothing is written. *)
  Theorem C111_wrong_file_refused h a cs c t rs : input_allocated h a -> get_cells_summary void_d h (i_cells a) = Ok rs ->
    e_table (history a (mkE h None) cs) = None -> c_excel c = Ok t -> c_check c = true -> ~ (forall z, level0 h a z <-> In z (map snd t)) ->
    snd (call_it a (history a (mkE h None) cs) c) = Err OtherError /\ e_table (fst (call_it a (history a (mkE h None) cs) c)) = None.
  Proof. intros AL SU E X K N. destruct (run_calls sind cosd cosq norm void_d view paint trans_of h a cs AL (mkE h None) (frame_refl h)) as [F _].
    assert (I : initialize void_d h a (c_excel c) (c_check c) = Err OtherError). { rewrite X, K. apply (refused void_d h a t rs SU). exact N. }
    pose proof (one_call sind cosd cosq norm void_d view paint trans_of h a _ c AL F) as O. rewrite E in O. unfold outcome, kept in O. rewrite I in O. destruct (call_it a (history a (mkE h None) cs) c) as [s1 r1]. cbn [fst snd bind] in *. tauto. Qed.
  (** Once a table is kept, the file and the check of a later call are ignored: even a file that cannot be read or would
      be refused is accepted in silence. *)
  Theorem C111_later_file_ignored_refuted h a cs t s tol n x1 x2 b1 b2 : e_table (history a (mkE h None) cs) = Some t ->
    call_it a (history a (mkE h None) cs) (mkCall s x1 tol b1 n) = call_it a (history a (mkE h None) cs) (mkCall s x2 tol b2 n).
  Proof. intros E. unfold extract_sector. rewrite E. reflexivity. Qed.

  (** ** what is written: after any history, with the table [t] *)
  Definition writes (h : heap) (a : input) (cs : list call) (c : call) (t : rows) (w : written) : Prop :=
    exists st, call_it a (history a (mkE h None) cs) c = (st, Ok (Some w)) /\ e_table st = Some t.
  (** The cells: those of the sectors, the outer cell, the graveyard and those that come with them, in increasing order;
      each as in the input, the wanted ones without universe. *)
  Theorem C111_cells_written h a cs c t w : input_allocated h a -> writes h a cs c t w ->
    exists ns, StronglySorted Z.lt ns /\ (forall n, In n ns <-> comes h a t (c_sectors c) n) /\
      Forall2 (fun n kc => fst kc = str_of_Z n /\
        (n <> 800 -> n <> 801 -> exists c0, cell_of h (i_cells a) n c0 /\ cell_written t (c_sectors c) c0 (snd kc))%Z) ns (w_cells w).
  Proof. intros AL H. apply (writes_values _ _ _ _ _ _ _ _ _ _ _ _ _ _ AL) in H. exact (proj1 (proj2 (content _ _ _ _ _ _ _ _ _ _ _ _ _ _ AL H))). Qed.
  (** The outer cell written is the part of the old one between the cutting planes; what is on the other side of one of
      them joins the graveyard. *)
  Theorem C111_outer_and_graveyard_written h a cs c t w s l b0 b1 gy out ng mg geog keyg lg gg no mo geoo keyo lo go :
    input_allocated h a -> writes h a cs c t w -> c_sectors c = s :: l ->
    (exists x, In (s, (b0, x)) sector_boundaries) -> (exists x, In (last (s :: l) s, (x, b1)) sector_boundaries) ->
    cell_of h (i_cells a) 801 gy -> ordinary gy ng mg geog keyg -> card_text gy = Ok lg -> region_of lg gg ->
    cell_of h (i_cells a) 800 out -> ordinary out no mo geoo keyo -> card_text out = Ok lo -> region_of lo go ->
    exists out' gy' lo' lg' go' gg', dget str_eqb (s2l "800") (w_cells w) = Some out' /\ dget str_eqb (s2l "801") (w_cells w) = Some gy' /\
      card_text out' = Ok lo' /\ region_of lo' go' /\ card_text gy' = Ok lg' /\ region_of lg' gg' /\
      forall side cell, (inside side cell go' = true <-> inside side cell go = true /\ sense side b0 = true /\ sense side b1 = true)
        /\ (inside side cell gg' = true <-> inside side cell gg = true \/ sense side b0 = false \/ sense side b1 = false).
  Proof. intros AL H S B0 B1 CG OG TG RG CO OO TO RO. apply (writes_values _ _ _ _ _ _ _ _ _ _ _ _ _ _ AL) in H. destruct (content _ _ _ _ _ _ _ _ _ _ _ _ _ _ AL H) as (_ & _ & (o1 & g1 & o2 & g2 & C1 & C2 & M & D1 & D2) & _).
    destruct C1 as (l1 & X1 & X2), C2 as (l2 & Y1 & Y2), CG as (l3 & Z1 & Z2), CO as (l4 & U1 & U2). assert (o1 = out) by congruence. assert (g1 = gy) by congruence. subst o1 g1.
    destruct (C44_outer_and_graveyard s l b0 b1 gy out ng mg geog keyg lg gg no mo geoo keyo lo go B0 B1 OG TG RG OO TO RO) as (out' & gy' & lo' & lg' & go' & gg' & M' & T1 & R1 & T2 & R2 & _ & _ & V).
    rewrite S, M' in M. injection M as -> ->. exists o2, g2, lo', lg', go', gg'. split; [exact D1|]. split; [exact D2|]. split; [exact T1|]. split; [exact R1|]. split; [exact T2|]. split; [exact R2|]. intros side cell. destruct (V side cell) as (V1 & V2 & _). auto. Qed.
  (** The surfaces: those of the cells that are written (as the input has them), in increasing order; boundary planes of
      the cells of the sectors are starred, other boundary planes moved, the others as in the input. *)
  Theorem C111_surfaces_written h a cs c t w : input_allocated h a -> writes h a cs c t w ->
    exists ss a0 a1, StronglySorted Z.lt ss /\ (forall s, In s ss <-> exists n c0, comes h a t (c_sectors c) n /\ cell_of h (i_cells a) n c0 /\ In (s, Ksur) (c_values c0)) /\
      boundaries_angles (c_sectors c) = Ok [a0; a1] /\
      Forall2 (fun s kc => exists e c0 v, found (i_surfs a) (str_of_Z s) e /\ nth_error h (snd e) = Some c0 /\ kc = (fst e, paint v c0) /\
        treated sind cosd cosq norm a0 a1 (c_tol c) (map (fun kc => (fst kc, trans_of (snd kc))) (w_trans w)) (sector_surface h a t (c_sectors c) (s_num (view c0))) (view c0) v) ss (w_surfs w).
  Proof. intros AL H. apply (writes_values _ _ _ _ _ _ _ _ _ _ _ _ _ _ AL) in H. exact (proj1 (proj2 (proj2 (proj2 (content _ _ _ _ _ _ _ _ _ _ _ _ _ _ AL H))))). Qed.
  (** Materials, header and transformations. *)
  Theorem C111_materials_header_transformations_written h a cs c t w : input_allocated h a -> writes h a cs c t w ->
    (exists zs, StronglySorted Z.lt zs /\ (forall z, In z zs <-> z <> 0%Z /\ exists n c0, comes h a t (c_sectors c) n /\ cell_of h (i_cells a) n c0 /\ In (z, Kmat) (c_values c0)) /\
       Forall2 (fun z m => ml_get (i_mats a) (mat_key z) = Ok m) zs (ml_list (w_mats w))) /\
    w_header w = i_header a /\
    Forall2 (fun (kl : str * loc) (kc : str * card) => fst kl = fst kc /\ nth_error h (snd kl) = Some (snd kc)) (i_trans a) (w_trans w).
  Proof. intros AL H. apply (writes_values _ _ _ _ _ _ _ _ _ _ _ _ _ _ AL) in H. destruct (content _ _ _ _ _ _ _ _ _ _ _ _ _ _ AL H) as (_ & _ & _ & _ & M & HD & WT & _). split; [exact M|]. split; [exact HD|]. now apply val_in. Qed.
  (** The data cards: all of them, under the same keys; the two cards of the source list the plasma cells of the sectors,
      the others are those of the input. *)
  Theorem C111_data_written h a cs c t w : input_allocated h a -> writes h a cs c t w ->
    dkeys (w_data w) = dkeys (i_other a) /\
    (forall k, k <> s2l "SI70" -> k <> s2l "SP70" -> dget str_eqb k (w_data w) = match dget str_eqb k (i_other a) with Some l => nth_error h l | None => None end) /\
    exists ci cp ti tp li lp cells, card_at h (i_other a) (s2l "SI70") ci /\ card_at h (i_other a) (s2l "SP70") cp /\
      dget str_eqb (s2l "SI70") (w_data w) = Some ti /\ dget str_eqb (s2l "SP70") (w_data w) = Some tp /\ card_text ti = Ok [li] /\ card_text tp = Ok [lp] /\
      Forall2 plasma_of (c_sectors c) cells /\
      split li = s2l "SI70" :: s2l "L" :: map str_of_Z cells /\ split lp = s2l "SP70" :: map (fun s => if sector_eqb s s23 then s2l "2" else s2l "1") (c_sectors c).
  Proof. intros AL H. apply (writes_values _ _ _ _ _ _ _ _ _ _ _ _ _ _ AL) in H. destruct (content _ _ _ _ _ _ _ _ _ _ _ _ _ _ AL H) as (_ & _ & _ & _ & _ & _ & _ & dc & DC & SD).
    destruct (sdef_spec _ _ _ SD) as (_ & K & O & ci & cp & si & spp & cells & G1 & G2 & W1 & W2 & F & S1 & S2 & SL). rewrite K. pose proof (val_in _ _ _ DC) as VI. pose proof (val_get _ _ _ DC) as VG.
    split; [unfold dkeys; clear - VI; induction VI as [|x y d w [A _] _ IH]; cbn [map]; congruence|]. split; [intros k N1 N2; rewrite O by assumption; apply VG|].
    exists ci, cp, (set_input si ci), (set_input spp cp), si, spp, cells. rewrite VG in G1, G2. unfold card_at.
    split; [destruct (dget str_eqb (s2l "SI70") (i_other a)) as [l1|]; [exists l1; auto|discriminate G1]|]. split; [destruct (dget str_eqb (s2l "SP70") (i_other a)) as [l1|]; [exists l1; auto|discriminate G2]|].
    split; [exact W1|]. split; [exact W2|]. destruct (source_no_tilde _ _ _ SL) as [T1 T2]. split; [exact (set_input_text si ci T1)|]. split; [exact (set_input_text spp cp T2)|]. auto. Qed.

  (** ** what is refused *)
  (** A sector that does not exist is refused by name, whatever was extracted before; the table that was read is kept. *)
  Theorem C111_unknown_sector h a cs c t s : e_table (history a (mkE h None) cs) = Some t -> In s (c_sectors c) -> ~ known s ->
    snd (call_it a (history a (mkE h None) cs) c) = Err KeyError /\ e_table (fst (call_it a (history a (mkE h None) cs) c)) = Some t.
  Proof. intros E I N. unfold extract_sector. rewrite E. unfold extract, own_cells. rewrite (mapM_unknown (sectors_cells t) (c_sectors c) s (sectors_cells_names t) I N). cbn [bind fst snd e_table]. auto. Qed.
  (** Without a sector nothing is written. *)
  Theorem C111_no_sector h a cs c w : c_sectors c = [] -> snd (call_it a (history a (mkE h None) cs) c) <> Ok (Some w).
  Proof. intros E. exact (no_sector _ _ _ _ _ _ _ _ a (history a (mkE h None) cs) c w E). Qed.
End Calls.
Print Assumptions C111_input_untouched.
Print Assumptions C111_independent_of_the_history.
Print Assumptions C111_first_accepted_file.
Print Assumptions C111_wrong_file_refused.
Print Assumptions C111_later_file_ignored_refuted.
Print Assumptions C111_cells_written.
Print Assumptions C111_outer_and_graveyard_written.
Print Assumptions C111_surfaces_written.
Print Assumptions C111_materials_header_transformations_written.
Print Assumptions C111_data_written.
Print Assumptions C111_unknown_sector.
Print Assumptions C111_no_sector.

(** ** witnesses *)
(* a cell of sector 1 filled by a universe, that universe, a cell of sector 4, the outer cell, the graveyard *)
Definition el_heap : heap :=
  [cellcard 1 [(0, Kmat); (427024, Ksur); (427016, Ksur); (5, Kfill)]%Z "@ @ @ @ fill=@"; cellcard 2 [(0, Kmat); (10, Ksur); (5, Ku)]%Z "@ @ -@ u=@";
   cellcard 3 [(0, Kmat); (11, Ksur)]%Z "@ @ -@"; cellcard 800 [(0, Kmat); (12, Ksur)]%Z "@ @ -@"; cellcard 801 [(0, Kmat); (12, Ksur)]%Z "@ @ @";
   surfcard 427024 "@ p 1 2 3 0"; surfcard 427016 "@ p 1 2 3 1"; surfcard 10 "@ so 1"; surfcard 11 "@ so 2"; surfcard 12 "@ so 3";
   mkCard None [] [tmpl "SI70 L 1 2 3"] []; mkCard None [] [tmpl "SP70 1 1 1"] []].
Definition el_inp : input := mkInp [(s2l "1", 0); (s2l "2", 1); (s2l "3", 2); (s2l "800", 3); (s2l "801", 4)]
  [(s2l "427024", 5); (s2l "427016", 6); (s2l "10", 7); (s2l "11", 8); (s2l "12", 9)] (ml_new mt_name []) [] [(s2l "SI70", 10); (s2l "SP70", 11)] [] [] [s2l "E-Lite"].
Definition el_rows : rows := [(SNum 1, 1); (SNum 4, 3); (STxt (s2l "-"), 800); (STxt (s2l "-"), 801)]%Z.
(* a reading of the surface cards of the example: a sphere *)
Definition el_view (c : card) : surf := mkSurf (match c_values c with (v, _) :: _ => v | [] => 0%Z end) (s2l "so") [] None [] [].
Definition el_call (s : list sector) (x : res rows) (b : bool) : call := mkCall s x (1 # 100000) b 10.
Notation el_run := (extract_sector (fun _ => 0%Q) (fun _ => 0%Q) (fun q => q) (fun _ => 1%Q) 0%Q el_view (fun _ c => c) (fun _ => mkTrans false [])).
Notation el_history := (run (fun _ => 0%Q) (fun _ => 0%Q) (fun q => q) (fun _ => 1%Q) 0%Q el_view (fun _ c => c) (fun _ => mkTrans false [])).
(** Sector 4, then sector 1 without a valid file: the cells of sector 1, its filler, the outer cell and the graveyard. *)
Example C111_witness : input_allocated el_heap el_inp /\ (exists rs, get_cells_summary 0%Q el_heap (i_cells el_inp) = Ok rs) /\
  accepted el_heap el_inp (el_call [SNum 4] (Ok el_rows) true) el_rows /\
  exists w, writes (fun _ => 0%Q) (fun _ => 0%Q) (fun q => q) (fun _ => 1%Q) 0%Q el_view (fun _ c => c) (fun _ => mkTrans false []) el_heap el_inp
    [el_call [SNum 1] (Err FileNotFoundError) true; el_call [SNum 4] (Ok el_rows) true] (el_call [SNum 1] (Err FileNotFoundError) true) el_rows w /\
    map fst (w_cells w) = [s2l "1"; s2l "2"; s2l "800"; s2l "801"] /\ map fst (w_surfs w) = [s2l "10"; s2l "12"; s2l "427016"; s2l "427024"] /\
    mapM (fun kc => card_text (snd kc)) (w_cells w) = Ok [[s2l "1 0 427024 427016 fill=5"]; [s2l "2 0 -10 u=5"]; [s2l "800 0 ( ( -12 ) 427024 ) 427016 "]; [s2l "801 0 ( ( 12 ) :-427024 ) :-427016 "]] /\
    mapM (fun kc => card_text (snd kc)) (w_data w) = Ok [[s2l "SI70 L 427001 "]; [s2l "SP70 1 "]].
Proof.
  split; [intros l H; cbn in H; cbn; intuition lia|]. split; [eexists; vm_compute; reflexivity|]. split.
  - split; [reflexivity|]. intros _. intros z. split.
    + intros (k & l & c & I & N & P & U). cbn in I. repeat (destruct I as [I|I]; [injection I as <- <-; cbn in N; injection N as <-; vm_compute in P; injection P as <-; first [discriminate U|cbn; tauto]|]). destruct I.
    + intros H. cbn in H. destruct H as [<-|[<-|[<-|[<-|[]]]]]; [exists (s2l "1"), 0|exists (s2l "3"), 2|exists (s2l "800"), 3|exists (s2l "801"), 4]; eexists; (split; [cbn; tauto|]); (split; [reflexivity|]); split; reflexivity.
  - eexists. split; [eexists; split; [vm_compute; reflexivity|reflexivity]|]. repeat split; vm_compute; reflexivity.
Qed.
(** The planes that cut the outer cell are not added to the surfaces: extracting sector 4 of this model, whose cells do
    not use them, writes an outer cell with surfaces that the file does not define. *)
Theorem C111_cutting_planes_missing_refuted : exists c t w c800, writes (fun _ => 0%Q) (fun _ => 0%Q) (fun q => q) (fun _ => 1%Q) 0%Q el_view (fun _ c => c) (fun _ => mkTrans false []) el_heap el_inp [] c t w /\
  dget str_eqb (s2l "800") (w_cells w) = Some c800 /\ In (451024%Z, Ksur) (c_values c800) /\ ~ In (s2l "451024") (map fst (w_surfs w)) /\ ~ In (star (s2l "451024")) (map fst (w_surfs w)).
Proof.
  exists (el_call [SNum 4] (Ok el_rows) true), el_rows. do 2 eexists. split; [eexists; split; [vm_compute; reflexivity|reflexivity]|]. split; [vm_compute; reflexivity|]. split; [vm_compute; tauto|].
  split; intros H; vm_compute in H; intuition discriminate.
Qed.
Print Assumptions C111_cutting_planes_missing_refuted.
