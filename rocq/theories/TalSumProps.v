(** Theorems about the summary of the tallies (C98). *)
From Coq Require Import ZArith Permutation Sorted.
From Verif Require Import PyBase PyLemmas PyStr PyText D1SProofs2 MatProofs MatProofs2 InpGeomSpec MatModel DataModel TalSumModel TalSumSpec TalSumProofs.
Open Scope nat_scope.

(** one row per tally of the list, sorted by number, each made of the tally's own cards *)
Theorem C98_tally_summary : forall repr (fmesh : bool) d tally_keys fmesh_keys es,
  let keys := if fmesh then fmesh_keys else tally_keys in
  keys <> [] -> Forall2 (Cards (if fmesh then "FMESH" else "F")%string d) keys es ->
  exists rows, get_tally_summary repr fmesh d tally_keys fmesh_keys = Ok rows /\
    Permutation rows (map (fun ne => row_of repr (fst ne) (snd ne)) (combine keys es)) /\
    StronglySorted (fun a b => (r_tally a <= r_tally b)%Z) rows.
Proof.
  intros repr fmesh d tk fk es keys NE F.
  assert (E : mapM (tally_row repr (if fmesh then "FMESH" else "F")%string d) keys = Ok (map (fun ne => row_of repr (fst ne) (snd ne)) (combine keys es))).
  { assert (HT : In (if fmesh then "FMESH" else "F")%string ["F"; "FMESH"]%string) by (destruct fmesh; cbn; tauto). clear NE. induction F as [|n e ns es' C F IH]; [reflexivity|]. cbn [mapM combine map fst snd]. rewrite (row_ok repr _ d n e HT C). cbn [bind]. rewrite IH. reflexivity. }
  unfold get_tally_summary. assert (X : forall (T : Type) (a b : T), (if fmesh then a else b) = if fmesh then a else b) by reflexivity.
  fold keys. rewrite E. destruct F as [|n e ns es' C F]; [easy|]. cbn [combine map]. eexists. split; [reflexivity|]. split; [apply sort_perm|apply sort_sorted].
Qed.
Print Assumptions C98_tally_summary.
(** without tallies the summary is refused *)
Theorem C98_no_tally : forall repr d fk tk, get_tally_summary repr false d [] fk = Err KeyError /\ get_tally_summary repr true d tk [] = Err KeyError.
Proof. intros. split; reflexivity. Qed.
Print Assumptions C98_no_tally.
(** one tally of another particle makes the whole summary fail *)
Theorem C98_other_particle_refuted : forall repr d fk n l more a r tk,
  dget str_eqb (kcat "F" n) d = Some (l :: more) -> get_tally_cards n (mkD d []) = [kcat "F" n] -> starts2 "FC" (kcat "F" n) = false ->
  l = a ++ ":"%char :: r -> ~ In ":"%char a -> ~ In ":"%char r -> (match r with c :: _ => is_np c = false | [] => True end) ->
  (forall m, In m tk -> exists row, tally_row repr "F" d m = Ok row) ->
  get_tally_summary repr false d (tk ++ [n]) fk = Err AttributeError.
Proof.
  intros repr d fk n l more a r tk G C S2 E N1 N2 HR HO.
  assert (NP : search_np l = None).
  { assert (Z : search_np r = None) by (clear HR E; induction r as [|c r IH]; [reflexivity|]; cbn [search_np]; destruct (Ascii.eqb c ":") eqn:Q; [apply Ascii.eqb_eq in Q; subst c; elim N2; now left|apply IH; intros X; apply N2; now right]).
    rewrite E. clear E. induction a as [|c a IH]; cbn [app search_np].
    - rewrite (proj2 (Ascii.eqb_eq _ _) eq_refl). replace (span_np r) with (@nil ascii); [exact Z|]. destruct r as [|x r]; [reflexivity|]. cbn [span_np]. now rewrite HR.
    - destruct (Ascii.eqb c ":") eqn:Q; [apply Ascii.eqb_eq in Q; subst c; elim N1; now left|apply IH; intros X; apply N1; now right]. }
  assert (R : tally_row repr "F" d n = Err AttributeError).
  { unfold tally_row. rewrite C. cbn [foldM]. unfold add_card. rewrite S2, str_eqb_refl, G, NP. reflexivity. }
  unfold get_tally_summary. replace (mapM (tally_row repr "F" d) (tk ++ [n])) with (Err AttributeError : res (list trow)); [reflexivity|]. symmetry.
  clear - R HO. induction tk as [|m tk IH]; cbn [app mapM]; [rewrite R; reflexivity|]. destruct (HO m (or_introl eq_refl)) as [row ->]. cbn [bind]. rewrite IH; [reflexivity|]. intros k K. apply HO. now right.
Qed.
Print Assumptions C98_other_particle_refuted.
(** and a second particle that is not n or p is dropped, leaving its comma *)
Theorem C98_second_particle_refuted : forall repr, exists d, d = [(s2l "F4", [s2l "F4:p,e 1 2"])] /\
  get_tally_summary repr false d [4%Z] [] = Ok [mkTR 4 (Some (s2l "P,")) None None None].
Proof. intros. eexists. split; reflexivity. Qed.
Print Assumptions C98_second_particle_refuted.
(** the name of the comment card is not removed when it is written in mixed case, and the same text inside the comment is *)
Theorem C98_comment_text_refuted : forall repr, exists d d', d = [(s2l "F4", [s2l "F4:n 1"]); (s2l "FC4", [s2l "Fc4 heating"])] /\
  get_tally_summary repr false d [4%Z] [] = Ok [mkTR 4 (Some (s2l "N")) (Some (s2l "Fc4 heating")) None None] /\
  d' = [(s2l "F4", [s2l "F4:n 1"]); (s2l "FC4", [s2l "FC4 as FC4 and FC42"])] /\
  get_tally_summary repr false d' [4%Z] [] = Ok [mkTR 4 (Some (s2l "N")) (Some (s2l "as  and 2")) None None].
Proof. intros. do 2 eexists. repeat split. Qed.
Print Assumptions C98_comment_text_refuted.
(** a multiplier card with nothing on its only line is refused *)
Theorem C98_empty_multiplier : forall repr, exists d, d = [(s2l "F4", [s2l "F4:n 1"]); (s2l "FM4", [s2l "FM4"])] /\ get_tally_summary repr false d [4%Z] [] = Err IndexError.
Proof. intros. eexists. split; reflexivity. Qed.
Print Assumptions C98_empty_multiplier.

Definition ex_data : odict := map (fun p => (s2l (fst p), map s2l (snd p)))
  [("F14", ["*F14:n,p 3 T"]); ("FC14", ["fc14 heating in cells"; "second line"]); ("FM14", ["FM14"; "     (1.5 1 -4)"; "c no"; "     (2 3 4)"]);
   ("F4", ["F4:N 1 2"]); ("FM4", ["FM4 -1.0 1 -4"]); ("FMESH24", ["FMESH24:P GEOM=XYZ"]); ("FC24", ["FC24 mesh"]); ("SD4", ["SD4 1"])]%string.
Example C98_case : (forall repr, get_tally_summary repr false ex_data [14; 4]%Z [24%Z] = Ok
    [mkTR 4 (Some (s2l "N")) None (Some (s2l "-1.0")) (Some [s2l "1"; s2l "-4"]);
     mkTR 14 (Some (s2l "N,P")) (Some (s2l "heating in cells")) (Some (s2l "N.A.")) (Some [s2l "(1.5 1 -4)"; s2l "(2 3 4)"])]) /\
  Cards "F" ex_data 14 (mkEntry (s2l "n,p") (Some (s2l " heating in cells")) (Some ([], map s2l ["     (1.5 1 -4)"; "c no"; "     (2 3 4)"]%string))) /\
  Cards "FMESH" ex_data 24 (mkEntry (s2l "P") (Some (s2l " mesh")) None).
Proof.
  assert (NO : forall p s, existsb (fun k => match strip_prefix p (skipn k s) with Some _ => true | None => false end) (seq 0 (S (length s))) = false -> ~ occurs p s).
  { intros p s E (a & b & X). apply Bool.not_true_iff_false in E. apply E. apply existsb_exists. exists (length a). split; [apply in_seq; rewrite X, !app_length; split; [apply Nat.le_0_l|apply le_n_S, Nat.le_add_r]|].
    rewrite X, skipn_app, skipn_all, Nat.sub_diag. cbn [app skipn]. now rewrite (proj2 (DataProofs2.strip_prefix_spec p (p ++ b) b) eq_refl). }
  assert (U : forall (T : Z) (tag : string), In (T, tag) [(14%Z, "F"%string); (24%Z, "FMESH"%string)] -> forall w, only_letters w -> In (s2l "F" ++ w ++ str_of_Z T) (dkeys ex_data) ->
     (forall r, w = "C"%char :: r -> r = []) /\ (forall r, w = "M"%char :: r -> r = [] \/ tag = "FMESH"%string /\ r = s2l "ESH")).
  { intros T tag HT w L I. assert (D : forall v q, v ++ str_of_Z T = q -> v = firstn (length q - 2) q).
    { intros v q <-. rewrite app_length. destruct HT as [X|[X|[]]]; injection X as <- <-; cbn [str_of_Z]; change (length (str_of_Z _)) with 2; rewrite Nat.add_sub, firstn_app, firstn_all, Nat.sub_diag; cbn [firstn]; now rewrite app_nil_r. }
    cbn [s2l list_ascii_of_string app] in I. unfold dkeys, ex_data in I. rewrite map_map in I. apply in_map_iff in I as ([k ls] & Hk & I). cbn [fst] in Hk.
    assert (K : w = firstn (length (s2l k) - 3) (tl (s2l k))).
    { rewrite Hk. cbn [tl length]. symmetry in Hk. rewrite (D w _ eq_refl) at 1. reflexivity. }
    destruct HT as [X|[X|[]]]; injection X as <- <-; cbn [In] in I; repeat (destruct I as [I|I]; [injection I as <- <-; vm_compute in K; vm_compute in Hk; subst w; try discriminate; split; intros r R; try discriminate; injection R as <-; auto|]); destruct I. }
  split; [intros; reflexivity|]. split; (split; [vm_compute; discriminate|]).
  - split; [|split; [|split; [|apply (U 14%Z "F"%string); cbn; tauto]]].
    + do 2 eexists. split; [reflexivity|]. exists (s2l "*F14"), (s2l " 3 T"). split; [reflexivity|]. split; [cbn; intuition discriminate|]. split; [discriminate|]. split; [repeat constructor|reflexivity].
    + do 2 eexists. split; [reflexivity|]. split; [now right|]. split; apply NO; reflexivity.
    + eexists. split; [reflexivity|]. split; [|discriminate]. split; [now left|]. split; apply NO; reflexivity.
  - split; [|split; [|split; [|apply (U 24%Z "FMESH"%string); cbn; tauto]]].
    + do 2 eexists. split; [reflexivity|]. exists (s2l "FMESH24"), (s2l " GEOM=XYZ"). split; [reflexivity|]. split; [cbn; intuition discriminate|]. split; [discriminate|]. split; [repeat constructor|reflexivity].
    + do 2 eexists. split; [reflexivity|]. split; [now left|]. split; apply NO; reflexivity.
    + reflexivity.
Qed.
