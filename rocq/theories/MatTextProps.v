(** Theorems about the text of material cards (C94, C95). *)
From Coq Require Import Lia QArith.
From Verif Require Import PyBase PyStr PyText PySci PySciLemmas LibModel MatModel MatSpec MatTextModel MatTextSpec MatTextProofs MatTextProofs2 MatTextProofs3.
Open Scope nat_scope.

(** C94 *)
Theorem C94_material_card : forall hdr n ls ps,
  Comments hdr -> NameLine n -> Lines ls -> Forall Part ps ->
  let first := n_zaids n ++ concat (map (fun x => snd (fst x)) ls) in
  exists subs, mat_from_text (hdr ++ n_text n :: map (fun x => fst (fst x)) ls ++ concat (map p_text ps)) = Ok (mkRM (n_name n) (concat hdr) subs) /\
    (first = [] -> Forall2 (fun p s => seen s (p_zaids p) (p_keys p) (removelast (concat (p_comments p)))) ps subs) /\
    (first <> [] -> exists s subs', subs = s :: subs' /\ seen s first (n_keys n ++ concat (map snd ls)) [] /\
       Forall2 (fun p s => seen s (p_zaids p) (p_keys p) (removelast (concat (p_comments p)))) ps subs').
Proof.
  intros hdr n ls ps HH HN HL HP first. rewrite (card_read hdr n ls ps HH HN HL HP). fold first. eexists. split; [reflexivity|].
  assert (G : Forall2 (fun p s => seen s (p_zaids p) (p_keys p) (removelast (concat (p_comments p)))) ps (psubs ps)) by (clear; induction ps; cbn [psubs]; constructor; [repeat split|assumption]).
  split; intros E; [rewrite E; exact G|]. destruct first; [contradiction|]. eexists. eexists. split; [reflexivity|]. split; [repeat split|exact G].
Qed.
Print Assumptions C94_material_card.
(** a nuclide whose fraction is on the next line: it is lost, or the card is refused *)
Definition ln (s : string) : str := s2l s ++ [nl].
Definition summary (r : res rmat) : option (list (list (str * Q) * list str)) :=
  match r with Ok m => Some (map (fun s => (map (fun z => (z_name z, z_frac z)) (r_zaids s), r_keys s)) (rm_subs m)) | Err _ => None end.
Theorem C94_fraction_on_next_line_refuted :
  mat_from_text [ln "m1 1001.31c 0.5 8016.31c"; ln "     0.5 6000.31c 0.25"] = Err ValueError /\
  summary (mat_from_text [ln "m1 1001.31c 0.5 8016.31c"; ln "     1.5 "]) = Some [([(s2l "1001.31c", 5 # 10)], [])].
Proof. repeat split; vm_compute; reflexivity. Qed.
Print Assumptions C94_fraction_on_next_line_refuted.
(** nuclides after a keyword on its line become keywords *)
Theorem C94_nuclide_after_keyword_refuted :
  summary (mat_from_text [ln "m1 1001.31c 0.5 nlib=31c 8016.31c 0.5"]) = Some [([(s2l "1001.31c", 5 # 10)], [s2l "nlib=31c"; s2l "8016.31c"; s2l "0.5"])].
Proof. vm_compute. reflexivity. Qed.
Print Assumptions C94_nuclide_after_keyword_refuted.
(** the keywords of a first part without nuclides are lost *)
Theorem C94_keywords_of_first_part_refuted :
  summary (mat_from_text [ln "m1 nlib=31c"; ln "c water"; ln "     1001.31c 2.0"]) = Some [([(s2l "1001.31c", 20 # 10)], [])].
Proof. vm_compute. reflexivity. Qed.
Print Assumptions C94_keywords_of_first_part_refuted.
(** a card that ends with a comment is refused, and so is a dollar sign without blank before it *)
Theorem C94_comment_at_the_end_refuted :
  mat_from_text [ln "m1 1001.31c 0.5"; ln "c the end"] = Err UnboundLocalError /\
  mat_from_text [ln "m1 1001.31c 0.5$ hydrogen"] = Err ValueError.
Proof. split; vm_compute; reflexivity. Qed.
Print Assumptions C94_comment_at_the_end_refuted.
(** a comment that does not start in the first column becomes keywords *)
Theorem C94_indented_comment_refuted :
  summary (mat_from_text [ln "m1 1001.31c 0.5"; ln " c some words"; ln "     8016.31c 0.5"]) =
    Some [([(s2l "1001.31c", 5 # 10); (s2l "8016.31c", 5 # 10)], [s2l "c"; s2l "some"; s2l "words"])].
Proof. vm_compute. reflexivity. Qed.
Print Assumptions C94_indented_comment_refuted.
(** witness *)
Definition zex (e i : string) (f : Q) : zaid := mkzaid f (s2l e) (s2l i) (Some (s2l "31c")).
Example C94_case : exists subs,
  mat_from_text [ln "C header"; ln " M12 $ water"; ln "c first part"; ln "     1001.31c 2.0 8016.31c -1 $ comment"; ln "     nlib=31c pnlib=84p"; ln "c second"; ln "     26056.31c 1e-3"] =
    Ok (mkRM (s2l "M12") (ln "C header") subs) /\ map (fun s => (map z_name (r_zaids s), r_keys s, r_header s)) subs =
    [([s2l "1001.31c"; s2l "8016.31c"], [s2l "nlib=31c"; s2l "pnlib=84p"], s2l "c first part"); ([s2l "26056.31c"], [], s2l "c second")].
Proof. eexists. split; [vm_compute; reflexivity|]. vm_compute. reflexivity. Qed.
Ltac dwords := repeat (first [ constructor; [ solve [ split; [eexists; eexists; split; reflexivity|]; split; [reflexivity|]; split; [cbn; intuition discriminate|]; split; [reflexivity|cbn; intuition discriminate] ] | reflexivity | ]
                             | constructor; solve [intros ? ? [= <- _]; reflexivity] | constructor ]).
Example C94_hypotheses :
  let n := mkname [sp] (s2l "M12") (s2l " $ water" ++ [nl]) [] [] in
  let z1 := zex "1" "001" 2 in let z2 := zex "8" "016" (- (1)) in
  let p := mkpart [ln "c first part"] [(ln "     1001.31c 2.0 8016.31c -1 $ comment", [zex "1" "001" (20 # 10); zex "8" "016" (- (1))], []); (ln "     nlib=31c pnlib=84p", [], [s2l "nlib=31c"; s2l "pnlib=84p"])] in
  Comments [ln "C header"] /\ NameLine n /\ Lines [] /\ Part p.
Proof.
  cbv zeta. assert (C : forall s : string, match s2l s with c :: w :: _ => (Ascii.eqb (lower c) "c") && is_ws w && negb (existsb (Ascii.eqb cr) (s2l s)) | _ => false end = true -> CommentLine (ln s) /\ ~ In cr (ln s)).
  { intros s H. unfold ln. destruct (s2l s) as [|c [|w r]]; [discriminate H|discriminate H|]. apply andb_prop in H. destruct H as [H X]. apply andb_prop in H. destruct H as [H W]. split.
    - exists c, w, (r ++ [nl]). split; [reflexivity|]. split; [|exact W]. apply Ascii.eqb_eq in H. clear - H. destruct c as [[] [] [] [] [] [] [] []]; try discriminate H; [left|right]; reflexivity.
    - intros I. change ((c :: w :: r) ++ [nl]) with (c :: w :: r ++ [nl]) in I. assert (J : In cr (c :: w :: r) \/ In cr [nl]) by (apply in_app_iff; exact I). destruct J as [J|[J|[]]]; [|discriminate J].
      apply Bool.negb_true_iff in X. rewrite <- Bool.not_true_iff_false in X. apply X. apply existsb_exists. exists cr. split; [exact J|reflexivity]. }
  split; [constructor; [apply C; reflexivity|constructor]|]. split.
  - split; [constructor; [reflexivity|constructor]|]. split; [exists "M"%char, (s2l "12"); split; [reflexivity|]; split; [now right|]; split; [discriminate|repeat constructor]|].
    split; [eexists; eexists; split; reflexivity|]. split; [exists []; split; [apply upto_words; [reflexivity|constructor]|constructor]|]. cbn. intuition discriminate.
  - split; [constructor|]. split; [constructor; [apply C; reflexivity|constructor]|]. split; [discriminate|]. split; [|discriminate]. constructor; [|constructor; [|constructor]]; cbn [fst snd].
    + split; [split; [reflexivity|split; [discriminate|]]|split; [cbn; intuition discriminate|]].
      * intros w r E. assert (E' : Some w = hd_error (split (ln "     1001.31c 2.0 8016.31c -1 $ comment"))) by (rewrite E; reflexivity). vm_compute in E'. injection E' as ->. intros (c & d & t & X & Y & _). injection X as <- _. destruct Y as [Y|Y]; discriminate Y.
      * exists [s2l "1001.31c"; s2l "2.0"; s2l "8016.31c"; s2l "-1"]. split; [apply upto_words; [vm_compute; reflexivity|repeat constructor; discriminate]|].
        unfold zex. dwords.
    + split; [split; [reflexivity|split; [discriminate|]]|split; [cbn; intuition discriminate|]].
      * intros w r E. assert (E' : Some w = hd_error (split (ln "     nlib=31c pnlib=84p"))) by (rewrite E; reflexivity). vm_compute in E'. injection E' as ->. intros (c & d & t & X & Y & _). injection X as <- _. destruct Y as [Y|Y]; discriminate Y.
      * exists [s2l "nlib=31c"; s2l "pnlib=84p"]. split; [apply upto_words; [vm_compute; reflexivity|repeat constructor; discriminate]|]. constructor. intros c r E. injection E as <- _. reflexivity.
Qed.

(** C95 *)
(** the line of a nuclide is a continuation line (five blanks) whose only words before the comment are the name and the
    fraction, to seven digits *)
Theorem C95_nuclide_line : forall zi, WZaid zi -> exists r t q,
  zaid_to_text (fst zi) (snd zi) = repeat sp 5 ++ r /\ ~ In nl (repeat sp 5 ++ r) /\ UpToDollar (split (repeat sp 5 ++ r)) [z_name (fst zi); t] /\
  parse_float t = Ok q /\ (Qabs.Qabs (q - z_frac (fst zi)) * inject_Z (2 * 10 ^ 6) <= Qabs.Qabs (z_frac (fst zi)))%Q /\
  ((0 < z_frac (fst zi) -> 0 < q) /\ (z_frac (fst zi) < 0 -> q < 0))%Q.
Proof.
  intros zi H. destruct (zt_blanks zi H) as [r E]. exists r, (fmt_sci Short "E"%char 6 (z_frac (fst zi))), (roundn Short 6 (z_frac (fst zi))).
  split; [exact E|]. unfold zt in E. rewrite <- E. split; [exact (proj1 (zt_plain zi H))|]. split; [pose proof (zt_upto zi [] H) as U; rewrite app_nil_r in U; exact U|].
  split; [apply parse_fmt_sci; now right|]. split; [exact (roundn_acc Short 6 _)|exact (roundn_sign Short 6 _)].
Qed.
Print Assumptions C95_nuclide_line.
Theorem C95_written_card_is_read_back : forall m hs ps, WMat m hs ps ->
  exists subs, mat_from_text (file_lines (mat_to_text m)) = Ok (mkRM (upper (wm_name m)) (closed hs) subs) /\
    Forall2 (fun p s => seen s (wp_zaids p) (wp_keys p) (joined (wp_notes p))) ps subs.
Proof. exact written_read. Qed.
Print Assumptions C95_written_card_is_read_back.
(** the fraction read differs by at most half a unit of its seventh digit *)
Theorem C95_fractions : forall p, Forall2 (fun zi z => nuclide z = nuclide (fst zi) /\ (Qabs.Qabs (z_frac z - z_frac (fst zi)) * inject_Z (2 * 10 ^ 6) <= Qabs.Qabs (z_frac (fst zi)))%Q) (concat (wp_elems p)) (wp_zaids p).
Proof. intros p. unfold wp_zaids. induction (concat (wp_elems p)) as [|zi l IH]; constructor; [|exact IH]. split; [reflexivity|exact (roundn_acc Short 6 _)]. Qed.
Print Assumptions C95_fractions.
(** after the first time nothing changes *)
Theorem C95_again : forall m hs ps r, WMat m hs ps -> Forall (fun p => Grouped (map (map fst) (wp_elems p))) ps -> mat_from_text (file_lines (mat_to_text m)) = Ok r ->
  exists r', mat_from_text (file_lines (mat_to_text (rewritten r))) = Ok r' /\ rm_name r' = rm_name r /\ rm_header r' = rm_header r /\
    Forall2 (fun s s' => seen s' (r_zaids s) (r_keys s) (r_header s)) (rm_subs r) (rm_subs r').
Proof. exact read_again. Qed.
Print Assumptions C95_again.
(** the lines of the mx cards of a material follow it, in order, each one on a line of its own, in capitals *)
Theorem C95_mx_cards : forall m hs ps mx bs, WMat m hs ps -> Forall2 one_line (concat mx) bs ->
  file_lines (mat_to_text (with_mx m mx)) = file_lines (mat_to_text m) ++ map (fun b => upper b ++ [nl]) bs.
Proof. exact mat_lines_mx. Qed.
Print Assumptions C95_mx_cards.
Theorem C95_list : forall ws, Forall (fun x => WMat (fst (fst x)) (snd (fst x)) (snd x)) ws -> ws <> [] ->
  file_lines (list_to_text (map (fun x => fst (fst x)) ws)) = concat (map (fun x => file_lines (mat_to_text (fst (fst x)))) ws).
Proof. exact list_lines. Qed.
Print Assumptions C95_list.
(** a second submaterial without header is merged with the first one *)
Theorem C95_missing_header_refuted : exists m a b, wm_subs m = [a; b] /\ w_header a = Some (s2l "C water") /\ w_header b = None /\
  summary (mat_from_text (file_lines (mat_to_text m))) = Some [([(s2l "1001.31c", 1000000 # 1000000); (s2l "26056.31c", 1000000 # 1000000)], [])].
Proof.
  exists (mkWM (s2l "m1") None [mkW (Some (s2l "C water")) [[(zex "1" "001" 1, no_info)]] []; mkW None [[(zex "26" "056" 1, no_info)]] []] []).
  eexists. eexists. split; [reflexivity|]. split; [reflexivity|]. split; [reflexivity|]. vm_compute. reflexivity.
Qed.
Print Assumptions C95_missing_header_refuted.
(** witness *)
Definition wex : wmat := mkWM (s2l "m12") (Some (s2l "C header"))
  [mkW (Some (s2l "C first")) [[(zex "1" "001" (2 # 3), mkinfo (s2l "H-1") (s2l "11.19") (s2l "99.98"))]; [(zex "8" "016" (1 # 3), no_info)]] [s2l "nlib=31c"];
   mkW (Some (s2l "C second")) [[(zex "26" "056" (- (1 # 7)), no_info)]] []] [].
Example C95_text : file_lines (mat_to_text wex) = [ln "C header"; ln "M12"; ln "C first"; ln "       1001.31c        6.666667E-1     $ H-1    WEIGHT(%) 11.19 AB(%) 99.98"; ln "       8016.31c        3.333333E-1     $        WEIGHT(%)  AB(%)     ";
   "009"%char :: ln " nlib=31c"; ln "C second"; ln "      26056.31c       -1.428571E-1     $        WEIGHT(%)  AB(%)     "].
Proof. vm_compute. reflexivity. Qed.
Example C95_hypotheses : exists ps, WMat wex [s2l "C header"] ps /\ Forall (fun p => Grouped (map (map fst) (wp_elems p))) ps /\ length ps = 2.
Proof.
  exists [mkwp [s2l "C first"] [[(zex "1" "001" (2 # 3), mkinfo (s2l "H-1") (s2l "11.19") (s2l "99.98"))]; [(zex "8" "016" (1 # 3), no_info)]] [s2l "nlib=31c"];
          mkwp [s2l "C second"] [[(zex "26" "056" (- (1 # 7)), no_info)]] []].
  assert (NT : forall l, match l with c :: w :: _ => (Ascii.eqb c "C") && is_ws w && negb (existsb (Ascii.eqb cr) l) && negb (existsb (Ascii.eqb nl) l) | _ => false end = true -> Note l).
  { intros l H. destruct l as [|c [|w r]]; [discriminate H|discriminate H|]. apply andb_prop in H. destruct H as [H N]. apply andb_prop in H. destruct H as [H X]. apply andb_prop in H. destruct H as [H W]. split.
    - exists c, w, (r ++ [nl]). split; [reflexivity|]. split; [right; now apply Ascii.eqb_eq|exact W].
    - assert (G : forall y, negb (existsb (Ascii.eqb y) (c :: w :: r)) = true -> ~ In y (c :: w :: r)).
      { intros y Y J. apply Bool.negb_true_iff in Y. rewrite <- Bool.not_true_iff_false in Y. apply Y. apply existsb_exists. exists y. split; [exact J|apply Ascii.eqb_refl]. }
      split; apply G; assumption. }
  assert (ZT : forall e i f inf, match s2l e with c :: _ => is_digit c | [] => false end && forallb (fun c => negb (is_ws c) && negb (Ascii.eqb c dot)) (s2l e ++ s2l i) && (length (s2l i) =? 3) && (length (s2l e ++ s2l i) <=? 6) &&
     forallb (fun c => negb (Ascii.eqb c nl) && negb (Ascii.eqb c cr)) (i_fullname inf ++ i_weight inf ++ i_abundance inf) = true -> WZaid (zex e i f, inf)).
  { intros e i f inf H. apply andb_prop in H. destruct H as [H P]. apply andb_prop in H. destruct H as [H L]. apply andb_prop in H. destruct H as [H T]. apply andb_prop in H. destruct H as [D F].
    rewrite forallb_forall in F, P. apply Nat.eqb_eq in T. apply Nat.leb_le in L.
    assert (ND : forall c, In c (s2l e ++ s2l i) -> c <> dot /\ is_ws c = false) by (intros c Hc; specialize (F c Hc); apply andb_prop in F; destruct F as [F1 F2]; split; [intros ->; discriminate F2|now apply Bool.negb_true_iff]).
    assert (PL : forall c, In c (i_fullname inf ++ i_weight inf ++ i_abundance inf) -> c <> nl /\ c <> cr) by (intros c Hc; specialize (P c Hc); apply andb_prop in P; destruct P as [P1 P2]; split; intros ->; discriminate).
    unfold WZaid, zex. cbn [fst snd]. split; [split; [exact T|]; split; [intros X; apply (ND dot); [apply in_app_iff; now left|reflexivity]|]; split; [intros X; apply (ND dot); [apply in_app_iff; now right|reflexivity]|cbn; intuition discriminate]|].
    split; [destruct (s2l e) as [|c r] eqn:Ee; [discriminate D|]; exists c, r; split; [reflexivity|exact D]|]. unfold z_name. cbn [z_elem z_iso z_lib]. split; [split; [|split]|].
    - destruct (s2l e); [discriminate D|discriminate].
    - rewrite app_assoc. apply Forall_app. split; [apply Forall_forall; intros c Hc; exact (proj2 (ND c Hc))|repeat constructor].
    - destruct (s2l e) as [|c r]; [discriminate D|]. cbn. intros [= ->]. discriminate D.
    - rewrite app_assoc, app_length. split; [cbn; lia|]. assert (IN : forall a, (In a (i_fullname inf) \/ In a (i_weight inf) \/ In a (i_abundance inf)) -> a <> nl /\ a <> cr) by (intros a Ha; apply PL; rewrite !in_app_iff; exact Ha).
      repeat split; intros X; match goal with |- False => match type of X with In ?y _ => destruct (IN y) as [Y1 Y2]; [tauto|]; first [exact (Y1 eq_refl)|exact (Y2 eq_refl)] end end. }
  split; [|split; [|reflexivity]].
  - split; [exists "m"%char, (s2l "12"); split; [reflexivity|]; split; [now left|]; split; [discriminate|repeat constructor]|]. split; [split; [constructor; [apply NT; reflexivity|constructor]|right; left; reflexivity]|].
    split; [constructor; [|constructor; [|constructor]]; (split; [reflexivity|split; [reflexivity|right; reflexivity]])|]. split; [|split; [|reflexivity]].
    + constructor; [|constructor; [|constructor]].
      * split; [constructor; [apply NT; reflexivity|constructor]|]. split; [discriminate|]. split; [constructor; [apply ZT; reflexivity|constructor; [apply ZT; reflexivity|constructor]]|].
        split; [constructor; [split; [discriminate|split; [repeat constructor|discriminate]]|constructor]|]. intros k ks E. injection E as <- <-. split; [|intros c r X; injection X as <- _; reflexivity].
        intros (c & d & r & X & Y & _). injection X as <- _. destruct Y as [Y|Y]; discriminate Y.
      * split; [constructor; [apply NT; reflexivity|constructor]|]. split; [discriminate|]. split; [constructor; [apply ZT; reflexivity|constructor]|]. split; [constructor|]. intros k ks E. discriminate E.
    + cbn. repeat constructor; discriminate.
  - constructor; [|constructor; [|constructor]].
    + exists [s2l "1"; s2l "8"]. split; [repeat constructor; cbn; intuition discriminate|]. split; [repeat constructor; discriminate|]. cbn. repeat constructor; cbn; intuition discriminate.
    + exists [s2l "26"]. split; [repeat constructor; cbn; intuition discriminate|]. split; [repeat constructor; discriminate|]. cbn. repeat constructor; cbn; intuition discriminate.
Qed.
