(** C113, C114: translating an input. *)
From Coq Require Import Lia Lqa.
From Verif Require Import PyBase PyLemmas PyStr PyStrLemmas PyText D1SProofs2 LibModel LibSpec LibProofs LibProofs2 LibProofs3 IsoData LibProps MatModel MatSpec MatProofs MatProofs2 MatProofs3 MatProofs4 MatProps MatInfoModel MatInfoProps TranModel TranSpec TranProofs.
Open Scope nat_scope.

(** ** C113 Input.translate *)
(** A call that returns: every material, under its name, has each of its zaids replaced by the translation of that zaid to
    the library that the argument asks for, in each of its submaterials, and its in-line information could be made both
    before and after.  Conversely such a translation is what the call does. *)
Theorem C113_translates_every_material : forall loads E arg a nl ms ms', meaning loads arg a -> stands_for a nl -> wf_newlib nl -> Forall wf_material ms ->
  input_translate loads E arg ms = (ms', None) ->
  (forall m, In m ms -> exists i, update_info E m = Ok i) /\
  Forall2 (fun m m' => mt_name m' = mt_name m /\
    Forall2 (fun s s' => exists blocks, Forall2 (translated E nl) (s_zaids s) blocks /\ s_zaids s' = concat blocks /\ consistent s') (mt_subs m) (mt_subs m') /\
    exists i, update_info E m' = Ok i) ms ms'.
Proof. intros loads E arg a nl ms ms' M SF W Wm. unfold input_translate. rewrite (proj2 (decode_iff loads arg a) M). destruct (list_update E ms) as [e|] eqn:U; [discriminate|].
  rewrite translate_cards_eq. intros H. apply conv_list_ok in H. apply list_update_ok in U. split; [now apply Forall_forall|]. clear U. revert Wm. induction H as [|m m' ms ms' C _ IH]; intros Wm; [constructor|].
  inversion Wm as [|? ? W1 W2]; subst. constructor; [|now apply IH]. destruct (conv_mat_id E a m m' C) as [_ I]. rewrite (conv_mat_stands E a nl m SF) in C. unfold translate_full in C.
  destruct (translate_mat E nl m) as [m1 [e|]] eqn:T; cbn [fst snd opt_err] in C; [discriminate|]. assert (m1 = m') as -> by (apply (f_equal fst) in C; exact C).
  apply translate_mat_ok in T. destruct T as [N F]. split; [exact N|]. split; [|exact I]. unfold wf_material, all_zaids in W1. rewrite Forall_concat in W1. rewrite Forall_forall in W1.
  clear - F W W1. revert W1. induction F as [|s s' l l' Hs _ IH]; intros W1; [constructor|]. constructor; [|apply IH; intros x Hx; apply W1; now right]. apply translate_sub_ok; [exact W| |exact Hs]. apply W1. now left. Qed.
Print Assumptions C113_translates_every_material.
Theorem C113_when_it_returns : forall loads E arg a nl ms ms', meaning loads arg a -> stands_for a nl ->
  (input_translate loads E arg ms = (ms', None) <->
   (forall m, In m ms -> exists i, update_info E m = Ok i) /\ Forall2 (fun m m' => translate_mat E nl m = (m', None) /\ exists i, update_info E m' = Ok i) ms ms').
Proof. intros loads E arg a nl ms ms' M SF. unfold input_translate. rewrite (proj2 (decode_iff loads arg a) M).
  assert (G : forall m m', conv_mat E a m = (m', None) <-> translate_mat E nl m = (m', None) /\ exists i, update_info E m' = Ok i).
  { intros m m'. rewrite (conv_mat_stands E a nl m SF). unfold translate_full. destruct (translate_mat E nl m) as [m1 [e|]]; cbn [fst snd opt_err]; [split; [discriminate|intros [H _]; discriminate]|]. split.
    - intros H. assert (m1 = m') as -> by (apply (f_equal fst) in H; exact H). apply (f_equal snd) in H. cbn [snd] in H. split; [reflexivity|]. destruct (update_info E m'); [eauto|discriminate].
    - intros [H [i Hi]]. injection H as ->. now rewrite Hi. }
  destruct (list_update E ms) as [e|] eqn:U.
  - split; [discriminate|]. intros [I _]. apply Forall_forall in I. apply (proj2 (list_update_ok E ms)) in I. congruence.
  - rewrite translate_cards_eq, conv_list_ok. pose proof (proj1 (list_update_ok E ms) U) as I. split.
    + intros F. split; [now apply Forall_forall|]. induction F as [|m m' l l' C F IH]; [constructor|]. constructor; [now apply G|]. apply IH; [|now inversion I]. apply list_update_ok. now inversion I.
    + intros [_ F]. clear U I. induction F as [|m m' l l' C F IH]; [constructor|]. constructor; [now apply G|exact IH]. Qed.
Print Assumptions C113_when_it_returns.
(** a text that spells a dictionary does what the dictionary does *)
Theorem C113_text_and_dictionary_agree : forall loads E t d ms, braced t -> loads t = Ok d -> input_translate loads E (AText t) ms = input_translate loads E (ADict d) ms.
Proof. intros loads E t d ms B L. unfold input_translate. rewrite (proj2 (decode_iff loads (AText t) (ADict d))) by now constructor. reflexivity. Qed.
Print Assumptions C113_text_and_dictionary_agree.
(** An argument without a meaning, or a material whose in-line information cannot be made, raises before anything is
    changed: IndexError for the empty text, the exception of json.loads, the exception of the first such material. *)
Theorem C113_refused_before_anything_changes : forall loads E ms,
  input_translate loads E (AText []) ms = (ms, Some IndexError) /\
  (forall t e, braced t -> loads t = Err e -> input_translate loads E (AText t) ms = (ms, Some e)) /\
  (forall arg a l1 m l2 e, meaning loads arg a -> ms = l1 ++ m :: l2 -> (forall x, In x l1 -> exists i, update_info E x = Ok i) -> update_info E m = Err e -> input_translate loads E arg ms = (ms, Some e)).
Proof. intros loads E ms. split; [reflexivity|]. split.
  - intros t e [r ->] L. unfold input_translate. cbn [decode]. change (Ascii.eqb "{" "{") with true. cbv iota. now rewrite L.
  - intros arg a l1 m l2 e M -> I U. unfold input_translate. rewrite (proj2 (decode_iff loads arg a) M). assert (list_update E (l1 ++ m :: l2) = Some e) as ->; [|reflexivity].
    unfold list_update. assert (mapM (update_info E) (l1 ++ m :: l2) = Err e) as ->; [|reflexivity]. induction l1 as [|x l1 IH]; cbn [app mapM]; [now rewrite U|]. destruct (I x (or_introl eq_refl)) as [i ->]. cbn [bind]. rewrite IH; [reflexivity|]. intros y Hy. apply I. now right. Qed.
Print Assumptions C113_refused_before_anything_changes.
(** Later on the call stops at the first material whose translation, or whose new in-line information, raises: the
    materials before it are translated, those after it untouched. *)
Theorem C113_where_it_stops : forall loads E arg a nl ms ms' e, meaning loads arg a -> stands_for a nl -> (forall m, In m ms -> exists i, update_info E m = Ok i) ->
  input_translate loads E arg ms = (ms', Some e) ->
  exists l1 m l2 l1' m', ms = l1 ++ m :: l2 /\ ms' = l1' ++ m' :: l2 /\ input_translate loads E arg l1 = (l1', None) /\
    (translate_mat E nl m = (m', Some e) \/ (translate_mat E nl m = (m', None) /\ update_info E m' = Err e)).
Proof. intros loads E arg a nl ms ms' e M SF I. unfold input_translate. rewrite (proj2 (decode_iff loads arg a) M). rewrite (proj2 (list_update_ok E ms)) by now apply Forall_forall.
  rewrite translate_cards_eq. intros H. destruct (conv_list_err E a ms ms' e H) as (l1 & m & l2 & l1' & m' & -> & -> & H1 & H2). exists l1, m, l2, l1', m'. split; [reflexivity|]. split; [reflexivity|]. split.
  - rewrite (proj2 (list_update_ok E l1)) by (apply Forall_forall; intros x Hx; apply I, in_or_app; now left). now rewrite translate_cards_eq.
  - rewrite (conv_mat_stands E a nl m SF) in H2. unfold translate_full in H2. destruct (translate_mat E nl m) as [m1 [e1|]]; cbn [fst snd opt_err] in H2.
    + left. injection H2 as -> ->. reflexivity.
    + right. assert (m1 = m') as -> by (apply (f_equal fst) in H2; exact H2). apply (f_equal snd) in H2. cbn [snd] in H2. split; [reflexivity|]. destruct (update_info E m'); [discriminate|]. injection H2 as ->. reflexivity. Qed.
Print Assumptions C113_where_it_stops.
(** an empty dictionary is an IndexError at the first zaid *)
Theorem C113_empty_dictionary : forall loads E m s z zs subs ms, (forall x, In x (m :: ms) -> exists i, update_info E x = Ok i) -> mt_subs m = s :: subs -> s_zaids s = z :: zs ->
  input_translate loads E (ADict []) (m :: ms) = (m :: ms, Some IndexError).
Proof. intros loads E m s z zs subs ms I Hs Hz. unfold input_translate. cbn [decode]. rewrite (proj2 (list_update_ok E (m :: ms))) by now apply Forall_forall. rewrite translate_cards_eq. cbn [conv_list].
  unfold conv_mat. rewrite Hs. cbn [conv_subs]. unfold conv_sub. rewrite Hz. cbn [mapM]. unfold conv_zaid, zaid_conv. cbn [pick bind]. destruct m as [nm ss]. cbn [mt_subs mt_name] in *. now subst ss. Qed.
Print Assumptions C113_empty_dictionary.
(** A dictionary of any other shape, when its first value is no text, is searched in its order: the zaid goes to the first
    library whose value holds its number, and a text holds the number wherever its digits occur (6056 in 26056); a number,
    true, false or null met before that is a TypeError, and nothing found a ValueError. *)
Theorem C113_search_in_any_dictionary : forall E d z, (forall l s, hd_error d <> Some (l, VText s)) -> d <> [] ->
  (forall l, pick (ADict d) z = Ok (VText l) <-> exists d1 v d2, d = d1 ++ (l, v) :: d2 /\ holds (z_num z) v /\ forall l' v', In (l', v') d1 -> v' <> VOther /\ ~ holds (z_num z) v') /\
  (forall l, pick (ADict d) z = Ok (VText l) -> conv_zaid E (ADict d) z = translate_zaid E (ToLib l) z) /\
  (forall e, conv_zaid E (ADict d) z = Err e -> (forall l, pick (ADict d) z <> Ok (VText l)) ->
     (e = ValueError /\ forall l v, In (l, v) d -> v <> VOther /\ ~ holds (z_num z) v) \/
     (e = TypeError /\ exists d1 l d2, d = d1 ++ (l, VOther) :: d2 /\ forall l' v', In (l', v') d1 -> ~ holds (z_num z) v')).
Proof. intros E d z H N. assert (P : pick (ADict d) z = do l <- find_lib (z_num z) d; Ok (VText l)).
  { destruct d as [|[k v] d]; [contradiction|]. destruct v as [s|ms|]; [|reflexivity|reflexivity]. exfalso. exact (H k s eq_refl). }
  split; [|split].
  - intros l. rewrite P, <- find_lib_iff. destruct (find_lib (z_num z) d); cbn [bind]; split; intros Q; try discriminate; injection Q as ->; reflexivity.
  - intros l Q. unfold conv_zaid, zaid_conv. rewrite Q. reflexivity.
  - intros e Q NP. unfold conv_zaid, zaid_conv in Q. rewrite P in Q, NP. destruct (find_lib (z_num z) d) as [l|e'] eqn:F; cbn [bind] in Q, NP; [exfalso; now apply (NP l)|]. injection Q as <-. now apply find_lib_err. Qed.
Print Assumptions C113_search_in_any_dictionary.
(** Not so: a library that is not there is refused.  Every zaid of the first material is dropped (its submaterials are left
    empty) and then a KeyError comes from its in-line information. *)
Theorem C113_unknown_library_refuted : forall loads E l m ms, l <> [] -> ~ braced l -> ~ loaded (m_lib E) l -> (forall x, In x (m :: ms) -> exists i, update_info E x = Ok i) ->
  (forall z, In z (all_zaids m) -> ~ dosimetry E z) ->
  exists m', input_translate loads E (AText l) (m :: ms) = (m' :: ms, Some KeyError) /\ mt_name m' = mt_name m /\ length (mt_subs m') = length (mt_subs m) /\ all_zaids m' = [].
Proof. intros loads E l m ms N B NL I ND. exists (mkmat (mt_name m) (map (fun _ => mk_submat []) (mt_subs m))). cbn [mt_name mt_subs]. rewrite map_length. split; [|split; [reflexivity|split; [reflexivity|apply emptied_all]]].
  unfold input_translate. rewrite (proj2 (decode_iff loads (AText l) (AText l))) by now constructor. rewrite (proj2 (list_update_ok E (m :: ms))) by now apply Forall_forall. rewrite translate_cards_eq. cbn [conv_list].
  unfold conv_mat. rewrite unknown_subs; [|exact NL|intros s z Hs Hz; apply ND; now apply (in_all s)]. destruct (I m (or_introl eq_refl)) as [i Hi]. rewrite (emptied_info E (mt_name m) (mt_subs m) (info_subs E m i Hi)). reflexivity. Qed.
Print Assumptions C113_unknown_library_refuted.

(** ** C114 translating twice *)
(** With zaids written without leading zeros and a table of isotopes, translating to a library a second time leaves
    everything as it is: no exception, and the same zaids with the same fractions, listed and shown. *)
Theorem C114_translating_twice : forall E l ms ms', good_env E -> isotopes_only (l_iso (m_lib E)) -> Forall wf_material ms -> (forall m z, In m ms -> In z (all_zaids m) -> plain z) ->
  translate_list E (ToLib l) ms = (ms', None) -> exists ms'', translate_list E (ToLib l) ms' = (ms'', None) /\ Forall2 same_mat ms' ms''.
Proof. intros E l ms ms' [[[D WT] _] _] IO W P H. apply (list_twice E l ms ms' D WT IO); [|exact H]. apply Forall_forall. intros m Hm. rewrite Forall_forall in W. split; [now apply W|]. apply Forall_forall. intros z Hz. now apply (P m). Qed.
Print Assumptions C114_translating_twice.
Theorem C114_shipped_table_has_isotopes_only : isotopes_only shipped.
Proof. assert (B : forallb (fun r => negb (N.eqb (r_A r) 0)) shipped = true) by (vm_compute; reflexivity). intros r Hr. rewrite forallb_forall in B. apply B in Hr. apply negb_true_iff, N.eqb_neq in Hr. exact Hr. Qed.
Print Assumptions C114_shipped_table_has_isotopes_only.
(** Without the condition on the zaids it is not so: 06000 becomes carbon 12 and 13 of the default library, and then natural
    carbon of the new one. *)
Definition carbon : matenv := mkmenv (mklib [(s2l "31c", [(s2l "6000", s2l "31c")]); (s2l "81c", [(s2l "6012", s2l "81c"); (s2l "6013", s2l "81c")])] (s2l "81c") shipped) [].
Theorem C114_leading_zeros_refuted : exists ms ms' ms'', good_env carbon /\ isotopes_only (l_iso (m_lib carbon)) /\ Forall wf_material ms /\
  translate_list carbon (ToLib (s2l "31c")) ms = (ms', None) /\ translate_list carbon (ToLib (s2l "31c")) ms' = (ms'', None) /\
  map z_name (concat (map all_zaids ms')) = [s2l "6012.81c"; s2l "6013.81c"] /\ map z_name (concat (map all_zaids ms'')) = [s2l "6000.31c"; s2l "6000.31c"].
Proof. exists [mkmat (s2l "m1") [mk_submat [zd 1 "06" "000" "31c"]]]. do 2 eexists. split.
  { apply C22_shipped_table_is_good; [repeat constructor; vm_compute; intuition discriminate|]. intros l Hl. cbn in Hl. repeat (destruct Hl as [<-|Hl]; [vm_compute; intuition discriminate|]). destruct Hl. }
  split; [exact C114_shipped_table_has_isotopes_only|]. split.
  { repeat constructor; vm_compute; intuition discriminate. }
  split; [vm_compute; reflexivity|]. split; [vm_compute; reflexivity|]. split; vm_compute; reflexivity. Qed.
Print Assumptions C114_leading_zeros_refuted.
(** a dictionary of libraries is not one to be used twice: the libraries it leads to are not among those it starts from *)
Theorem C114_dictionary_refuted : forall E d s s' z ss, NoDup (map fst d) -> Forall wf_zaid (s_zaids s) -> translate_sub E (ByOldLib d) s = Ok s' -> s_zaids s' = z :: ss ->
  (forall o, z_lib z = Some o -> ~ In o (map fst d)) -> translate_sub E (ByOldLib d) s' = Err ValueError.
Proof. intros E d s s' z ss N W T Z H. unfold translate_sub. rewrite Z. cbn [mapM]. unfold translate_zaid at 1, zaid_translation, pick_lib. destruct (z_lib z) as [o|]; [|reflexivity].
  rewrite (proj2 (dget_none_iff str_eqb str_eqb_eq o d)); [reflexivity|]. now apply H. Qed.
Print Assumptions C114_dictionary_refuted.

(** a life-like case: hydrogen and lithium, with a JSON text in the place of the dictionary *)
Definition tm : list material := [mkmat (s2l "m1") [mk_submat [zd 2 "1" "001" "21c"; zd 1 "3" "000" "21c"]]].
Definition json_demo (t : str) : res (list (str * dval)) := if str_eqb t (s2l "{21c}") then Ok [(s2l "21c", VText (s2l "31c"))] else Err ValueError.
Lemma tm_ok : good_env denv /\ Forall wf_material tm /\ (forall m z, In m tm -> In z (all_zaids m) -> plain z) /\ (forall m, In m tm -> exists i, update_info denv m = Ok i).
Proof. split; [exact (proj1 C22_witness)|]. split; [repeat constructor; vm_compute; intuition discriminate|]. split.
  - intros m z Hm Hz. cbn in Hm. destruct Hm as [<-|[]]. cbn in Hz. destruct Hz as [<-|[<-|[]]]; [exists 1%N, 1%N|exists 3%N, 0%N]; apply zaid_text_fmt; split; reflexivity.
  - intros m Hm. cbn in Hm. destruct Hm as [<-|[]]. eexists. vm_compute. reflexivity. Qed.
Example C113_witness : meaning json_demo (AText (s2l "{21c}")) (ADict (map (fun kv => (fst kv, VText (snd kv))) [(s2l "21c", s2l "31c")])) /\
  stands_for (ADict (map (fun kv => (fst kv, VText (snd kv))) [(s2l "21c", s2l "31c")])) (ByOldLib [(s2l "21c", s2l "31c")]) /\
  (exists ms', input_translate json_demo denv (AText (s2l "{21c}")) tm = (ms', None) /\ map z_name (concat (map all_zaids ms')) = [s2l "1001.31c"; s2l "3006.31c"; s2l "3007.81c"]) /\
  braced (s2l "{22c}") /\ json_demo (s2l "{22c}") = Err ValueError /\
  ~ loaded (m_lib denv) (s2l "32c") /\ (forall z, In z (all_zaids (nth 0 tm (mkmat [] []))) -> ~ dosimetry denv z) /\
  pick (ADict [(s2l "31c", VMembers [s2l "1001"]); (s2l "32c", VText (s2l "26056"))]) (zd 1 "6" "056" "21c") = Ok (VText (s2l "32c")) /\
  exists ms', input_translate json_demo denv (AText (s2l "32c")) tm = (ms', Some KeyError) /\ concat (map all_zaids ms') = [].
Proof. split; [apply M_json; [eexists; reflexivity|vm_compute; reflexivity]|]. split; [now constructor|]. split; [eexists; split; vm_compute; reflexivity|]. split; [eexists; reflexivity|]. split; [reflexivity|]. split.
  - intros [x H]. vm_compute in H. intuition discriminate.
  - split; [|split; [reflexivity|eexists; split; vm_compute; reflexivity]]. intros z Hz [l [H1 H2]]. cbn in Hz. destruct Hz as [<-|[<-|[]]]; injection H1 as <-; vm_compute in H2; intuition discriminate. Qed.
Example C114_witness : good_env denv /\ Forall wf_material tm /\ (forall m z, In m tm -> In z (all_zaids m) -> plain z) /\
  exists ms' ms'', translate_list denv (ToLib (s2l "31c")) tm = (ms', None) /\ translate_list denv (ToLib (s2l "31c")) ms' = (ms'', None) /\ map z_name (concat (map all_zaids ms'')) = [s2l "1001.31c"; s2l "3006.31c"; s2l "3007.81c"].
Proof. destruct tm_ok as (H1 & H2 & H3 & _). split; [exact H1|]. split; [exact H2|]. split; [exact H3|]. do 2 eexists. split; [vm_compute; reflexivity|]. split; vm_compute; reflexivity. Qed.
