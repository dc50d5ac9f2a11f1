(** C35: added tallies.  C49: reading the data section.  C50: PIKMT and FU cards.  C51: the cards of a tally. *)
From Coq Require Import Lia ZArith QArith Qabs.
From Verif Require Import PyBase PyLemmas PyStr PyStrLemmas PyFmtLemmas PyText D1SModel D1SProofs2 WWTextProofs LibModel MatModel MatProofs InpModel InpGeomSpec InpGeomProofs2 InpGeomProofs3 InpMatProofs DataModel DataSpec DataProofs DataProofs2.
Open Scope nat_scope.

Section C35.
  Context (wrap : list str -> list str) (W : forall ls, words (wrap ls) = words ls).
  (** the tally card: its name with the particles, then every cell in order, then T if asked for.
      [particles]: one name, or two the second of which is a single letter *)
  Theorem C35_tally_card : forall id p second cells total energies desc mult sd d, no_ws p -> (forall c, second = [[c]] -> is_ws c = false) ->
    second = [] \/ (exists c, second = [[c]]) ->
    exists d' ls, add_F_tally wrap id (p :: second) cells total energies desc mult sd d = (d', None) /\
      dget str_eqb (kcat "F" id) (d_other d') = Some ls /\ d_keys d' = d_keys d ++ [id] /\
      words ls = (kcat "F" id ++ ":"%char :: comma_list (p :: second)) :: concat (map split cells) ++ (if total then [s2l "T"] else []).
  Proof using W. intros id p second cells total energies desc mult sd d NP NS S.
    assert (PT : particles_text (p :: second) = Ok (comma_list (p :: second)) /\ no_ws (comma_list (p :: second))).
    { destruct S as [->|[c ->]]; (split; [reflexivity|]); [exact NP|]. cbn [comma_list]. apply Forall_app. split; [exact NP|]. constructor; [reflexivity|]. constructor; [now apply NS|constructor]. }
    destruct PT as [PT NC]. unfold add_F_tally. rewrite PT. eexists. eexists. split; [reflexivity|]. split; [|split].
    - rewrite peel_opt by kneq. rewrite peel_if by kneq. rewrite peel_opt by kneq. apply put_same.
    - destruct mult, sd, energies, desc; reflexivity.
    - rewrite W, words_cons, words_cons. change (words []) with (@nil str). rewrite app_nil_r, joined_line.
      change (kcat "F" id ++ ":"%char :: comma_list (p :: second) ++ [nl]) with (kcat "F" id ++ (":"%char :: comma_list (p :: second)) ++ [nl]). rewrite app_assoc, split_nil_r by reflexivity.
      rewrite split_one; [|intros Q; apply app_eq_nil in Q as [Q _]; now apply kcat_ne in Q|apply Forall_app; split; [now apply kcat_no_ws, kF|constructor; [reflexivity|exact NC]]].
      cbn [app]. f_equal. destruct total; [now rewrite map_app, concat_app|now rewrite app_nil_r]. Qed.
  (** with more entries the particles after the second are silently left out, and a second entry of
      several letters is cut into letters *)
  Theorem C35_third_particle_refuted : forall id p q r rest cells total energies desc mult sd d,
    add_F_tally wrap id (p :: q :: r :: rest) cells total energies desc mult sd d = add_F_tally wrap id [p; q] cells total energies desc mult sd d.
  Proof using. reflexivity. Qed.
  Theorem C35_second_particle_by_letters : forall p q, particles_text [p; q] = Ok (comma_list (p :: map (fun c => [c]) q)).
  Proof using. intros p q. cbn [particles_text]. f_equal. apply sep_nonempty. Qed.
  (** no particle: IndexError, although the tally is already registered *)
  Theorem C35_no_particle : forall id cells total energies desc mult sd d,
    add_F_tally wrap id [] cells total energies desc mult sd d = (mkD (d_other d) (d_keys d ++ [id]), Some IndexError).
  Proof using. reflexivity. Qed.
  (** the energy card lists the energies in order, each with a relative error of at most 5e-5 *)
  Theorem C35_energy_card : forall id ps cells total es desc mult sd d d', add_F_tally wrap id ps cells total (Some es) desc mult sd d = (d', None) ->
    exists ls ws, dget str_eqb (kcat "E" id) (d_other d') = Some ls /\ words ls = kcat "E" id :: ws /\
      Forall2 (fun w e => exists v, parse_float w = Ok v /\ (Qabs (v - e) <= (1 # 20000) * Qabs e)%Q) ws es.
  Proof using W. intros id ps cells total es desc mult sd d d' H. unfold add_F_tally in H. destruct (particles_text ps) as [t|]; [|discriminate]. injection H as <-.
    eexists. exists (map fmt_e es). split; [|split].
    - rewrite peel_opt by kneq. rewrite peel_if by kneq. apply put_same.
    - rewrite W, words_cons, words_cons. change (words []) with (@nil str). rewrite app_nil_r, joined_line. change ("E"%char :: str_of_Z id ++ [nl]) with (kcat "E" id ++ [nl]). rewrite (split_nil_r (kcat "E" id)) by reflexivity. rewrite (split_one (kcat "E" id)); [|apply kcat_ne|now apply kcat_no_ws, kE]. cbn [app]. f_equal.
      induction es as [|e es IH]; [reflexivity|]. cbn [map concat]. destruct (fmt_e_no_ws e) as [A B]. rewrite (split_one _ B A). cbn [app]. now rewrite IH.
    - induction es as [|e es IH]; constructor; [apply parse_fmt_e|exact IH]. Qed.
  (** the divisor card gives 1 for each bin *)
  Theorem C35_divisors : forall id ps cells total energies desc mult d d', add_F_tally wrap id ps cells total energies desc mult true d = (d', None) ->
    cells <> [] \/ total = true ->
    exists ls, dget str_eqb (kcat "SD" id) (d_other d') = Some ls /\ hd_error (words ls) = Some (kcat "SD" id) /\
      card_values ls = Some (repeat (s2l "1") (length cells + (if total then 1 else 0))).
  Proof using. intros id ps cells total energies desc mult d d' H NE. unfold add_F_tally in H. destruct (particles_text ps) as [t|]; [|discriminate]. injection H as <-.
    set (cs := if total then cells ++ [s2l "T"] else cells) in *. assert (L : length cs = length cells + (if total then 1 else 0)) by (unfold cs; destruct total; [now rewrite app_length|lia]).
    assert (P : length cells + (if total then 1 else 0) <> 0) by (destruct NE as [NE| ->]; [destruct cells; [now elim NE|cbn; lia]|lia]).
    exists [kcat "SD" id ++ s2l " 1" ++ (if (Z.of_nat (length cs) - 1 =? 0)%Z then [] else sp :: str_of_Z (Z.of_nat (length cs) - 1) ++ s2l "R") ++ [nl]]. split; [|split].
    - rewrite peel_opt by kneq. apply put_same.
    - change (s2l " 1" ++ ?x) with (sp :: "1"%char :: x). rewrite words_cons, split_app_ws by reflexivity. rewrite split_one; [reflexivity|apply kcat_ne|now apply kcat_no_ws, kSD].
    - unfold card_values. rewrite words_cons. change (words []) with (@nil str). rewrite app_nil_r. change (s2l " 1" ++ ?x) with (sp :: "1"%char :: x). rewrite split_app_ws by reflexivity. rewrite (split_one (kcat "SD" id)); [|apply kcat_ne|now apply kcat_no_ws, kSD]. cbn [app tl].
      destruct (Z.eqb_spec (Z.of_nat (length cs) - 1) 0) as [E|N].
      + replace (length cells + (if total then 1 else 0)) with 1 by lia. reflexivity.
      + change ("1"%char :: (sp :: str_of_Z (Z.of_nat (length cs) - 1) ++ s2l "R") ++ [nl]) with (s2l "1" ++ sp :: (str_of_Z (Z.of_nat (length cs) - 1) ++ s2l "R") ++ [nl]). rewrite split_app_ws by reflexivity. rewrite split_nil_r by reflexivity.
        assert (ZN : str_of_Z (Z.of_nat (length cs) - 1) = str_of_N (Z.to_N (Z.of_nat (length cs) - 1))). { destruct (Z.of_nat (length cs) - 1)%Z eqn:Q; try reflexivity. lia. }
        rewrite ZN. rewrite (split_one (str_of_N _ ++ s2l "R")); [|intros Q; apply app_eq_nil in Q as [_ Q]; discriminate|apply Forall_app; split; [apply digits_ws, str_of_N_digits|repeat constructor]].
        change (split (s2l "1")) with [s2l "1"]. cbn [app expand]. change (repeat_count (s2l "1")) with (@None nat). cbv iota. rewrite repeat_count_R. cbn [expand option_map]. rewrite app_nil_r.
        f_equal. replace (length cells + (if total then 1 else 0)) with (S (N.to_nat (Z.to_N (Z.of_nat (length cs) - 1)))) by lia. reflexivity. Qed.
  (** with no cell at all it is not a valid card: "SD4 1 -1R" *)
  Theorem C35_no_cells_refuted : forall d, exists d' ls, add_F_tally wrap 4 [s2l "N"] [] false None None None true d = (d', None) /\ dget str_eqb (s2l "SD4") (d_other d') = Some ls /\ words ls = [s2l "SD4"; s2l "1"; s2l "-1R"].
  Proof using. intros d. eexists. eexists. split; [reflexivity|]. split; [apply put_same|reflexivity]. Qed.
  (** description and multiplier *)
  Theorem C35_text_cards : forall id ps cells total energies desc mult sd d d', add_F_tally wrap id ps cells total energies desc mult sd d = (d', None) ->
    (forall t, desc = Some t -> exists ls, dget str_eqb (kcat "FC" id) (d_other d') = Some ls /\ words ls = kcat "FC" id :: split t) /\
    (forall t, mult = Some t -> exists ls, dget str_eqb (kcat "FM" id) (d_other d') = Some ls /\ words ls = kcat "FM" id :: split t).
  Proof using. intros id ps cells total energies desc mult sd d d' H. unfold add_F_tally in H. destruct (particles_text ps) as [t0|]; [|discriminate]. injection H as <-.
    split; intros t ->; [exists [kcat "FC" id ++ sp :: t ++ [nl]]|exists [kcat "FM" id ++ sp :: t ++ [nl]]]; (split; [|]).
    - rewrite peel_opt by kneq. rewrite peel_if by kneq. rewrite peel_opt by kneq. rewrite put_other by kneq. apply put_same.
    - rewrite words_cons. change (words []) with (@nil str). rewrite app_nil_r, split_app_ws by reflexivity. rewrite split_nil_r by reflexivity. rewrite split_one; [reflexivity|apply kcat_ne|now apply kcat_no_ws, kFC].
    - apply put_same.
    - rewrite words_cons. change (words []) with (@nil str). rewrite app_nil_r, split_app_ws by reflexivity. rewrite split_nil_r by reflexivity. rewrite split_one; [reflexivity|apply kcat_ne|now apply kcat_no_ws, kFM]. Qed.
  (** nothing else changes.  A card that is not asked for keeps its old content: a tally defined again
      without energies keeps the old energy bins *)
  Theorem C35_rest_unchanged : forall id ps cells total energies desc mult sd d d', add_F_tally wrap id ps cells total energies desc mult sd d = (d', None) ->
    forall key, key <> kcat "F" id -> (desc <> None -> key <> kcat "FC" id) -> (energies <> None -> key <> kcat "E" id) ->
      (sd = true -> key <> kcat "SD" id) -> (mult <> None -> key <> kcat "FM" id) -> dget str_eqb key (d_other d') = dget str_eqb key (d_other d).
  Proof using. intros id ps cells total energies desc mult sd d d' H key N1 N2 N3 N4 N5. unfold add_F_tally in H. destruct (particles_text ps) as [t|]; [|discriminate]. injection H as <-.
    destruct mult; [rewrite put_other by (apply N5; discriminate)|]; (destruct sd; [rewrite put_other by (now apply N4)|]); (destruct energies; [rewrite put_other by (apply N3; discriminate)|]); rewrite put_other by exact N1; (destruct desc; [rewrite put_other by (apply N2; discriminate)|]); reflexivity. Qed.
End C35.
Print Assumptions C35_tally_card.
Print Assumptions C35_third_particle_refuted.
Print Assumptions C35_second_particle_by_letters.
Print Assumptions C35_no_particle.
Print Assumptions C35_energy_card.
Print Assumptions C35_divisors.
Print Assumptions C35_no_cells_refuted.
Print Assumptions C35_text_cards.
Print Assumptions C35_rest_unchanged.
(** the number of histories *)
Theorem C35_stop_card : forall nps d, exists ls, dget str_eqb (s2l "NPS") (d_other (add_stopCard nps d)) = Some ls /\ words ls = [s2l "NPS"; str_of_Z (qtrunc nps)] /\
  forall key, key <> s2l "NPS" -> dget str_eqb key (d_other (add_stopCard nps d)) = dget str_eqb key (d_other d).
Proof. intros nps d. eexists. split; [apply put_same|]. split; [|intros key N; now apply put_other].
  rewrite words_cons. change (words []) with (@nil str). rewrite app_nil_r. change (s2l "NPS " ++ ?x) with (s2l "NPS" ++ sp :: x). rewrite split_app_ws by reflexivity. change (split (s2l "NPS")) with [s2l "NPS"]. rewrite split_app_ws by reflexivity. change (split [nl]) with (@nil str). destruct (str_of_Z_no_ws (qtrunc nps)) as [A B]. rewrite (split_one _ B A). reflexivity. Qed.
Print Assumptions C35_stop_card.
Example C35_witness : exists d', add_F_tally (fun ls => ls) 4 [s2l "N"; s2l "P"] [s2l "10"; s2l "((1 2) < 3)"] true (Some [(1 # 1)%Q; (20 # 1)%Q]) (Some (s2l "flux")) None true (mkD [] []) = (d', None) /\
  d_keys d' = [4%Z] /\ map (fun kl => words (snd kl)) (d_other d') = [
    [s2l "FC4"; s2l "flux"]; [s2l "F4:N,P"; s2l "10"; s2l "((1"; s2l "2)"; s2l "<"; s2l "3)"; s2l "T"]; [s2l "E4"; s2l "1.0000e+00"; s2l "2.0000e+01"]; [s2l "SD4"; s2l "1"; s2l "2R"]] /\
  (forall ls, words ((fun ls : list str => ls) ls) = words ls).
Proof. eexists. split; [reflexivity|]. split; [reflexivity|]. split; [vm_compute; reflexivity|reflexivity]. Qed.

(** ** C49 *)
(** the name under which a card is stored: the first occurrence of FMESH, TR or F followed by digits
    (with a T before it if the name contains TF), the name itself if there is none *)
Theorem C49_stored_name : forall key, (~ rewritten (upper key) -> clean_card_name key = upper key) /\
  (rewritten (upper key) -> exists a p ds b, upper key = a ++ (p ++ ds) ++ b /\ In p [s2l "FMESH"; s2l "TR"; s2l "F"] /\ digits ds /\ ds <> [] /\
     match b with c :: _ => is_digit c = false | [] => True end /\
     (forall a1 p1 d b1, In p1 [s2l "FMESH"; s2l "TR"; s2l "F"] -> is_digit d = true -> upper key = a1 ++ p1 ++ d :: b1 -> length a <= length a1) /\
     ((exists x y, upper key = x ++ s2l "TF" ++ y) -> clean_card_name key = s2l "T" ++ p ++ ds) /\
     (~ (exists x y, upper key = x ++ s2l "TF" ++ y) -> clean_card_name key = p ++ ds)).
Proof. intros key. unfold clean_card_name. destruct (search_key (upper key)) as [m|] eqn:S.
  - split; [intros N; apply search_none in N; congruence|]. intros _. destruct (search_some _ _ S) as [a [b [E [[p [ds [P [-> [D [NE B]]]]]] L]]]]. exists a, p, ds, b. do 6 (split; [assumption|]).
    destruct (contains (s2l "TF") (upper key)) eqn:C.
    + split; [reflexivity|]. intros N. elim N. now apply contains_spec.
    + split; [|reflexivity]. intros X. apply contains_spec in X. congruence.
  - split; [reflexivity|]. intros R. apply search_none in S. contradiction. Qed.
Print Assumptions C49_stored_name.
(** a tally card, whatever its particles and marks, is stored as F and its number *)
Theorem C49_tally_name : forall marks ds rest, In marks [[]; s2l "*"; s2l "+"] -> digits ds -> ds <> [] -> rest = [] \/ (exists r, rest = ":"%char :: r) ->
  ~ (exists x y, upper rest = x ++ s2l "TF" ++ y) -> clean_card_name (marks ++ s2l "F" ++ ds ++ rest) = s2l "F" ++ ds.
Proof. intros marks ds rest M D NE R NT. unfold clean_card_name. rewrite !upper_app, (upper_digits ds D). change (upper (s2l "F")) with (s2l "F").
  assert (RD : match upper rest with c :: _ => is_digit c = false | [] => True end) by (destruct R as [->|[r ->]]; [exact I|reflexivity]).
  assert (MK : match_key (s2l "F" ++ ds ++ upper rest) = Some (s2l "F" ++ ds)). { unfold match_key. destruct ds as [|d ds]; [now elim NE|]. inversion D as [|? ? Dd Dds]; subst.
    assert (DM : Ascii.eqb "M" d = false). { destruct (Ascii.eqb_spec "M" d) as [<-|]; [discriminate Dd|reflexivity]. }
    unfold match_alt. cbn [s2l list_ascii_of_string app strip_prefix]. change (Ascii.eqb "F" "F") with true. change (Ascii.eqb "T" "F") with false. cbv iota. rewrite DM. rewrite app_comm_cons, span_digits_app by assumption. reflexivity. }
  assert (NC : contains (s2l "TF") (s2l "F" ++ ds ++ upper rest) = false). { destruct (contains (s2l "TF") (s2l "F" ++ ds ++ upper rest)) eqn:C; [|reflexivity]. exfalso.
    assert (G : forall l, digits l -> contains (s2l "TF") (l ++ upper rest) = true -> contains (s2l "TF") (upper rest) = true). { intros l Dl. induction Dl as [|c l Hc Hl IH]; [auto|]. cbn [app contains s2l list_ascii_of_string strip_prefix]. destruct (Ascii.eqb_spec "T" c) as [<-|]; [discriminate Hc|]. exact IH. }
    cbn [app contains s2l list_ascii_of_string strip_prefix] in C. change (Ascii.eqb "T" "F") with false in C. cbv iota in C. apply G in C; [|exact D]. apply contains_spec in C. contradiction. }
  assert (SK : forall pre, In pre [[]; s2l "*"; s2l "+"] -> search_key (pre ++ s2l "F" ++ ds ++ upper rest) = Some (s2l "F" ++ ds) /\ contains (s2l "TF") (pre ++ s2l "F" ++ ds ++ upper rest) = false).
  { assert (S0 : search_key (s2l "F" ++ ds ++ upper rest) = Some (s2l "F" ++ ds)) by (cbn [s2l list_ascii_of_string app search_key] in *; rewrite MK; reflexivity).
    intros pre [<-|[<-|[<-|[]]]].
    - split; [exact S0|exact NC].
    - split; [exact S0|exact NC].
    - split; [exact S0|exact NC]. }
  assert (UM : In (upper marks) [[]; s2l "*"; s2l "+"]) by (destruct M as [<-|[<-|[<-|[]]]]; [left|right;left|right;right;left]; reflexivity).
  destruct (SK _ UM) as [-> ->]. reflexivity. Qed.
Print Assumptions C49_tally_name.
(** when the stored names are pairwise different, every card of the file is in the input, and no
    card is there twice *)
Theorem C49_every_card_is_kept : forall {M} (from_text : list str -> res M) cards s, parse_data from_text cards = Ok s ->
  NoDup (map (fun kc => clean_card_name (fst kc)) cards) ->
  (forall key c, In (key, c) cards -> held from_text s c) /\ cards_held s = length cards.
Proof. intros M from_text cards s H ND. destruct (parse_all from_text cards (mkSec [] [] []) s H ND) as [A [_ C]]; [intros kc _ []|]. split; [intros key c I; exact (A _ I)|exact C]. Qed.
Print Assumptions C49_every_card_is_kept.
(** MCNP's DF (dose function), SF and CF (flagging) cards of a tally are stored under the name of the
    tally itself: the tally card is lost *)
Theorem C49_dose_function_overwrites_tally_refuted : forall (M : Type) (from_text : list str -> res M) ds f4 df4, digits ds -> ds <> [] -> dc_first f4 = None -> dc_first df4 = None ->
  Forall (fun pre => exists s, parse_data from_text [(s2l "F" ++ ds ++ s2l ":N", f4); (pre ++ s2l "F" ++ ds, df4)] = Ok s /\
    sec_other s = [(s2l "F" ++ ds, df4)] /\ sec_mats s = [] /\ sec_tr s = []) [s2l "D"; s2l "S"; s2l "C"].
Proof. intros M from_text ds f4 df4 D NE F1 F2.
  assert (N0 : clean_card_name (s2l "F" ++ ds ++ s2l ":N") = s2l "F" ++ ds). { apply (C49_tally_name [] ds (s2l ":N")); [now left|exact D|exact NE|right; eexists; reflexivity|]. intros [x [y E]]. apply (f_equal (contains (s2l "TF"))) in E. assert (X : contains (s2l "TF") (x ++ s2l "TF" ++ y) = true) by (apply contains_spec; eauto). rewrite X in E. discriminate. }
  assert (N1 : forall pre, In pre [s2l "D"; s2l "S"; s2l "C"] -> clean_card_name (pre ++ s2l "F" ++ ds) = s2l "F" ++ ds).
  { assert (Z : clean_card_name (s2l "F" ++ ds) = s2l "F" ++ ds). { pose proof (C49_tally_name [] ds []) as X. rewrite app_nil_r in X. apply X; [now left|exact D|exact NE|now left|]. intros [x [y E]]. apply (f_equal (@length _)) in E. rewrite !app_length in E. cbn in E. lia. }
    unfold clean_card_name in Z. assert (SS : search_key (upper (s2l "F" ++ ds)) <> None). { intros X. apply search_none in X. apply X. destruct ds as [|d ds]; [now elim NE|]. exists [], (s2l "F"), d, ds. split; [right; right; now left|]. split; [now inversion D|]. rewrite upper_app, (upper_digits _ D). reflexivity. }
    assert (K : forall pre, match search_key (pre ++ upper (s2l "F" ++ ds)) with Some new => if contains (s2l "TF") (pre ++ upper (s2l "F" ++ ds)) then "T"%char :: new else new | None => [] end = s2l "F" ++ ds -> search_key (pre ++ upper (s2l "F" ++ ds)) <> None -> match search_key (pre ++ upper (s2l "F" ++ ds)) with Some new => if contains (s2l "TF") (pre ++ upper (s2l "F" ++ ds)) then "T"%char :: new else new | None => pre ++ upper (s2l "F" ++ ds) end = s2l "F" ++ ds).
    { intros pre. destruct (search_key (pre ++ upper (s2l "F" ++ ds))); [auto|]. intros _ Q. now elim Q. }
    assert (Z2 : match search_key (upper (s2l "F" ++ ds)) with Some new => if contains (s2l "TF") (upper (s2l "F" ++ ds)) then "T"%char :: new else new | None => [] end = s2l "F" ++ ds) by (destruct (search_key (upper (s2l "F" ++ ds))); [exact Z|now elim SS]).
    intros pre [<-|[<-|[<-|[]]]]; unfold clean_card_name; rewrite upper_app; apply K; assumption. }
  rewrite Forall_forall. intros pre P. unfold parse_data, foldM, parse_card. cbn [fst snd]. rewrite F1, F2. cbn [bind]. rewrite N0, (N1 _ P). eexists. split; [reflexivity|]. cbn [to_other sec_other sec_mats sec_tr dset]. rewrite str_eqb_refl. auto. Qed.
Print Assumptions C49_dose_function_overwrites_tally_refuted.
Example C49_witness : exists s, parse_data (fun ls => Ok ls) [(s2l "M1", mkDC [s2l "M1 1001 1"] (Some Kmat) false); (s2l "MT1", mkDC [s2l "MT1 lwtr"] (Some Kmat) false); (s2l "*TR3", mkDC [s2l "*TR3 0 0 0"] (Some Ktr) true);
    (s2l "F4:N", mkDC [s2l "F4:N 1"] (Some Kother) false); (s2l "FC4", mkDC [s2l "FC4 x"] None false)] = Ok s /\
  dkeys (sec_other s) = [s2l "F4"; s2l "FC4"] /\ dkeys (sec_tr s) = [s2l "TR3"] /\ cards_held s = 5 /\
  NoDup (map clean_card_name [s2l "M1"; s2l "MT1"; s2l "*TR3"; s2l "F4:N"; s2l "FC4"]).
Proof. eexists. split; [reflexivity|]. do 3 (split; [reflexivity|]). repeat (constructor; [vm_compute; intuition discriminate|]). constructor. Qed.

(** ** C50 *)
(** the PIKMT card lists each parent of the reaction file once, in order, with 0; it replaces an
    older one; the rest is unchanged *)
Theorem C50_pikmt : forall l d, Forall (fun p => no_ws p /\ p <> []) (get_parents l) ->
  exists ls, dget str_eqb (s2l "PIKMT") (d_other (add_PIKMT_card (Some l) d)) = Some ls /\
    words ls = s2l "PIKMT" :: concat (map (fun p => [p; s2l "0"]) (get_parents l)) /\
    (forall key, key <> s2l "PIKMT" -> dget str_eqb key (d_other (add_PIKMT_card (Some l) d)) = dget str_eqb key (d_other d)).
Proof. intros l d H. eexists. split; [apply put_same|]. split; [|intros key N; now apply put_other]. unfold pikmt_lines. rewrite words_cons. change (split (s2l "PIKMT" ++ [nl])) with [s2l "PIKMT"]. cbn [app]. f_equal.
  induction H as [|p ps [A B] _ IH]; [reflexivity|]. cbn [map concat]. rewrite words_cons, IH. rewrite split_ws by (apply all_ws_repeat). change (repeat sp 4 ++ s2l "0" ++ [nl]) with (sp :: repeat sp 3 ++ s2l "0" ++ [nl]). rewrite split_app_ws by reflexivity. rewrite (split_one _ B A). reflexivity. Qed.
Print Assumptions C50_pikmt.
Theorem C50_no_reaction_file : forall d, add_PIKMT_card None d = d.
Proof. reflexivity. Qed.
Print Assumptions C50_no_reaction_file.
(** the contributions asked for: the card of the tally is continued by "FU<number> 0" and the zaids,
    negative for parents, positive for daughters *)
Theorem C50_track_contribution : forall key zaids w d ls n, dget str_eqb key (d_other d) = Some ls -> get_num_tally key = Ok n -> Forall (fun z => no_ws z /\ z <> []) zaids -> w <> BadWho ->
  exists d' ls', add_track_contribution key zaids w d = (d', None) /\ dget str_eqb key (d_other d') = Some ls' /\
    words ls' = words ls ++ kcat "FU" n :: s2l "0" :: map (fun z => match w with Parent => "-"%char :: z | _ => z end) zaids /\
    (forall k, k <> key -> dget str_eqb k (d_other d') = dget str_eqb k (d_other d)).
Proof. intros key zaids w d ls n G N Z NB. unfold add_track_contribution. rewrite G, N.
  assert (L : forall z, no_ws z -> z <> [] -> split (add_line z) = [z]). { intros z A B. unfold add_line. rewrite split_ws by (apply all_ws_repeat). rewrite split_nil_r by reflexivity. now apply split_one. }
  assert (FU : split (kcat "FU" n ++ s2l " 0" ++ [nl]) = [kcat "FU" n; s2l "0"]). { change (s2l " 0" ++ [nl]) with (sp :: s2l "0" ++ [nl]). rewrite split_app_ws by reflexivity. rewrite split_one; [reflexivity|apply kcat_ne|apply kcat_no_ws; repeat constructor]. }
  destruct w; [| |now elim NB]; (eexists; eexists; split; [reflexivity|]; split; [apply put_same|]; split; [|intros k Nk; now apply put_other]);
    rewrite !words_app, words_cons, FU; change (words []) with (@nil str); rewrite app_nil_r, <- app_assoc; f_equal; cbn [app]; do 2 f_equal; (induction Z as [|z zs [A B] _ IH]; [reflexivity|]); cbn [map]; rewrite words_cons, IH, L; try reflexivity; try assumption; try discriminate.
  constructor; [reflexivity|exact A]. Qed.
Print Assumptions C50_track_contribution.
(** the number is the one of the key: F14 -> FU14 *)
Theorem C50_track_number : forall p id rest, letters (s2l p) -> (0 <= id)%Z -> (match rest with c :: _ => is_digit c = false | [] => True end) -> get_num_tally (kcat p id ++ rest) = Ok id.
Proof. intros p id rest L P R. unfold get_num_tally, kcat. assert (F : first_digits ((s2l p ++ str_of_Z id) ++ rest) = Some (str_of_Z id)).
  { assert (DS : str_of_Z id = str_of_N (Z.to_N id)) by (destruct id; [reflexivity|reflexivity|lia]). rewrite DS, <- app_assoc.
    assert (ZD : first_digits (str_of_N (Z.to_N id) ++ rest) = Some (str_of_N (Z.to_N id))). { pose proof (str_of_N_digits (Z.to_N id)) as D. pose proof (str_of_N_ne (Z.to_N id)) as NE. remember (str_of_N (Z.to_N id)) as s eqn:Es. destruct s as [|c s]; [now elim NE|]. inversion D; subst. cbn [app first_digits]. rewrite H1. rewrite app_comm_cons, span_digits_app; [reflexivity|assumption|exact R]. }
    induction L as [|c l H _ IH]; [exact ZD|]. cbn [app first_digits]. destruct (is_digit c) eqn:E; [apply digit_not_letter in E; congruence|exact IH]. }
  rewrite F. f_equal. assert (DS : str_of_Z id = str_of_N (Z.to_N id)) by (destruct id; [reflexivity|reflexivity|lia]). rewrite DS, num_of_str. lia. Qed.
Print Assumptions C50_track_number.
(** a wrong "who" raises ValueError, but the FU line has already been added to the card *)
Theorem C50_bad_who_changes_the_card_refuted : forall key zaids d ls n, dget str_eqb key (d_other d) = Some ls -> get_num_tally key = Ok n ->
  exists d', add_track_contribution key zaids BadWho d = (d', Some ValueError) /\ dget str_eqb key (d_other d') = Some (ls ++ [kcat "FU" n ++ s2l " 0" ++ [nl]]).
Proof. intros key zaids d ls n G N. unfold add_track_contribution. rewrite G, N. eexists. split; [reflexivity|]. apply put_same. Qed.
Print Assumptions C50_bad_who_changes_the_card_refuted.
Example C50_witness : exists d', add_track_contribution (s2l "F14") [s2l "1001"; s2l "26056"] Parent (mkD [(s2l "F14", [s2l "F14:P 1"])] [14%Z]) = (d', None) /\
  map (fun kl => words (snd kl)) (d_other d') = [[s2l "F14:P"; s2l "1"; s2l "FU14"; s2l "0"; s2l "-1001"; s2l "-26056"]].
Proof. eexists. split; reflexivity. Qed.

(** ** C51 *)
(** the cards taken for the summary of a tally: F, letters, and exactly its number (F4, FC4, FM4 for
    4; not F14, F40 or FC14) *)
Theorem C51_cards_of_a_tally : forall idx d key, (0 <= idx)%Z -> (In key (get_tally_cards idx d) <-> In key (dkeys (d_other d)) /\ exists w, letters w /\ key = s2l "F" ++ w ++ str_of_Z idx).
Proof. intros idx d key P. unfold get_tally_cards. rewrite filter_In. assert (E : is_tally_card idx key = true <-> exists w, letters w /\ key = s2l "F" ++ w ++ str_of_Z idx).
  { unfold is_tally_card. destruct key as [|c r]; [split; [discriminate|intros [w [_ X]]; discriminate]|]. rewrite andb_true_iff, str_eqb_eq. split.
    - intros [A B]. apply Ascii.eqb_eq in A. subst c. exists (fst (LibModel.span_letters r)). clear P. 
      assert (SP : forall s, letters (fst (LibModel.span_letters s)) /\ s = fst (LibModel.span_letters s) ++ snd (LibModel.span_letters s)). { intros s. induction s as [|c s IH]; [split; [constructor|reflexivity]|]. cbn [LibModel.span_letters]. destruct (lett c) eqn:E; [|split; [constructor|reflexivity]]. destruct (LibModel.span_letters s) as [a b]. destruct IH as [I1 I2]. cbn [fst snd] in *. split; [now constructor|]. cbn [app]. now rewrite I2 at 1. }
      destruct (SP r) as [S1 S2]. split; [exact S1|]. rewrite <- B. cbn [s2l list_ascii_of_string app]. now rewrite <- S2.
    - intros [w [L X]]. injection X as -> ->. split; [reflexivity|]. rewrite span_letters_app; [reflexivity|exact L|]. destruct (str_of_Z_first idx) as [c [r [-> E]]]. exact E. }
  rewrite E. reflexivity. Qed.
Print Assumptions C51_cards_of_a_tally.
(** so a tally just added is found with its description and multiplier *)
Theorem C51_added_tally_is_found : forall wrap id p cells total energies desc mult sd d d', (0 <= id)%Z -> add_F_tally wrap id [p] cells total energies desc mult sd d = (d', None) ->
  In (kcat "F" id) (get_tally_cards id d') /\ (desc <> None -> In (kcat "FC" id) (get_tally_cards id d')) /\ (mult <> None -> In (kcat "FM" id) (get_tally_cards id d')).
Proof. intros wrap id p cells total energies desc mult sd d d' P H.
  assert (K : forall k ls, dget str_eqb k (d_other d') = Some ls -> In k (dkeys (d_other d'))). { intros k ls G. apply (dget_some_in str_eqb str_eqb_eq) in G. change k with (fst (k, ls)). now apply in_map. }
  destruct (C35_text_cards wrap id [p] cells total energies desc mult sd d d' H) as [T1 T2].
  assert (F : exists ls, dget str_eqb (kcat "F" id) (d_other d') = Some ls). { unfold add_F_tally in H. cbn [particles_text] in H. injection H as <-. eexists. rewrite peel_opt by kneq. rewrite peel_if by kneq. rewrite peel_opt by kneq. apply put_same. }
  split; [|split].
  - apply C51_cards_of_a_tally; [exact P|]. destruct F as [ls F]. split; [eapply K; exact F|]. exists []. split; [constructor|reflexivity].
  - intros N. destruct desc as [t|]; [|now elim N]. destruct (T1 t eq_refl) as [ls [G _]]. apply C51_cards_of_a_tally; [exact P|]. split; [eapply K; exact G|]. exists (s2l "C"). split; [repeat constructor|reflexivity].
  - intros N. destruct mult as [t|]; [|now elim N]. destruct (T2 t eq_refl) as [ls [G _]]. apply C51_cards_of_a_tally; [exact P|]. split; [eapply K; exact G|]. exists (s2l "M"). split; [repeat constructor|reflexivity]. Qed.
Print Assumptions C51_added_tally_is_found.
Example C51_witness : get_tally_cards 4 (mkD [(s2l "F4", []); (s2l "FC4", []); (s2l "F14", []); (s2l "FC14", []); (s2l "FM4", []); (s2l "F40", []); (s2l "SD4", [])] []) = [s2l "F4"; s2l "FC4"; s2l "FM4"].
Proof. reflexivity. Qed.
