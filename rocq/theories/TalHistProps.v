(** Theorems about the lists of tallies of an input over its life (C112). *)
From Coq Require Import Lia ZArith Permutation.
From Verif Require Import PyBase PyLemmas PyStr PyStrLemmas PyText D1SProofs2 LibModel MatModel MatProofs MatProofs2 InpModel InpGeomSpec InpGeomProofs2 DataModel DataSpec DataProofs DataProofs2 DataProps TalSumModel TalSumSpec TalSumProofs HelpSpec TalHistModel TalHistSpec TalHistProofs.
Open Scope nat_scope.

(** Whatever an input went through (read, tallies added, inputs merged), it lists a tally exactly when it has its card, and a
    mesh exactly when it has its card. *)
Theorem C112_lists_follow_the_cards : forall wrap l t, sound_life l -> live wrap l = Ok t ->
  (forall n, In n (ti_tallies t) <-> (0 <= n)%Z /\ In (kcat "F" n) (dkeys (ti_other t))) /\
  (forall n, In n (ti_meshes t) <-> (0 <= n)%Z /\ In (kcat "FMESH" n) (dkeys (ti_other t))).
Proof. exact life_inv. Qed.
Print Assumptions C112_lists_follow_the_cards.
(** The numbers are those read from the cards, in order, then those added and merged. *)
Theorem C112_numbers_in_order : forall wrap l t, live wrap l = Ok t -> given l (ti_tallies t) /\ given_meshes l (ti_meshes t).
Proof. exact life_given. Qed.
Print Assumptions C112_numbers_in_order.
(** A mesh is known by its name. *)
Theorem C112_names_of_meshes : forall key, pat_fmesh key = true <-> mesh_name key.
Proof. exact fmesh_name. Qed.
Print Assumptions C112_names_of_meshes.
(** Cards that are parsed right are all read; a tally without number is refused. *)
Theorem C112_reading : forall cards, (Forall right cards -> exists t, read_tallies cards = Ok t /\ ti_other t = map (fun kc => (fst kc, rc_lines (snd kc))) cards) /\
  (forall kc, In kc cards -> rc_fn (snd kc) = true \/ mesh_name (fst kc) -> rc_name (snd kc) = None -> read_tallies cards = Err AttributeError).
Proof.
  intros cards. split.
  - intros R. destruct (list_cards_ok cards R ([], [])) as [l E]. unfold read_tallies. rewrite E. cbn [bind]. eexists. split; reflexivity.
  - intros kc I D N. unfold read_tallies. assert (E : forall l, foldM list_card l cards = Err AttributeError); [|rewrite E; reflexivity].
    induction cards as [|x cards IH]; [destruct I|]. intros l. cbn [foldM]. destruct I as [->|I].
    + unfold list_card at 1. rewrite N. destruct (rc_fn (snd kc)); [reflexivity|]. destruct D as [D|D]; [discriminate D|]. apply fmesh_name in D. rewrite D. reflexivity.
    + unfold list_card at 1. destruct (rc_fn (snd x)); [destruct (rc_name (snd x)); [apply (IH I)|reflexivity]|]. destruct (pat_fmesh (fst x)); [destruct (rc_name (snd x)); [apply (IH I)|reflexivity]|apply (IH I)].
Qed.
Print Assumptions C112_reading.
(** After a merge the cards are those of both, those of the other input where both have one. *)
Theorem C112_cards_of_a_merge : forall a b k, NoDup (dkeys (ti_other b)) ->
  dget str_eqb k (ti_other (merge_tallies a b)) = match dget str_eqb k (ti_other b) with Some v => Some v | None => dget str_eqb k (ti_other a) end.
Proof. exact merge_get. Qed.
Print Assumptions C112_cards_of_a_merge.
(** The tally that was added last has the cards it was asked for, as in C35, and every other card is the one before. *)
Theorem C112_last_tally : forall wrap, (forall ls, words (wrap ls) = words ls) -> forall x l t0 t, live wrap l = Ok t0 -> live wrap (Add x l) = Ok t ->
  (forall p, a_particles x = [p] -> no_ws p -> exists ls, dget str_eqb (kcat "F" (a_id x)) (ti_other t) = Some ls /\
     words ls = (kcat "F" (a_id x) ++ ":"%char :: p) :: concat (map split (a_cells x)) ++ (if a_total x then [s2l "T"] else [])) /\
  (forall d, a_desc x = Some d -> exists ls, dget str_eqb (kcat "FC" (a_id x)) (ti_other t) = Some ls /\ words ls = kcat "FC" (a_id x) :: split d) /\
  (forall m, a_mult x = Some m -> exists ls, dget str_eqb (kcat "FM" (a_id x)) (ti_other t) = Some ls /\ words ls = kcat "FM" (a_id x) :: split m) /\
  (forall es, a_energies x = Some es -> exists ls ws, dget str_eqb (kcat "E" (a_id x)) (ti_other t) = Some ls /\ words ls = kcat "E" (a_id x) :: ws /\ length ws = length es) /\
  (a_sd x = true -> a_cells x <> [] -> exists ls, dget str_eqb (kcat "SD" (a_id x)) (ti_other t) = Some ls /\
     card_values ls = Some (repeat (s2l "1") (length (a_cells x) + (if a_total x then 1 else 0)))) /\
  (forall k, k <> kcat "F" (a_id x) -> (a_desc x <> None -> k <> kcat "FC" (a_id x)) -> (a_energies x <> None -> k <> kcat "E" (a_id x)) ->
     (a_sd x = true -> k <> kcat "SD" (a_id x)) -> (a_mult x <> None -> k <> kcat "FM" (a_id x)) -> dget str_eqb k (ti_other t) = dget str_eqb k (ti_other t0)).
Proof.
  intros wrap W x l t0 t H0 H. cbn [live] in H. rewrite H0 in H. cbn [bind] in H. unfold add_tally in H.
  destruct (add_F_tally wrap (a_id x) (a_particles x) (a_cells x) (a_total x) (a_energies x) (a_desc x) (a_mult x) (a_sd x) (mkD (ti_other t0) (ti_tallies t0))) as [d' [e|]] eqn:A; [discriminate H|]. apply RssaProofs2.Ok_inj in H. subst t. cbn [ti_other].
  split; [|split; [|split; [|split; [|split]]]].
  - intros p P N. rewrite P in A. destruct (C35_tally_card wrap W (a_id x) p [] (a_cells x) (a_total x) (a_energies x) (a_desc x) (a_mult x) (a_sd x) (mkD (ti_other t0) (ti_tallies t0)) N ltac:(intros c X; discriminate X) (or_introl eq_refl)) as (d2 & ls & A2 & G & _ & L). pose proof (eq_trans (eq_sym A) A2) as A3. apply pair_equal_spec in A3. destruct A3 as [<- _]. exists ls. split; [exact G|exact L].
  - exact (proj1 (C35_text_cards wrap _ _ _ _ _ _ _ _ _ _ A)).
  - exact (proj2 (C35_text_cards wrap _ _ _ _ _ _ _ _ _ _ A)).
  - intros es E. rewrite E in A. destruct (C35_energy_card wrap W _ _ _ _ _ _ _ _ _ _ A) as (ls & ws & G & L & F). exists ls, ws. split; [exact G|]. split; [exact L|]. clear - F. induction F; cbn; congruence.
  - intros E N. rewrite E in A. destruct (C35_divisors wrap _ _ _ _ _ _ _ _ _ A (or_introl N)) as (ls & G & _ & C). exists ls. auto.
  - exact (C35_rest_unchanged wrap _ _ _ _ _ _ _ _ _ _ A).
Qed.
Print Assumptions C112_last_tally.
(** The summary has one row for each entry of the list. *)
Theorem C112_summary_numbers : forall repr fmesh t rows, get_tally_summary repr fmesh (ti_other t) (ti_tallies t) (ti_meshes t) = Ok rows ->
  Permutation (map r_tally rows) (if fmesh then ti_meshes t else ti_tallies t).
Proof.
  intros repr fmesh t rows H. destruct (summary_rows _ _ _ _ _ _ H) as (rs & P & F). rewrite (Permutation_map r_tally P). clear - F. induction F as [|n r ns rs X _ IH]; cbn [map]; [constructor|]. rewrite (row_tally _ _ _ _ _ X). now constructor.
Qed.
Print Assumptions C112_summary_numbers.
(** A tally that two merged inputs both have is listed twice, with the same row, made of the cards of the second one. *)
Theorem C112_tally_of_both_refuted : forall repr a b n rows, In n (ti_tallies a) -> In n (ti_tallies b) ->
  get_tally_summary repr false (ti_other (merge_tallies a b)) (ti_tallies (merge_tallies a b)) (ti_meshes (merge_tallies a b)) = Ok rows ->
  exists r l, tally_row repr "F" (ti_other (merge_tallies a b)) n = Ok r /\ r_tally r = n /\ Permutation rows (r :: r :: l).
Proof.
  intros repr a b n rows A B H. destruct (summary_rows _ _ _ _ _ _ H) as (rs & P & F). cbn [merge_tallies ti_tallies] in F.
  destruct (F2_split _ n _ _ A B (fun r r' X Y => RssaProofs2.Ok_inj _ _ (eq_trans (eq_sym X) Y)) rs F) as (r & l & X & Q). exists r, l. split; [exact X|]. split; [exact (row_tally _ _ _ _ _ X)|]. now rewrite P.
Qed.
Print Assumptions C112_tally_of_both_refuted.
(** A tally without particles is refused, but stays in the list; its row is empty. *)
Theorem C112_refused_tally_refuted : forall wrap x t, a_particles x = [] ->
  add_tally wrap x t = (mkT (ti_other t) (ti_tallies t ++ [a_id x]) (ti_meshes t), Some IndexError).
Proof. intros wrap x t E. unfold add_tally, add_F_tally. rewrite E. reflexivity. Qed.
Print Assumptions C112_refused_tally_refuted.
(** Updating the keys keeps the lists of tallies and meshes; the cards are then found under their first words, each of them when no
    other card has its first word, and nothing else is found. *)
Theorem C112_updated_keys : forall t t', update_keys t = Ok t' ->
  ti_tallies t' = ti_tallies t /\ ti_meshes t' = ti_meshes t
  /\ (forall k ls, dget str_eqb k (ti_other t') = Some ls -> FirstWord ls k /\ exists k0, In (k0, ls) (ti_other t))
  /\ (forall k0 ls, In (k0, ls) (ti_other t) -> exists k, FirstWord ls k
       /\ ((forall k1 l1, In (k1, l1) (ti_other t) -> FirstWord l1 k -> l1 = ls) -> dget str_eqb k (ti_other t') = Some ls)).
Proof.
  intros t t' H. destruct (update_lists _ _ H) as [A B]. destruct (update_cards _ _ H) as [C D]. split; [exact A|]. split; [exact B|]. split.
  - intros k ls F. destruct (C k ls F) as (k0 & I & K). split; [apply first_word; exact K|eauto].
  - intros k0 ls I. destruct (D k0 ls I) as (k & ls' & K & F & U). exists k. split; [apply first_word; exact K|]. intros V. rewrite F, U; [reflexivity|].
    intros k1 l1 I1 K1. apply (V k1 l1 I1), first_word. exact K1.
Qed.
Print Assumptions C112_updated_keys.
(** It succeeds exactly when every card has a first word. *)
Theorem C112_updated_keys_exist : forall t, (exists t', update_keys t = Ok t') <-> forall k ls, In (k, ls) (ti_other t) -> exists k', FirstWord ls k'.
Proof. exact update_total. Qed.
Print Assumptions C112_updated_keys_exist.
Example C112_witness_keys : exists t', update_keys (mkT [(s2l "F4", [s2l "F4:n 1 2"]); (s2l "NPS", [s2l "c text"; s2l "NPS 10"])] [4%Z] [14%Z]) = Ok t' /\ dkeys (ti_other t') = [s2l "F4:N"; s2l "NPS"].
Proof. eexists. split; vm_compute; reflexivity. Qed.
(** Updating the keys (renumber or merge, when asked) puts a tally under the first word of its card, particles included; it is
    still in the list, but no longer found: its row is empty. *)
Theorem C112_updated_keys_refuted : forall repr n p r, (0 <= n)%Z -> Forall (fun c => is_ws c = false) p -> ~ In nl r ->
  exists d, update_keys (mkT [(kcat "F" n, [kcat "F" n ++ ":"%char :: p ++ sp :: r])] [n] []) = Ok (mkT d [n] []) /\
    dkeys d = [kcat "F" n ++ ":"%char :: upper p] /\ get_tally_summary repr false d [n] [] = Ok [mkTR n None None None None].
Proof.
  intros repr n p r P W NR. set (w := kcat "F" n ++ ":"%char :: p). set (ls := [kcat "F" n ++ ":"%char :: p ++ sp :: r]).
  assert (NW : no_ws w). { unfold w. apply Forall_app. split; [exact (kcat_no_ws _ _ kF)|]. constructor; [reflexivity|exact W]. }
  assert (L : kcat "F" n ++ ":"%char :: p ++ sp :: r = w ++ sp :: r) by (unfold w; rewrite <- app_assoc; reflexivity).
  assert (FN : filter (fun c => negb (Ascii.eqb c nl)) (w ++ sp :: r) = w ++ sp :: r).
  { assert (G : ~ In nl (w ++ sp :: r)). { rewrite in_app_iff. cbn [In]. intros [X|[X|X]]; [|discriminate X|contradiction]. unfold no_ws in NW. rewrite Forall_forall in NW. specialize (NW _ X). discriminate NW. }
    clear - G. induction (w ++ sp :: r) as [|c s IH]; [reflexivity|]. cbn [filter]. destruct (Ascii.eqb_spec c nl) as [->|N]; [destruct G; left; reflexivity|]. cbn [negb]. f_equal. apply IH. intros X. apply G. right. exact X. }
  assert (UW : upper w = kcat "F" n ++ ":"%char :: upper p).
  { unfold w. rewrite upper_app. cbn [upper map]. unfold kcat. rewrite upper_app, (upper_digits (str_of_Z n)) by exact (proj2 (str_of_Z_digits n P)). reflexivity. }
  assert (K : data_key ls = Ok (upper w)).
  { unfold data_key, ls. cbn [map]. rewrite L, FN. assert (SP : split (w ++ sp :: r) = w :: split r) by (rewrite split_app_ws by reflexivity; rewrite (split_tok_end w); [reflexivity|exact NW|unfold w, kcat; discriminate]).
    assert (EW : exists y, w ++ sp :: r = "F"%char :: y) by (unfold w, kcat; eexists; reflexivity). destruct EW as [y EW]. rewrite EW in *. cbn [key_of_lines]. rewrite SP. replace (pat_comment (("F"%char :: y) ++ [nl])) with false; [reflexivity|]. unfold pat_comment. cbn [app]. destruct (y ++ [nl]); reflexivity. }
  exists [(upper w, ls)]. split; [unfold update_keys; cbn [ti_other ti_tallies ti_meshes foldM snd]; rewrite K; reflexivity|]. split; [cbn [dkeys map fst]; rewrite UW; reflexivity|].
  unfold get_tally_summary. cbn [mapM]. unfold tally_row, get_tally_cards. cbn [d_other dkeys map fst filter].
  assert (T : is_tally_card n (upper w) = false).
  { rewrite UW. change (is_tally_card n ("F"%char :: str_of_Z n ++ ":"%char :: upper p) = false). cbn [is_tally_card]. change (Ascii.eqb "F" "F") with true. cbn [andb].
    destruct (str_of_Z_digits n P) as [A B]. assert (SL : LibModel.span_letters (str_of_Z n ++ ":"%char :: upper p) = ([], str_of_Z n ++ ":"%char :: upper p)).
    { apply (DataProofs.span_letters_app []); [constructor|]. destruct (str_of_Z n) as [|c s]; [congruence|]. cbn [app]. apply digit_not_letter. inversion B; assumption. }
    rewrite SL. cbn [snd]. apply str_eqb_neq. intros X. apply (f_equal (@length _)) in X. rewrite app_length in X. cbn [length] in X. lia. }
  rewrite T. cbn [foldM i_mult i_particle i_desc bind sort_rows fold_right insert_row]. reflexivity.
Qed.
Print Assumptions C112_updated_keys_refuted.

(** ** a case *)
Definition ex_cards : list (str * rcard) :=
  [(s2l "F4", mkRC [s2l "F4:n 1 2"] true (Some 4%Z)); (s2l "FC4", mkRC [s2l "FC4 flux"] false None); (s2l "FMESH14", mkRC [s2l "FMESH14:n GEOM=XYZ"] false (Some 14%Z)); (s2l "NPS", mkRC [s2l "NPS 10"] false None)].
Definition ex_life : life := Merge (Add (mkTA 24 [s2l "n"; s2l "p"] [s2l "7"] true None (Some (s2l "heat")) None true) (Stop 1000 (Read ex_cards))) (Read [(s2l "F34", mkRC [s2l "F34:p 3"] true (Some 34%Z))]).
Example C112_witness : sound_life ex_life /\ exists t, live (fun ls => ls) ex_life = Ok t /\ ti_tallies t = [4; 24; 34]%Z /\ ti_meshes t = [14]%Z /\ length (ti_other t) = 8.
Proof.
  split; [|eexists; split; [vm_compute; reflexivity|]; auto]. split; [split; [cbn; lia|]|]; cbn [sound_life].
  - constructor; [exact (right_tally 4 _ ltac:(lia))|]. constructor; [exact (right_other "FC" 4 _ kFC ltac:(discriminate) ltac:(discriminate))|]. constructor; [exact (right_mesh 14 _ ltac:(lia))|].
    constructor; [|constructor]. split; [split; [discriminate|intros (m & _ & E); discriminate E]|]. split; [intros m _ [E|E]; discriminate E|intros (d & r & E & _); discriminate E].
  - constructor; [exact (right_tally 34 _ ltac:(lia))|constructor].
Qed.
