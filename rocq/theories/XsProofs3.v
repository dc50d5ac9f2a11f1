(** Proofs for C85 and C86, continued: Serpent and OpenMC files line by line, unknown codes. *)
From Coq Require Import Lia ZArith.
From Verif Require Import PyBase PyLemmas PyStr PyStrLemmas PyFmtLemmas WWTextModel PyText D1SModel D1SSpec D1SProofs D1SProofs2 InpGeomProofs2 MeshModel MeshSpec MeshProofs MatProofs MatProofs2 LibModel XsModel XsSpec XsProofs XsProofs2.
Open Scope nat_scope.

Lemma serpent_nth : forall n lines i, length lines <= n -> nth_error (serpent_lines lines) i = nth_error lines (2 * i).
Proof. induction n as [|n IH]; intros lines i L.
  - destruct lines; [destruct i; reflexivity|cbn [length] in L; lia].
  - destruct lines as [|a [|b r]]; [destruct i; reflexivity|destruct i as [|[|i]]; reflexivity|]. cbn [serpent_lines]. destruct i as [|i]; [reflexivity|].
    replace (2 * S i) with (S (S (2 * i))) by lia. cbn [nth_error]. apply IH. cbn [length] in L. lia. Qed.
Lemma serpent_len : forall n lines, length lines <= n -> length (serpent_lines lines) = (length lines + 1) / 2.
Proof. induction n as [|n IH]; intros lines L; [destruct lines; [reflexivity|cbn [length] in L; lia]|].
  destruct lines as [|a [|b r]]; [reflexivity|reflexivity|]. cbn [serpent_lines length]. rewrite (IH r) by (cbn [length] in L; lia).
  replace (S (S (length r)) + 1) with (length r + 1 + 1 * 2) by lia. rewrite Nat.div_add by lia. lia. Qed.
Lemma key_split n : 4 <= length n -> exists c, n = fst (table_key n) ++ c :: snd (table_key n) /\ length (snd (table_key n)) = 3.
Proof. intros L. unfold table_key, last3. cbn [fst snd]. pose proof (firstn_skipn (length n - 4) n) as E. pose proof (skipn_length (length n - 4) n) as Lt. pose proof (firstn_length (length n - 4) n) as La.
  set (a := firstn (length n - 4) n) in *. set (t := skipn (length n - 4) n) in *. clearbody a t. destruct t as [|c t]; [cbn [length] in Lt; lia|]. cbn [length] in Lt. exists c.
  assert (Sk : skipn (length n - 3) n = t). { rewrite <- E at 2. rewrite skipn_app, skipn_all2 by lia. replace (length n - 3 - length a) with 1 by lia. reflexivity. }
  rewrite Sk. split; [now rewrite E|lia]. Qed.

Lemma serpent_read lines x : read_serpent lines = Ok x -> length x = (length lines + 1) / 2 /\
  forall i k, nth_error x i = Some k -> exists line n ws, nth_error lines (2 * i) = Some line /\ split line = n :: ws /\ 8 <= length ws /\
    (4 <= length n -> exists c, n = fst k ++ c :: snd k /\ length (snd k) = 3).
Proof. unfold read_serpent. destruct (mapM serpent_line (serpent_lines lines)) as [ns|] eqn:E; [|discriminate]. cbn [bind]. intros H.
  apply mapM_Forall2 in E. apply mapM_Forall2 in H. split.
  - rewrite <- (serpent_len (length lines) lines (le_n _)). clear - E H. assert (A : length (serpent_lines lines) = length ns) by (clear H; induction E; cbn [length]; congruence).
    rewrite A. clear A E. induction H; cbn [length]; congruence.
  - intros i k Hk. assert (B : exists n, nth_error ns i = Some (Some n) /\ k = table_key n).
    { clear E. revert i Hk. induction H as [|a b l m Hab H IH]; intros i Hk; [destruct i; discriminate|]. destruct i as [|i]; [|apply IH; exact Hk]. cbn [nth_error] in *. injection Hk as ->.
      destruct a as [n|]; [|discriminate]. exists n. split; [reflexivity|]. congruence. }
    destruct B as (n & Bn & ->). assert (C : exists line, nth_error (serpent_lines lines) i = Some line /\ serpent_line line = Ok (Some n)).
    { clear H Hk. revert i Bn. induction E as [|a b l m Hab E IH]; intros i Bn; [destruct i; discriminate|]. destruct i as [|i]; [|apply IH; exact Bn]. cbn [nth_error] in *. injection Bn as ->. exists a. auto. }
    destruct C as (line & C1 & C2). rewrite (serpent_nth (length lines)) in C1 by lia. exists line, n. unfold serpent_line in C2. destruct (split line) as [|n' ws] eqn:S; [discriminate|].
    exists ws. split; [exact C1|]. destruct (nth_error ws 4) as [a|]; [cbn [of_opt bind] in C2|discriminate]. destruct (parse_float a); [cbn [bind] in C2|discriminate].
    destruct (nth_error ws 7) as [f|] eqn:W7; [cbn [of_opt bind] in C2|discriminate]. destruct (nth_error ws 5) as [t|]; [cbn [of_opt bind] in C2|discriminate].
    destruct (parse_float t); [cbn [bind] in C2|discriminate]. injection C2 as ->. split; [reflexivity|]. split; [|apply key_split].
    assert (7 < length ws) by (apply nth_error_Some; congruence). lia. Qed.

(** *** OpenMC *)
Lemma on_equal_plain s : ~ In "="%char s -> on_equal s = [s].
Proof. induction s as [|c s IH]; intros N; [reflexivity|]. cbn [on_equal]. destruct (Ascii.eqb_spec c "="%char) as [->|E]; [exfalso; apply N; now left|]. rewrite IH by (intros I; apply N; now right). reflexivity. Qed.
Lemma on_equal_two k v : ~ In "="%char k -> ~ In "="%char v -> on_equal (k ++ "="%char :: v) = [k; v].
Proof. induction k as [|c k IH]; intros Nk Nv; cbn [app on_equal].
  - rewrite Ascii.eqb_refl, on_equal_plain by exact Nv. reflexivity.
  - destruct (Ascii.eqb_spec c "="%char) as [->|E]; [exfalso; apply Nk; now left|]. rewrite IH by (auto; intros I; apply Nk; now right). reflexivity. Qed.
Lemma noq_id s : Forall (fun c => c <> quote) s -> filter (fun c => negb (Ascii.eqb c quote)) s = s.
Proof. induction 1 as [|c s H _ IH]; [reflexivity|]. cbn [filter]. destruct (Ascii.eqb_spec c quote); [contradiction|]. cbn [negb]. now rewrite IH. Qed.
Definition unq (s : str) : str := filter (fun c => negb (Ascii.eqb c quote)) s.
Lemma unq_app a b : unq (a ++ b) = unq a ++ unq b. Proof. apply filter_app. Qed.
Lemma unq_attrs attrs : Forall (fun kv => plain_word (fst kv) /\ plain_word (snd kv)) attrs ->
  unq (concat (map attr_text attrs)) = concat (map (fun kv => (fst kv ++ "="%char :: snd kv) ++ [sp]) attrs).
Proof. induction 1 as [|[k v] l [K V] _ IH]; [reflexivity|]. cbn [map concat fst snd]. rewrite unq_app, IH. f_equal. unfold attr_text. cbn [fst snd].
  assert (P : forall s, plain_word s -> unq s = s). { intros s H. apply noq_id. eapply Forall_impl; [|exact H]. intros c (_ & Q & _). exact Q. }
  rewrite !unq_app, (P k K), (P v V). cbn [app]. now rewrite <- app_assoc. Qed.
Lemma split_attrs attrs x : Forall (fun kv => plain_word (fst kv) /\ plain_word (snd kv)) attrs ->
  split (concat (map (fun kv => (fst kv ++ "="%char :: snd kv) ++ [sp]) attrs) ++ x) = map (fun kv => fst kv ++ "="%char :: snd kv) attrs ++ split x.
Proof. induction 1 as [|[k v] l [K V] _ IH]; [reflexivity|]. cbn [map concat fst snd]. rewrite <- !app_assoc. cbn [app].
  assert (T : forall y, split ((k ++ "="%char :: v) ++ sp :: y) = (k ++ "="%char :: v) :: split y).
  { intros y. rewrite split_tok_then; [exact (f_equal (cons (k ++ "="%char :: v)) (split_app_ws [] sp y eq_refl))| |destruct k; discriminate|reflexivity].
    apply Forall_app. split; [eapply Forall_impl; [|exact K]; intros c (W & _); exact W|]. constructor; [reflexivity|]. eapply Forall_impl; [|exact V]. intros c (W & _). exact W. }
  specialize (T (concat (map (fun kv => (fst kv ++ "="%char :: snd kv) ++ [sp]) l) ++ x)). rewrite <- app_assoc in T. cbn [app] in T. rewrite T. f_equal. exact IH. Qed.
Lemma fold_attrs : forall attrs d, Forall (fun kv => plain_word (fst kv) /\ plain_word (snd kv)) attrs ->
  fold_left (fun d p => match on_equal p with k :: v :: _ => dset str_eqb k v d | _ => d end) (map (fun kv => fst kv ++ "="%char :: snd kv) attrs) d =
  fold_left (fun d kv => dset str_eqb (fst kv) (snd kv) d) attrs d.
Proof. intros attrs d H. revert d. induction H as [|[k v] l [K V] _ IH]; intros d; [reflexivity|]. cbn [map fold_left fst snd].
  rewrite on_equal_two; [apply IH| |]; intros I; [unfold plain_word in K; rewrite Forall_forall in K; destruct (K _ I) as (_ & _ & E)|unfold plain_word in V; rewrite Forall_forall in V; destruct (V _ I) as (_ & _ & E)]; congruence. Qed.
Lemma fold_get : forall (attrs d : list (str * str)) k, NoDup (map fst attrs) -> (forall v, In (k, v) attrs -> dget str_eqb k (fold_left (fun d kv => dset str_eqb (fst kv) (snd kv) d) attrs d) = Some v) /\
  (~ In k (map fst attrs) -> dget str_eqb k (fold_left (fun d kv => dset str_eqb (fst kv) (snd kv) d) attrs d) = dget str_eqb k d).
Proof. induction attrs as [|[k' v'] l IH]; intros d k N; [split; [contradiction|reflexivity]|]. cbn [map fst] in N. inversion N as [|? ? N1 N2]; subst. cbn [fold_left fst snd map].
  destruct (IH (dset str_eqb k' v' d) k N2) as [A B]. split.
  - intros v [E|I]; [|now apply A]. injection E as -> ->. rewrite B by exact N1. apply (dget_dset_same str_eqb str_eqb_eq).
  - intros H. rewrite B by (intros I; apply H; now right). apply (dget_dset_other str_eqb str_eqb_eq). intros ->. apply H. now left. Qed.

Lemma lib_line attrs zaid_of : Forall (fun kv => plain_word (fst kv) /\ plain_word (snd kv)) attrs ->
  openmc_line zaid_of (library_line attrs) = let data := fold_left (fun d kv => dset str_eqb (fst kv) (snd kv) d) attrs [] in
    do t <- of_opt KeyError (dget str_eqb (s2l "type") data);
    if str_eqb t (s2l "neutron") then
      do m <- of_opt KeyError (dget str_eqb (s2l "materials") data);
      do z <- zaid_of m;
      do p <- of_opt KeyError (dget str_eqb (s2l "path") data); Ok tt
    else Ok tt.
Proof. intros H. unfold openmc_line. assert (M : has "<library" (library_line attrs) = true).
  { apply has_iff. exists (s2l "  "), (sp :: concat (map attr_text attrs) ++ s2l "/>" ++ [nl]). reflexivity. }
  rewrite M. fold (unq (library_line attrs)). unfold library_line. rewrite !unq_app, (unq_attrs attrs H).
  assert (S : split (unq (s2l "  <library ") ++ concat (map (fun kv => (fst kv ++ "="%char :: snd kv) ++ [sp]) attrs) ++ unq (s2l "/>") ++ unq [nl]) = s2l "<library" :: map (fun kv => fst kv ++ "="%char :: snd kv) attrs ++ [s2l "/>"]).
  { change (unq (s2l "  <library ")) with (s2l "  <library" ++ [sp]). rewrite <- app_assoc. cbn [app]. rewrite split_app_ws by reflexivity. rewrite split_attrs by exact H. reflexivity. }
  rewrite S. cbv zeta. cbn [fold_left]. change (on_equal (s2l "<library")) with [s2l "<library"]. cbv iota. rewrite fold_left_app. cbn [fold_left]. change (on_equal (s2l "/>")) with [s2l "/>"]. cbv iota.
  pose proof (fold_attrs attrs [] H) as FA. match goal with |- context [fold_left ?g ?l []] => change (fold_left g l []) with (fold_left (fun d p => match on_equal p with k :: v :: _ => dset str_eqb k v d | _ => d end) (map (fun kv => fst kv ++ "="%char :: snd kv) attrs) ([] : list (str * str))) end.
  rewrite FA. reflexivity. Qed.
Lemma openmc_attr attrs zaid_of : Forall (fun kv => plain_word (fst kv) /\ plain_word (snd kv)) attrs -> NoDup (map fst attrs) ->
  (forall t, In (s2l "type", t) attrs -> t <> s2l "neutron" -> openmc_line zaid_of (library_line attrs) = Ok tt) /\
  (forall m p, In (s2l "type", s2l "neutron") attrs -> In (s2l "materials", m) attrs -> In (s2l "path", p) attrs ->
     openmc_line zaid_of (library_line attrs) = match zaid_of m with Ok _ => Ok tt | Err e => Err e end) /\
  (~ In (s2l "type") (map fst attrs) -> openmc_line zaid_of (library_line attrs) = Err KeyError) /\
  (In (s2l "type", s2l "neutron") attrs -> ~ In (s2l "materials") (map fst attrs) -> openmc_line zaid_of (library_line attrs) = Err KeyError).
Proof. intros H N. rewrite lib_line by exact H. cbv zeta. pose proof (fun k => fold_get attrs [] k N) as G. split; [|split; [|split]].
  - intros t I Nt. rewrite (proj1 (G (s2l "type")) t I). cbn [of_opt bind]. destruct (str_eqb t (s2l "neutron")) eqn:E; [|reflexivity]. apply str_eqb_eq in E. contradiction.
  - intros m p It Im Ip. rewrite (proj1 (G (s2l "type")) _ It), (proj1 (G (s2l "materials")) _ Im), (proj1 (G (s2l "path")) _ Ip). cbn [of_opt bind]. rewrite str_eqb_refl. destruct (zaid_of m); reflexivity.
  - intros It. rewrite (proj2 (G (s2l "type")) It). reflexivity.
  - intros It Im. rewrite (proj1 (G (s2l "type")) _ It), (proj2 (G (s2l "materials")) Im). cbn [of_opt bind]. rewrite str_eqb_refl. reflexivity. Qed.

(** *** codes that are not known *)
Lemma load_unknown open_ code : mcnp_type code = false -> code <> s2l "openmc" -> forall rows s,
  Forall (fun r => exists p, dget str_eqb code (c_paths r) = Some p) rows -> (exists r p, In r rows /\ dget str_eqb code (c_paths r) = Some p /\ p <> []) ->
  foldM (load_row open_ code) s rows = Err ValueError.
Proof. intros M O. assert (Ob : str_eqb code (s2l "openmc") = false) by (destruct (str_eqb code (s2l "openmc")) eqn:E; [apply str_eqb_eq in E; contradiction|reflexivity]).
  induction rows as [|r rows IH]; intros s F (r' & p' & I & D & N'); [contradiction|]. inversion F as [|? ? [p Hp] F']; subst. cbn [foldM]. destruct s as [[prev cur] d].
  destruct (str_eqb p []) eqn:E.
  - unfold load_row at 1. cbv beta iota zeta. rewrite Hp. cbn [of_opt bind]. rewrite E. cbn [bind]. apply IH; [exact F'|].
    destruct I as [->|I]; [|exists r', p'; auto]. rewrite Hp in D. injection D as ->. apply str_eqb_eq in E. contradiction.
  - unfold load_row at 1. cbv beta iota zeta. rewrite Hp. cbn [of_opt bind]. rewrite E, M, Ob. reflexivity. Qed.
Lemma unknown_code open_ code before rows : ~ In code (map (fun c => s2l c) ["mcnp"; "d1s"; "serpent"; "openmc"]%string) ->
  Forall (fun r => exists p, dget str_eqb code (c_paths r) = Some p) rows -> (exists r p, In r rows /\ dget str_eqb code (c_paths r) = Some p /\ p <> []) ->
  (exists s, foldM (load_code open_ rows) ((s2l "dummy", None), []) before = Ok s) -> forall after, load_data open_ (before ++ code :: after) rows = Err ValueError.
Proof. intros NC F P [[st data] B] after. unfold load_data.
  assert (M : mcnp_type code = false). { unfold mcnp_type. destruct (memb str_eqb code _) eqn:E; [|reflexivity]. apply memb_str in E. exfalso. apply NC. cbn [map In] in *. intuition congruence. }
  assert (O : code <> s2l "openmc") by (intros ->; apply NC; cbn [map In]; auto).
  assert (G : forall l s s', foldM (load_code open_ rows) s l = Ok s' -> foldM (load_code open_ rows) s (l ++ code :: after) = foldM (load_code open_ rows) s' (code :: after)).
  { induction l as [|c l IH]; intros s s' E; [cbn [foldM] in E; injection E as <-; reflexivity|]. cbn [app foldM] in *. destruct (load_code open_ rows s c) as [s1|]; [|discriminate]. cbn [bind] in *. now apply IH. }
  rewrite (G before _ _ B). cbn [foldM]. unfold load_code at 1. rewrite (load_unknown open_ code M O rows _ F P). reflexivity. Qed.

(** *** the libraries of OpenMC *)
Lemma openmc_rows open_ rows : NoDup (map c_lib rows) ->
  (forall r, In r rows -> exists p, Path (s2l "openmc") r p /\ (p = [] \/ exists x, open_ (s2l "openmc") p = Ok x)) -> forall st d, (forall l x, dget str_eqb l d = Some x -> ~ In l (map c_lib rows)) ->
  exists d', foldM (load_row open_ (s2l "openmc")) (st, d) rows = Ok (st, d')
    /\ forall l x, dget str_eqb l d' = Some x <-> dget str_eqb l d = Some x \/ exists r p, In r rows /\ c_lib r = l /\ Path (s2l "openmc") r p /\ p <> [] /\ open_ (s2l "openmc") p = Ok x.
Proof.
  induction rows as [|r rows IH]; intros ND H st d Hd.
  - exists d. split; [reflexivity|]. intros l x. split; [auto|intros [X|(r & p & [] & _)]; exact X].
  - cbn [map] in ND. inversion ND as [|? ? N1 N2]; subst. destruct (H r (or_introl eq_refl)) as (p & P & O). destruct st as [prev cur].
    assert (Hr : forall r', In r' rows -> exists p, Path (s2l "openmc") r' p /\ (p = [] \/ exists x, open_ (s2l "openmc") p = Ok x)) by (intros r' I; apply H; right; exact I).
    assert (Step : exists d1, load_row open_ (s2l "openmc") ((prev, cur), d) r = Ok ((prev, cur), d1)
      /\ forall l x, dget str_eqb l d1 = Some x <-> dget str_eqb l d = Some x \/ (c_lib r = l /\ p <> [] /\ open_ (s2l "openmc") p = Ok x)).
    { unfold load_row. unfold Path in P. rewrite P. cbn [of_opt bind]. destruct (str_eqb p []) eqn:E.
      - apply str_eqb_eq in E. exists d. split; [reflexivity|]. intros l x. split; [auto|intros [X|(_ & X & _)]; [exact X|contradiction]].
      - assert (Np : p <> []) by (intros ->; discriminate E). destruct O as [X|(x & O)]; [contradiction|].
        change (mcnp_type (s2l "openmc")) with false. change (str_eqb (s2l "openmc") (s2l "openmc")) with true. cbv iota. rewrite O. cbn [bind].
        eexists. split; [reflexivity|]. intros l y. destruct (str_eqb (c_lib r) l) eqn:El.
        + apply str_eqb_eq in El. subst l. rewrite (dget_dset_same str_eqb str_eqb_eq). split.
          * intros X. injection X as <-. right. auto.
          * intros [X|(_ & _ & X)]; [exfalso; apply (Hd _ _ X); left; reflexivity|congruence].
        + assert (Nl : l <> c_lib r) by (intros ->; rewrite str_eqb_refl in El; discriminate El). rewrite (dget_dset_other str_eqb str_eqb_eq) by exact Nl.
          split; [auto|intros [X|(X & _)]; [exact X|congruence]]. }
    destruct Step as (d1 & E1 & G1). change (foldM (load_row open_ (s2l "openmc")) (prev, cur, d) (r :: rows)) with (do a <- load_row open_ (s2l "openmc") (prev, cur, d) r; foldM (load_row open_ (s2l "openmc")) a rows). rewrite E1. cbn [bind].
    destruct (IH N2 Hr (prev, cur) d1) as (d' & E' & G').
    { intros l x X. apply G1 in X. destruct X as [X|(X & _)]; [pose proof (Hd l x X) as Y; intros I; apply Y; right; exact I|subst l; exact N1]. }
    exists d'. split; [exact E'|]. intros l x. rewrite G', G1. split.
    + intros [[X|(A & B & C)]|(r' & p' & A & B)]; [auto|right; exists r, p; split; [left; reflexivity|auto]|right; exists r', p'; split; [right; exact A|exact B]].
    + intros [X|(r' & p' & [<-|A] & B & C & D & F)]; [auto|left; right; unfold Path in *; rewrite P in C; injection C as <-; auto|right; exists r', p'; auto].
Qed.
Lemma openmc_libraries open_ rows : NoDup (map c_lib rows) ->
  (forall r, In r rows -> exists p, Path (s2l "openmc") r p /\ (p = [] \/ exists x, open_ (s2l "openmc") p = Ok x)) ->
  exists d, load_data open_ [s2l "openmc"] rows = Ok [(s2l "openmc", d)]
    /\ forall l x, dget str_eqb l d = Some x <-> exists r p, In r rows /\ c_lib r = l /\ Path (s2l "openmc") r p /\ p <> [] /\ open_ (s2l "openmc") p = Ok x.
Proof.
  intros ND H. destruct (openmc_rows open_ rows ND H (s2l "dummy", None) []) as (d & E & G); [intros l x X; discriminate X|].
  exists d. split.
  - unfold load_data. cbn [foldM]. unfold load_code at 1. rewrite E. reflexivity.
  - intros l x. rewrite G. split; [intros [X|X]; [discriminate X|exact X]|auto].
Qed.
