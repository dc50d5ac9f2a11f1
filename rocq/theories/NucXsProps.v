(** C119: the continuous-energy cross sections of a nuclide. *)
From Coq Require Import Lia ZArith Qabs Lqa.
From Verif Require Import PyBase PyLemmas PyStr PyStrLemmas PyFmtLemmas D1SProofs2 MatProofs MatProofs2 OutProofs AceModel AceProofs NucXsModel NucXsSpec NucXsProofs NucXsProofs2.
Open Scope nat_scope.

(** C119.  The table used is that of the available temperature nearest to the one asked for. *)
Theorem C119_temperature : forall k t zs, (0 < k)%Q -> zs <> [] ->
  exists z, pick_temp k t (map temp_name zs) = Ok (temp_name z) /\ Nearest t (map temp_name zs) z.
Proof. exact pick_nearest. Qed.
Print Assumptions C119_temperature.

(** A nuclide that answers gives the energies of its total cross section at that temperature and one function per type; ... *)
Theorem C119_answer : forall sum_rules names k n types t es fs, nuclide_xs sum_rules names k n types t = Ok (es, fs) ->
  exists r1 temp f1, n_rx n 1%Z = Some r1 /\ pick_temp k t (map fst (r_xs r1)) = Ok temp /\ dget str_eqb temp (r_xs r1) = Some (es, f1) /\ length fs = length types
  (** ... for a type without the decrement its value, at every energy where the reactions of the type have one, is the sum of what
      they bring, and 0 if there is none; *)
  /\ (forall i ty mts nu x vs, nth_error types i = Some ty -> Asked sum_rules names n ty mts nu -> ~ In (-2)%Z mts -> Forall2 (Contribution n temp nu x) mts vs ->
        exists f v, nth_error fs i = Some f /\ f x = Ok v /\ (v == qsum vs)%Q)
  (** and for the slowing-down power that sum times what the decrement brings. *)
  /\ (forall i mts ms nu x vs w, nth_error types i = Some (TName (s2l "slowing-down power")) -> Asked sum_rules names n (TName (s2l "slowing-down power")) mts nu ->
        mts = ms ++ [(-2)%Z] -> ms <> [] -> Forall2 (Contribution n temp nu x) ms vs -> Contribution n temp nu x (-2)%Z w ->
        exists f v, nth_error fs i = Some f /\ f x = Ok v /\ (v == qsum vs * w)%Q).
Proof.
  intros sum_rules names k n types t es fs H. destruct (answer _ _ _ _ _ _ _ _ H) as (r1 & temp & f1 & R & P & D & ps & M & M'). exists r1, temp, f1.
  destruct (answer_type _ _ _ _ _ _ _ M M') as [L T]. split; [exact R|]. split; [exact P|]. split; [exact D|]. split; [exact L|]. split.
  - intros i ty mts nu x vs Ht A NX C. destruct (T i ty Ht) as (mts' & nu' & gs & A' & G & F). destruct (asked_fun _ _ _ _ _ _ _ _ A A') as [-> ->].
    destruct (contributions_fns _ _ _ _ _ _ G vs C) as (ws & W & S).
    assert (O : ops_of ty sum_rules mts = repeat op_add (length mts - 1)). { destruct ty as [line| |]; cbn [ops_of]; [|reflexivity|reflexivity]. destruct (dget str_eqb line (plot_types sum_rules)); [|reflexivity]. destruct (memb Z.eqb XI_MT mts) eqn:B; [|reflexivity]. exfalso. apply NX. apply (memb_in Z.eqb Z.eqb_eq) in B. exact B. }
    rewrite O in F. destruct gs as [|g gs].
    + inversion G; subst. inversion C; subst. eexists _, 0%Q. split; [exact F|]. split; [reflexivity|]. cbn. reflexivity.
    + rewrite (F2len _ _ _ G) in F. destruct (comb_sum (g :: gs) x ws ltac:(discriminate) W) as (v & V & E). eexists _, v. split; [exact F|]. split; [exact V|]. rewrite E, S. reflexivity.
  - intros i mts ms nu x vs w Ht A -> Hne C Cw. destruct (T i _ Ht) as (mts' & nu' & gs & A' & G & F). destruct (asked_fun _ _ _ _ _ _ _ _ A A') as [-> ->].
    assert (O : ops_of (TName (s2l "slowing-down power")) sum_rules (ms ++ [(-2)%Z]) = repeat op_add (length (ms ++ [(-2)%Z]) - 2) ++ [op_mul]).
    { change (ops_of _ _ _) with (if memb Z.eqb XI_MT (ms ++ [(-2)%Z]) then repeat op_add (length (ms ++ [(-2)%Z]) - 2) ++ [op_mul] else repeat op_add (length (ms ++ [(-2)%Z]) - 1)). replace (memb Z.eqb XI_MT (ms ++ [(-2)%Z])) with true; [reflexivity|]. symmetry. apply (memb_in Z.eqb Z.eqb_eq). apply in_or_app. right. left. reflexivity. }
    rewrite O in F. apply Forall2_app_inv_l in G as (g1 & g2 & G1 & G2 & ->). inversion G2 as [|? g ? g2' Gg Gn]; subst. inversion Gn; subst.
    destruct (contributions_fns _ _ _ _ _ _ G1 vs C) as (ws & W & S). destruct (contribution_fn _ _ _ _ _ _ Cw g Gg) as (w' & Wg & Ew).
    assert (N1 : g1 <> []) by (intros ->; inversion G1; subst; congruence). destruct (comb_xi g1 g x ws w' N1 W Wg) as (v & V & E).
    rewrite !app_length, (F2len _ _ _ G1) in F. rewrite app_length in V. cbn [length] in F, V. exists (comb (g1 ++ [g]) (repeat op_add (length g1 + 1 - 2) ++ [op_mul])), v.
    split; [|split; [exact V|rewrite E, S, Ew; reflexivity]]. rewrite F. destruct g1; [congruence|reflexivity].
Qed.
Print Assumptions C119_answer.

(** It answers whenever the types are known and their reactions, and the total one, have a table at the temperature chosen. *)
Theorem C119_answers : forall sum_rules names k n types t r1 temp p, n_rx n 1%Z = Some r1 -> pick_temp k t (map fst (r_xs r1)) = Ok temp -> dget str_eqb temp (r_xs r1) = Some p ->
  Forall (fun ty => exists mts nu, Asked sum_rules names n ty mts nu /\ Forall (Available n temp) mts) types ->
  exists es fs, nuclide_xs sum_rules names k n types t = Ok (es, fs).
Proof.
  intros sum_rules names k n types t r1 temp p R P D F. unfold nuclide_xs. rewrite R. cbn [of_opt bind]. rewrite P. cbn [bind]. rewrite D. cbn [of_opt bind].
  assert (X : exists ps fs, mapM (parse_type sum_rules names n) types = Ok ps /\ mapM (type_fn n temp) ps = Ok fs).
  { induction F as [|ty types (mts & nu & A & Av) _ (ps & fs & E1 & E2)]; [exists [], []; auto|]. assert (PT : parse_type sum_rules names n ty = Ok (mts, ops_of ty sum_rules mts, nu)) by (apply parse_ok; eauto).
    assert (G : exists gs, mapM (func_of n temp nu) mts = Ok gs). { clear - Av. induction Av as [|mt mts A _ (gs & E)]; [exists []; reflexivity|]. destruct (available_fn n temp nu mt A) as (g & G). exists (g :: gs). cbn [mapM]. rewrite G. cbn [bind]. rewrite E. reflexivity. }
    destruct G as (gs & G). eexists _, _. cbn [mapM]. rewrite PT, E1. cbn [bind]. split; [reflexivity|]. cbn [mapM]. unfold type_fn at 1. rewrite G. cbn [bind]. rewrite E2. reflexivity. }
  destruct X as (ps & fs & -> & E). cbn [bind]. rewrite E. eexists _, _. reflexivity.
Qed.
Print Assumptions C119_answers.

(** A type that is neither a name of the table, nor of a reaction, nor a number is refused with TypeError, whatever the others are
    (when those before it are known and the tables are there). *)
Theorem C119_unknown_type : forall sum_rules names k n before ty after t r1 temp p, n_rx n 1%Z = Some r1 -> pick_temp k t (map fst (r_xs r1)) = Ok temp -> dget str_eqb temp (r_xs r1) = Some p ->
  Forall (fun ty => exists mts nu, Asked sum_rules names n ty mts nu) before -> (forall mts nu, ~ Asked sum_rules names n ty mts nu) ->
  nuclide_xs sum_rules names k n (before ++ ty :: after) t = Err TypeError.
Proof.
  intros sum_rules names k n before ty after t r1 temp p R P D F N. unfold nuclide_xs. rewrite R. cbn [of_opt bind]. rewrite P. cbn [bind]. rewrite D. cbn [of_opt bind].
  replace (mapM (parse_type sum_rules names n) (before ++ ty :: after)) with (@Err (list (list Z * list (Q -> Q -> Q) * bool)) TypeError); [reflexivity|]. symmetry.
  induction F as [|b before (mts & nu & A) _ IH]; cbn [app mapM].
  - destruct (parse_type sum_rules names n ty) as [q|e] eqn:E; [apply parse_ok in E as (mts & nu & A & _); destruct (N _ _ A)|].
    assert (X : e = TypeError). { destruct ty as [line| |]; cbn [parse_type] in E; [|discriminate E|congruence]. destruct (dget str_eqb line (plot_types sum_rules)); [discriminate E|]. destruct (names line); [discriminate E|congruence]. }
    subst e. reflexivity.
  - assert (PT : parse_type sum_rules names n b = Ok (mts, ops_of b sum_rules mts, nu)) by (apply parse_ok; eauto). rewrite PT. cbn [bind]. rewrite IH. reflexivity.
Qed.
Print Assumptions C119_unknown_type.

(** The names of the table: the reactions behind them, and the two that count neutrons. *)
Theorem C119_names : forall sum_rules l, let has name mts := In (s2l name, mts) (plot_types sum_rules) in
  (has "total"%string l <-> l = sum_rules 1%Z) /\ (has "elastic"%string l <-> l = [2%Z]) /\ (has "fission"%string l <-> l = [18%Z]) /\ (has "nu-fission"%string l <-> l = [18%Z])
  /\ (has "absorption"%string l <-> l = [27%Z]) /\ (has "capture"%string l <-> l = [101%Z]) /\ (has "damage"%string l <-> l = [444%Z])
  /\ (has "unity"%string l <-> l = [(-1)%Z]) /\ (has "slowing-down power"%string l <-> l = [2%Z; (-2)%Z])
  /\ (has "inelastic"%string l <-> l = filter (fun mt => negb (mt =? 27)%Z) (sum_rules 3%Z))
  /\ (has "scatter"%string l <-> l = 2%Z :: filter (fun mt => negb (mt =? 27)%Z) (sum_rules 3%Z))
  /\ (has "nu-scatter"%string l <-> l = 2%Z :: filter (fun mt => negb (mt =? 27)%Z) (sum_rules 3%Z))
  /\ length (plot_types sum_rules) = 12.
Proof.
  intros sum_rules l has. assert (G : forall name mts, has name mts <-> dget str_eqb (s2l name) (plot_types sum_rules) = Some mts).
  { intros name mts. split; [apply plot_keys|apply (dget_some_in str_eqb str_eqb_eq)]. }
  repeat match goal with |- _ /\ _ => split end; try reflexivity; rewrite G; (split; [intros E; injection E as <-; reflexivity|intros ->; reflexivity]).
Qed.
Print Assumptions C119_names.

(** When the package finds no component for the two special numbers, unity is 0 at every energy and the slowing-down power is
    the elastic cross section, without the decrement; and when it finds the decrement alone the function cannot be evaluated. *)
Theorem C119_special_types : forall sum_rules names n temp ps fs, mapM (parse_type sum_rules names n) [TName (s2l "unity"); TName (s2l "slowing-down power"); TName (s2l "elastic")] = Ok ps -> mapM (type_fn n temp) ps = Ok fs ->
  (n_comps n (-1)%Z = [] -> n_comps n (-2)%Z = [] -> ~ In (-2)%Z (n_comps n 2%Z) ->
     exists f g h, fs = [f; g; h] /\ (forall x, f x = Ok 0%Q) /\ forall x, g x = h x)
  /\ (n_comps n 2%Z = [] -> n_comps n (-2)%Z = [(-2)%Z] -> exists f g h, fs = [f; g; h] /\ forall x, exists e, g x = Err e).
Proof.
  intros sum_rules names n temp ps fs M M'. destruct (answer_type _ _ _ _ _ _ _ M M') as [L T]. destruct fs as [|f [|g [|h [|? fs]]]]; try discriminate L.
  destruct (T 0 _ eq_refl) as (m1 & nu1 & g1 & A1 & G1 & F1). destruct (T 1 _ eq_refl) as (m2 & nu2 & g2 & A2 & G2 & F2). destruct (T 2 _ eq_refl) as (m3 & nu3 & g3 & A3 & G3 & F3).
  cbn [nth_error] in F1, F2, F3. injection F1 as F1. injection F2 as F2. injection F3 as F3.
  assert (Q1 : Asked sum_rules names n (TName (s2l "unity")) (n_comps n (-1)%Z) false). { left. exists [(-1)%Z]. split; [cbn; tauto|]. split; [cbn [map concat]; rewrite app_nil_r; reflexivity|]. split; [discriminate|intros [X|X]; discriminate X]. }
  assert (Q2 : Asked sum_rules names n (TName (s2l "slowing-down power")) (n_comps n 2%Z ++ n_comps n (-2)%Z) false). { left. exists [2%Z; (-2)%Z]. split; [cbn; tauto|]. split; [cbn [map concat]; rewrite app_nil_r; reflexivity|]. split; [discriminate|intros [X|X]; discriminate X]. }
  assert (Q3 : Asked sum_rules names n (TName (s2l "elastic")) (n_comps n 2%Z) false). { left. exists [2%Z]. split; [cbn; tauto|]. split; [cbn [map concat]; rewrite app_nil_r; reflexivity|]. split; [discriminate|intros [X|X]; discriminate X]. }
  destruct (asked_fun _ _ _ _ _ _ _ _ Q1 A1) as [-> ->]. destruct (asked_fun _ _ _ _ _ _ _ _ Q2 A2) as [-> ->]. destruct (asked_fun _ _ _ _ _ _ _ _ Q3 A3) as [-> ->].
  split.
  - intros E1 E2 NX. exists f, g, h. split; [reflexivity|]. split.
    + intros x. rewrite E1 in G1, F1. inversion G1; subst. reflexivity.
    + intros x. rewrite E2, app_nil_r in G2, F2. assert (g2 = g3). { clear - G2 G3. revert g3 G3. induction G2 as [|mt a ms gs X _ IH]; intros g3 G3; inversion G3; subst; [reflexivity|]. f_equal; [congruence|apply IH; assumption]. }
      subst g3. rewrite F2, F3. change (ops_of (TName (s2l "slowing-down power")) sum_rules (n_comps n 2%Z)) with (ops_of (TName (s2l "elastic")) sum_rules (n_comps n 2%Z)). reflexivity.
  - intros E1 E2. exists f, g, h. split; [reflexivity|]. intros x. rewrite E1, E2 in G2, F2. cbn [app] in *. inversion G2 as [|? q ? qs Gq Gn]; subst. inversion Gn; subst.
    change (ops_of (TName (s2l "slowing-down power")) sum_rules [(-2)%Z]) with [op_mul]. unfold comb. cbn [nth_error of_opt bind]. destruct (q x) as [a|e]; [|exists e; reflexivity]. cbn [bind foldM]. exists IndexError. reflexivity.
Qed.
Print Assumptions C119_special_types.

(** A nuclide that is not in the library is refused with KeyError; otherwise the data are those of its file. *)
Theorem C119_files : forall sum_rules names k read this library d types t,
  (dget key_eqb (this, library) d = None -> continuous_energy_xs sum_rules names k read this library (Ok d) types t = Err KeyError)
  /\ (forall path n, dget key_eqb (this, library) d = Some path -> read path = Ok n ->
        continuous_energy_xs sum_rules names k read this library (Ok d) types t = nuclide_xs sum_rules names k n types t).
Proof.
  intros sum_rules names k read this library d types t. unfold continuous_energy_xs. cbn [bind]. split; [intros ->; reflexivity|]. intros path n -> R. cbn [of_opt bind]. rewrite R. reflexivity.
Qed.
Print Assumptions C119_files.

(** A nuclide with two temperatures, elastic scattering, fission with prompt and delayed neutrons, and capture. *)
Definition c119_const (a b : Q) : list (str * (list Q * fn)) := [(s2l "294K", ([1; 2]%Q, fun x => Ok (a * x)%Q)); (s2l "600K", ([1; 3]%Q, fun _ => Ok b))].
Definition c119_nuc : nuclide := mkNuc (fun mt => if (mt =? 1)%Z then Some (mkRx (c119_const 10 9) []) else if (mt =? 2)%Z then Some (mkRx (c119_const 4 3) [])
    else if (mt =? 18)%Z then Some (mkRx (c119_const 5 6) [mkProd true false (fun _ => Ok 2%Q); mkProd false true (fun _ => Ok 7%Q); mkProd true false (fun _ => Ok (1 # 2)%Q)])
    else if (mt =? 102)%Z then Some (mkRx (c119_const 1 1) []) else None)
  (fun mt => if (mt =? 27)%Z then [18; 102]%Z else [mt]) (9 # 10).
Definition c119_values (t x : Q) : res (list Q) := do r <- nuclide_xs (fun mt => if (mt =? 1)%Z then [2; 27]%Z else [4; 27]%Z) (fun _ => None) 1 c119_nuc
   (map (fun s => TName (s2l s)) ["total"; "nu-fission"; "slowing-down power"; "unity"; "damage"]%string ++ [TMt 102]) t; mapM (fun f => do v <- f x; Ok (Qred v)) (snd r).
Example C119_case : c119_values (2936 # 10) 2 = Ok [20; 25; 36 # 5; 1; 0; 2]%Q /\ c119_values 500 2 = Ok [10; 15; 27 # 10; 1; 0; 1]%Q.
Proof. split; vm_compute; reflexivity. Qed.
