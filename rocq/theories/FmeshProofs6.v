(** Proofs about the text exports (C61) *)
From Coq Require Import Lia ZArith Qabs Lqa.
From Verif Require Import PyBase PyLemmas PyStr PyStrLemmas PyFmtLemmas PyText DataModel DataProofs D1SModel D1SProofs2 MatProofs2 LibModel MeshModel MeshProofs FmeshModel FmeshSpec FmeshProofs FmeshProofs2.
Open Scope nat_scope.

Lemma forall2_len {A B} (P : A -> B -> Prop) l l' : Forall2 P l l' -> length l = length l'.
Proof. induction 1; cbn [length]; congruence. Qed.
Lemma forall2_nth {A B} (P : A -> B -> Prop) l rows : Forall2 P l rows -> forall i x, nth_error l i = Some x -> exists r, nth_error rows i = Some r /\ P x r.
Proof. induction 1 as [|a b l rows Hab F IH]; intros i x Hx; [destruct i; discriminate Hx|]. destruct i as [|i]; [injection Hx as <-; exists b; auto|]. apply IH. exact Hx. Qed.
Lemma round_nonneg q : (0 <= q)%Q -> (0 <= qround_even q)%Z.
Proof.
  intros H. destruct q as [n d]. unfold Qle in H. cbn [Qnum Qden] in H. unfold qround_even. cbn [Qnum Qden].
  assert (0 <= n / Z.pos d)%Z by (apply Z.div_pos; lia). repeat match goal with |- context [if ?c then _ else _] => destruct c end; lia.
Qed.
Lemma f3_pos q : (0 <= q)%Q -> parse_float (fmt_f3_pos q) = Ok (inject_Z (qround_even (q * 1000)) * p10 (-3))%Q
  /\ parse_float (minus :: fmt_f3_pos q) = Ok (- (inject_Z (qround_even (q * 1000)) * p10 (-3)))%Q.
Proof.
  intros H. assert (H0 : (0 <= qround_even (q * 1000))%Z). { apply round_nonneg. apply Qmult_le_0_compat; [exact H|discriminate]. }
  unfold fmt_f3_pos. set (n := Z.to_N (qround_even (q * 1000))).
  destruct (parse_float_shape (str_of_N (n / 1000)) (ndig 3 (n mod 1000)) [] 0) as [P1 P2].
  - apply str_of_N_digits.
  - apply str_of_N_ne.
  - apply ndig_digits.
  - exact I.
  - reflexivity.
  - rewrite app_nil_r in P1, P2. rewrite num_of_app, num_of_str, ndig_length, num_of_ndig in P1, P2.
    assert (E : (n / 1000 * 10 ^ N.of_nat 3 + n mod 1000 mod 10 ^ N.of_nat 3)%N = n).
    { change (10 ^ N.of_nat 3)%N with 1000%N. rewrite (N.mod_small (n mod 1000)) by (apply N.mod_lt; lia). pose proof (N.div_mod n 1000 ltac:(lia)). lia. }
    assert (EN : Z.of_N n = qround_even (q * 1000)) by (unfold n; rewrite Z2N.id by exact H0; reflexivity).
    rewrite E in P1, P2. rewrite EN in P1, P2. split; [exact P1|exact P2].
Qed.
Lemma f3_close q : (0 <= q)%Q -> (Qabs (inject_Z (qround_even (q * 1000)) * p10 (-3) - q) <= 1 # 2000)%Q.
Proof.
  intros H. change (p10 (-3)) with (1 # 1000)%Q. pose proof (qround_even_spec (q * 1000)) as [A B]. apply Qabs_Qle_condition. split; lra.
Qed.
Lemma f3_chars q : no_ws (fmt_f3 q) /\ ~ In ","%char (fmt_f3 q).
Proof.
  assert (G : forall q, no_ws (fmt_f3_pos q) /\ ~ In ","%char (fmt_f3_pos q)).
  { intros r. unfold fmt_f3_pos. assert (D : forall s, digits s -> ~ In ","%char s). { intros s D X. unfold digits in D. rewrite Forall_forall in D. specialize (D _ X). discriminate D. }
    split.
    - apply Forall_app. split; [apply digits_no_ws, str_of_N_digits|]. constructor; [reflexivity|]. apply digits_no_ws, ndig_digits.
    - rewrite in_app_iff. intros [X|[X|X]]; [exact (D _ (str_of_N_digits _) X)|discriminate X|exact (D _ (ndig_digits _ _) X)]. }
  unfold fmt_f3. destruct (Qle_bool 0 q); [apply G|]. destruct (G (- q)%Q) as [A B]. split; [constructor; [reflexivity|exact A]|]. intros [X|X]; [discriminate X|exact (B X)].
Qed.
Lemma f3_field q : Field (fmt_f3 q) q.
Proof.
  destruct (f3_chars q) as [A B]. split; [exact A|]. split; [exact B|]. unfold fmt_f3. destruct (Qle_bool 0 q) eqn:E.
  - apply Qle_bool_iff in E. eexists. split; [apply f3_pos; exact E|apply f3_close; exact E].
  - assert (H : (0 <= - q)%Q). { destruct (Qlt_le_dec q 0) as [X|X]; [lra|]. apply Qle_bool_iff in X. congruence. }
    eexists. split; [apply f3_pos; exact H|]. pose proof (f3_close (- q) H) as C. rewrite <- Qabs_opp.
    setoid_replace (- (- (inject_Z (qround_even (- q * 1000)) * p10 (-3)) - q))%Q with (inject_Z (qround_even (- q * 1000)) * p10 (-3) - - q)%Q by ring. exact C.
Qed.
Lemma f3_small q : (0 <= q)%Q -> (q < 1 # 2000)%Q -> fmt_f3 q = s2l "0.000".
Proof.
  intros H1 H2. unfold fmt_f3. rewrite (proj2 (Qle_bool_iff 0 q) H1). unfold fmt_f3_pos.
  assert (E : qround_even (q * 1000) = 0%Z).
  { pose proof (qround_even_spec (q * 1000)) as [A B]. pose proof (round_nonneg (q * 1000) ltac:(lra)) as N. destruct (Z.eq_dec (qround_even (q * 1000)) 0) as [E|E]; [exact E|exfalso].
    assert (X : (1 <= inject_Z (qround_even (q * 1000)))%Q) by (apply (inject_pos_le 1); lia). lra. }
  rewrite E. reflexivity.
Qed.

Lemma get_ok g n l : dget str_eqb n (g_arrays g) = Some l -> g_get g n = Ok l.
Proof. intros H. unfold g_get. rewrite H. reflexivity. Qed.
Lemma comma_cat ws : forall w, joined_by (s2l ", ") (w :: ws) = w ++ concat (map (fun v => s2l ", " ++ v) ws).
Proof. induction ws as [|v ws IH]; intros w; [cbn; rewrite app_nil_r; reflexivity|]. change (joined_by (s2l ", ") (w :: v :: ws)) with (w ++ s2l ", " ++ joined_by (s2l ", ") (v :: ws)). rewrite IH. cbn [map concat]. rewrite <- app_assoc. reflexivity. Qed.
Definition row_ok (g : grid) (names : list str) (i : nat) (p : vec) (r : str) : Prop :=
  exists qs ws, Forall2 (value_of g i) names qs /\ fields (fst (fst p) :: snd (fst p) :: snd p :: qs) ws /\ r = joined_by (s2l ", ") ws.
Lemma csv_row_ok g names i p : (forall n, In n names -> exists q, value_of g i n q) ->
  exists r, csv_row g names (i, p) = Ok (r ++ crlf) /\ row_ok g names i p r.
Proof.
  intros H. destruct p as [[x y] z]. unfold csv_row.
  assert (M : exists qs, Forall2 (value_of g i) names qs /\ mapM (fun n => do l <- g_get g n; do v <- at_pos l i; Ok (s2l ", " ++ fmt_f3 v)) names = Ok (map (fun q => s2l ", " ++ fmt_f3 q) qs)).
  { induction names as [|n names IH]; [exists []; split; [constructor|reflexivity]|]. destruct (H n (or_introl eq_refl)) as (q & l & Hl & Hq).
    destruct IH as (qs & F & E); [intros; apply H; right; assumption|]. exists (q :: qs). split; [constructor; [exists l; auto|exact F]|].
    cbn [mapM map]. rewrite (get_ok _ _ _ Hl). cbn [bind]. unfold at_pos at 1. rewrite Hq. cbn [bind]. rewrite E. reflexivity. }
  destruct M as (qs & F & E). rewrite E. cbn [bind]. exists (joined_by (s2l ", ") (map fmt_f3 (x :: y :: z :: qs))). split.
  - f_equal. cbn [map]. rewrite comma_cat. cbn [map concat]. rewrite map_map. rewrite <- !app_assoc. reflexivity.
  - exists qs, (map fmt_f3 (x :: y :: z :: qs)). split; [exact F|]. split; [|reflexivity]. unfold fields. cbn [fst snd].
    induction (x :: y :: z :: qs) as [|a l IH]; [constructor|]. cbn [map]. constructor; [apply f3_field|exact IH].
Qed.
Lemma enum_nth {A} (l : list A) i x : nth_error (enum l) i = Some x <-> fst x = i /\ nth_error l i = Some (snd x).
Proof.
  unfold enum. assert (G : forall (l : list A) s i (x : nat * A), nth_error (combine (seq s (length l)) l) i = Some x <-> fst x = s + i /\ nth_error l i = Some (snd x)).
  { clear. induction l as [|a l IH]; intros s i x.
    - cbn. split; [destruct i; discriminate|intros [_ H]; destruct i; discriminate H].
    - cbn [length seq combine]. destruct i as [|i]; cbn [nth_error].
      + split; [intros H; injection H as <-; split; [cbn; lia|reflexivity]|]. destruct x as [n b]. cbn [fst snd]. intros [-> H]. injection H as ->. rewrite Nat.add_0_r. reflexivity.
      + rewrite IH. rewrite <- plus_n_Sm. reflexivity. }
  apply (G l 0 i x).
Qed.
Lemma enum_length {A} (l : list A) : length (enum l) = length l.
Proof. unfold enum. rewrite combine_length, seq_length. lia. Qed.
Lemma mapM_each {A B} (f : A -> res B) (P : A -> B -> Prop) l : (forall x, In x l -> exists y, f x = Ok y /\ P x y) -> exists ys, mapM f l = Ok ys /\ Forall2 P l ys.
Proof.
  induction l as [|x l IH]; intros H; [exists []; split; [reflexivity|constructor]|]. destruct (H x (or_introl eq_refl)) as (y & E & Hy). destruct IH as (ys & E' & F); [intros; apply H; right; assumption|].
  exists (y :: ys). cbn [mapM]. rewrite E. cbn [bind]. rewrite E'. split; [reflexivity|constructor; assumption].
Qed.
Lemma covers_value g names (pts : list vec) i : covers g names (length pts) -> i < length pts -> forall n, In n names -> exists q, value_of g i n q.
Proof.
  intros C Hi n Hn. destruct (C n Hn) as (l & Hl & L). destruct (nth_error l i) as [q|] eqn:E; [exists q, l; auto|]. apply nth_error_None in E. lia.
Qed.
Lemma csv_ok g pts names : covers g names (length pts) ->
  exists rows, write_csv g pts names = Ok (concat (map (fun r => r ++ crlf) rows)) /\ length rows = length pts
    /\ forall i p, nth_error pts i = Some p -> exists r, nth_error rows i = Some r /\ row_ok g names i p r.
Proof.
  intros C. unfold write_csv. destruct (mapM_each (csv_row g names) (fun ip t => exists r, t = r ++ crlf /\ row_ok g names (fst ip) (snd ip) r) (enum pts)) as (ys & E & F).
  { intros [i p] Hin. apply In_nth_error in Hin as [k Hk]. apply enum_nth in Hk as [<- Hp]. cbn [fst snd] in *.
    destruct (csv_row_ok g names i p) as (r & Er & Hr); [apply (covers_value g names pts); [exact C|apply nth_error_Some; congruence]|]. exists (r ++ crlf). split; [exact Er|exists r; auto]. }
  rewrite E. cbn [bind]. 
  assert (G : exists rows, ys = map (fun r => r ++ crlf) rows /\ Forall2 (fun ip r => row_ok g names (fst ip) (snd ip) r) (enum pts) rows).
  { clear E. induction F as [|ip t l ys (r & -> & Hr) F (rows & -> & F')]; [exists []; split; [reflexivity|constructor]|]. exists (r :: rows). split; [reflexivity|constructor; assumption]. }
  destruct G as (rows & -> & F'). exists rows. split; [reflexivity|]. split; [rewrite <- (enum_length pts); symmetry; exact (forall2_len _ _ _ F')|].
  intros i p Hp. assert (Hi : nth_error (enum pts) i = Some (i, p)) by (apply enum_nth; auto). destruct (forall2_nth _ _ _ F' i (i, p) Hi) as (r & A & B). exists r. auto.
Qed.
Lemma csv_missing g pts names n : pts <> [] -> In n names -> dget str_eqb n (g_arrays g) = None -> (forall a, In a names -> forall l, dget str_eqb a (g_arrays g) = Some l -> l <> []) -> write_csv g pts names = Err KeyError.
Proof.
  intros Hp Hin Hn Hl. destruct pts as [|[[x y] z] pts]; [contradiction|]. unfold write_csv, enum. cbn [length seq combine mapM csv_row].
  assert (E : mapM (fun n => do l <- g_get g n; do v <- at_pos l 0; Ok (s2l ", " ++ fmt_f3 v)) names = Err KeyError).
  { clear -Hin Hn Hl. induction names as [|a names IH]; [contradiction|]. cbn [mapM]. unfold g_get at 1. destruct (dget str_eqb a (g_arrays g)) as [l|] eqn:E.
    - cbn [bind]. destruct l as [|q l]; [exfalso; exact (Hl a (or_introl eq_refl) [] E eq_refl)|]. cbn [at_pos nth_error bind]. rewrite IH; [reflexivity| |intros; eapply Hl; [right|]; eassumption]. destruct Hin as [->|Hin]; [congruence|exact Hin].
    - reflexivity. }
  rewrite E. reflexivity.
Qed.

(** ** point clouds and Fluent files *)
Definition cloud_row (g : grid) (n : str) (i : nat) (p : vec) (r : str) : Prop :=
  exists q ws, value_of g i n q /\ fields [fst (fst p); snd (fst p); snd p; q] ws /\ r = joined_by (s2l ",") ws.
Lemma cloud_ok g pts n : covers g [n] (length pts) ->
  exists rows, cloud_file g pts n = Ok (concat (map (fun r => r ++ [nl]) (s2l "x, y, z, value" :: rows))) /\ length rows = length pts
    /\ forall i p, nth_error pts i = Some p -> exists r, nth_error rows i = Some r /\ cloud_row g n i p r.
Proof.
  intros C. destruct (C n (or_introl eq_refl)) as (l & Hl & Ll). unfold cloud_file. rewrite (get_ok _ _ _ Hl). cbn [bind].
  set (row := fun ip : nat * vec => let '(i, (x, y, z)) := ip in do v <- at_pos l i; Ok (fmt_f3 x ++ s2l "," ++ fmt_f3 y ++ s2l "," ++ fmt_f3 z ++ s2l "," ++ fmt_f3 v ++ [nl])).
  destruct (mapM_each row (fun ip t => exists r, t = r ++ [nl] /\ cloud_row g n (fst ip) (snd ip) r) (enum pts)) as (ys & E & F).
  { intros [i [[x y] z]] Hin. apply In_nth_error in Hin as [k Hk]. apply enum_nth in Hk as [<- Hp]. cbn [fst snd] in *.
    destruct (nth_error l i) as [q|] eqn:Eq; [|apply nth_error_None in Eq; assert (i < length pts) by (apply nth_error_Some; congruence); lia].
    unfold row, at_pos. rewrite Eq. cbn [bind]. eexists. split; [reflexivity|]. exists (joined_by (s2l ",") (map fmt_f3 [x; y; z; q])). split.
    - cbn [map joined_by]. rewrite <- !app_assoc. reflexivity.
    - exists q, (map fmt_f3 [x; y; z; q]). split; [exists l; auto|]. split; [|reflexivity]. cbn [fst snd map]. repeat constructor; apply f3_field. }
  rewrite E. cbn [bind].
  assert (G : exists rows, ys = map (fun r => r ++ [nl]) rows /\ Forall2 (fun ip r => cloud_row g n (fst ip) (snd ip) r) (enum pts) rows).
  { clear E. induction F as [|ip t l' ys (r & -> & Hr) F (rows & -> & F')]; [exists []; split; [reflexivity|constructor]|]. exists (r :: rows). split; [reflexivity|constructor; assumption]. }
  destruct G as (rows & -> & F'). exists rows. split; [cbn [map concat]; rewrite <- app_assoc; reflexivity|]. split; [rewrite <- (enum_length pts); symmetry; exact (forall2_len _ _ _ F')|].
  intros i p Hp. assert (Hi : nth_error (enum pts) i = Some (i, p)) by (apply enum_nth; auto). destruct (forall2_nth _ _ _ F' i (i, p) Hi) as (r & A & B). exists r. auto.
Qed.
Lemma block_fields qs : exists ws, fluent_block qs = s2l "(" ++ concat (map (fun w => w ++ [nl]) ws) ++ s2l ")" ++ [nl] /\ fields qs ws.
Proof. exists (map fmt_f3 qs). split; [unfold fluent_block; rewrite map_map; reflexivity|]. unfold fields. induction qs as [|q qs IH]; [constructor|]. constructor; [apply f3_field|exact IH]. Qed.
Lemma fluent_values l k : forall s, s + k <= length l -> mapM (fun i => at_pos l i) (seq s k) = Ok (firstn k (skipn s l)).
Proof.
  induction k as [|k IH]; intros s H; [reflexivity|]. cbn [seq mapM]. unfold at_pos at 1. destruct (nth_error l s) as [q|] eqn:E; [|apply nth_error_None in E; lia].
  cbn [bind]. rewrite IH by lia. cbn [bind]. f_equal. clear -E. revert s E. induction l as [|a l IH]; intros s E; [destruct s; discriminate E|].
  destruct s as [|s]; [injection E as <-; reflexivity|]. cbn [skipn]. change (skipn (S s) (a :: l)) with (skipn s l). apply IH. exact E.
Qed.
Lemma mapM_fst {A B} (f : nat -> res B) (l : list A) : forall s, mapM (fun ip => f (fst ip)) (combine (seq s (length l)) l) = mapM f (seq s (length l)).
Proof. induction l as [|a l IH]; intros s; [reflexivity|]. cbn [length seq combine mapM fst]. rewrite IH. reflexivity. Qed.
Lemma fluent_ok g pts n l : dget str_eqb n (g_arrays g) = Some l -> length l = length pts ->
  exists xs ys zs vs, fields (map (fun p => fst (fst p)) pts) xs /\ fields (map (fun p => snd (fst p)) pts) ys /\ fields (map snd pts) zs /\ fields l vs
    /\ fluent_file g pts n = Ok (concat (map (fun w => w ++ [nl]) [s2l "3"; s2l "3"; str_of_N (N.of_nat (length pts)); s2l "1"; s2l "uds-0"])
         ++ concat (map (fun ws => s2l "(" ++ concat (map (fun w => w ++ [nl]) ws) ++ s2l ")" ++ [nl]) [xs; ys; zs; vs])).
Proof.
  intros Hl Ll. unfold fluent_file. rewrite (get_ok _ _ _ Hl). cbn [bind]. unfold enum. rewrite (mapM_fst (at_pos l)), fluent_values by lia. cbn [bind skipn]. rewrite <- Ll, firstn_all.
  destruct (block_fields (map (fun p : vec => fst (fst p)) pts)) as (xs & -> & Fx). destruct (block_fields (map (fun p : vec => snd (fst p)) pts)) as (ys & -> & Fy).
  destruct (block_fields (map snd pts)) as (zs & Ez & Fz). destruct (block_fields l) as (vs & -> & Fv).
  exists xs, ys, zs, vs. split; [exact Fx|]. split; [exact Fy|]. split; [exact Fz|]. split; [exact Fv|]. rewrite Ez, Ll. cbn [map concat]. rewrite !app_nil_r. reflexivity.
Qed.
(** one file per array *)
Lemma files_fold file path : forall names fs out, (forall n, In n names -> file n = Ok (out n)) -> NoDup (map clean_path names) ->
  exists fs', write_files file path names fs = Ok fs' /\ (forall n, In n names -> dget str_eqb (file_name path n) fs' = Some (out n))
    /\ (forall k, (forall n, In n names -> k <> file_name path n) -> dget str_eqb k fs' = dget str_eqb k fs).
Proof.
  unfold write_files. induction names as [|n names IH]; intros fs out H ND.
  - exists fs. split; [reflexivity|]. split; [intros ? []|reflexivity].
  - cbn [map] in ND. inversion ND as [|? ? Hn ND']; subst. cbn [fold_left bind]. rewrite (H n (or_introl eq_refl)). cbn [bind].
    destruct (IH (dset str_eqb (file_name path n) (out n) fs) out) as (fs' & E & A & B); [intros; apply H; right; assumption|exact ND'|].
    assert (D : forall m, In m names -> file_name path n <> file_name path m).
    { intros m Hm X. apply Hn. unfold file_name in X. apply app_inv_head in X. apply app_inv_head in X. apply app_inv_tail in X. rewrite X. apply in_map. exact Hm. }
    exists fs'. split; [exact E|]. split.
    + intros m [<-|Hm]; [|apply A; exact Hm]. rewrite B by exact D. apply (dget_dset_same str_eqb str_eqb_eq).
    + intros k Hk. rewrite B by (intros m Hm; apply Hk; right; exact Hm). apply (dget_dset_other str_eqb str_eqb_eq). apply Hk. left. reflexivity.
Qed.
Lemma clean_chars s c : In c (clean_path s) <-> In c s /\ ~ In c (s2l "[]\/").
Proof.
  unfold clean_path. rewrite filter_In. assert (E : negb (existsb (Ascii.eqb c) (s2l "[]\/")) = true <-> ~ In c (s2l "[]\/")).
  { rewrite negb_true_iff. split.
    - intros H X. assert (existsb (Ascii.eqb c) (s2l "[]\/") = true) by (apply existsb_exists; exists c; split; [exact X|apply Ascii.eqb_refl]). congruence.
    - intros H. destruct (existsb (Ascii.eqb c) (s2l "[]\/")) eqn:E; [|reflexivity]. apply existsb_exists in E as (x & Hx & Ex). apply Ascii.eqb_eq in Ex. subst x. contradiction. }
  rewrite E. reflexivity.
Qed.

(* an array with the given sizes *)
Definition boxed (t e k j i : nat) (f : nat -> nat -> nat -> nat -> nat -> Q * Q) : arr := fun t' e' k' j' i' =>
  if (t' <? t) && (e' <? e) && (k' <? k) && (j' <? j) && (i' <? i) then Some (f t' e' k' j' i') else None.
Lemma boxed_ok nt ne n3 n2 n1 f t e k j i : (exists p, boxed nt ne n3 n2 n1 f t e k j i = Some p) <-> (t < nt /\ e < ne /\ k < n3 /\ j < n2 /\ i < n1).
Proof.
  unfold boxed. destruct (Nat.ltb_spec t nt), (Nat.ltb_spec e ne), (Nat.ltb_spec k n3), (Nat.ltb_spec j n2), (Nat.ltb_spec i n1); cbn [andb];
    (split; [intros [p Hp]; try discriminate Hp; repeat split; assumption|intros (? & ? & ? & ? & ?); try lia; eexists; reflexivity]).
Qed.
