(** Proofs about reading a mctal file: values, the array, the chart. *)
From Coq Require Import Lia ZArith.
From Verif Require Import FmeshProofs2.
From Verif Require Import PyBase PyLemmas PyStr PyStrLemmas PyText D1SProofs2 MatProofs MatProofs2 DataModel MeshModel MeshSpec MeshProofs MctalModel MctalSpec MctalProofs.
Open Scope nat_scope.

(** ** numbers *)
Lemma nan_word w : is_nan_word w = true <-> nan_text w.
Proof.
  unfold is_nan_word, nan_text. rewrite str_eqb_eq. split.
  - intros H. unfold take_sign in H. destruct w as [|c w]; [discriminate H|].
    destruct (Ascii.eqb_spec c minus) as [->|]; [exists (minus :: nil), w; repeat split; [exact H|cbn; auto]|].
    destruct (Ascii.eqb_spec c plus) as [->|]; [exists (plus :: nil), w; repeat split; [exact H|cbn; auto]|]. exists [], (c :: w). repeat split; [exact H|cbn; auto].
  - intros (s & n & -> & Hn & Hs). destruct n as [|c n]; [discriminate Hn|]. cbn [map s2l list_ascii_of_string] in Hn.
    cbn in Hs. destruct Hs as [<-|[<-|[<-|[]]]]; cbn [app].
    + unfold take_sign. injection Hn as H1 H2. destruct (Ascii.eqb_spec c minus) as [->|]; [discriminate H1|].
      destruct (Ascii.eqb_spec c plus) as [->|]; [discriminate H1|]. cbn [snd map]. rewrite H1, H2. reflexivity.
    + exact Hn.
    + exact Hn.
Qed.
Lemma numeral_not_nan w q : numeral w q -> is_nan_word w = false.
Proof.
  intros H. destruct (is_nan_word w) eqn:E; [|reflexivity]. exfalso. unfold is_nan_word in E. apply str_eqb_eq in E. unfold numeral, parse_float in H.
  destruct (take_sign w) as [neg s1]. cbn [snd] in E. destruct s1 as [|c s1]; [discriminate E|]. cbn [map s2l list_ascii_of_string] in E. injection E as E _.
  assert (X : c = "n"%char \/ c = "N"%char) by (destruct c as [[] [] [] [] [] [] [] []]; try discriminate E; auto).
  destruct X as [-> | ->]; discriminate H.
Qed.
Lemma shows_ok w x : shows w x <-> pyfloat w = Ok x.
Proof.
  unfold shows, pyfloat. destruct x as [q|].
  - split.
    + intros H. rewrite (numeral_not_nan _ _ H), H. reflexivity.
    + destruct (is_nan_word w); [discriminate|]. unfold numeral. destruct (parse_float w); cbn [bind]; intros E; [injection E as ->; reflexivity|discriminate E].
  - rewrite <- nan_word. split; [intros ->; reflexivity|]. destruct (is_nan_word w); [reflexivity|]. destruct (parse_float w); discriminate.
Qed.
Lemma unreadable_err w : unreadable w -> exists e, pyfloat w = Err e.
Proof. intros [H _]. destruct (pyfloat w) as [x|e] eqn:E; [|eauto]. exfalso. apply (H x). apply shows_ok. exact E. Qed.
Lemma shows_head w x : shows w x -> hd sp w <> "t"%char.
Proof.
  destruct x as [q|]; cbn [shows].
  - intros H E. destruct w as [|c w]; [discriminate E|]. cbn [hd] in E. subst. discriminate H.
  - intros (s & n & -> & Hn & Hs) E. destruct n as [|c n]; [discriminate Hn|]. cbn in Hs. destruct Hs as [<-|[<-|[<-|[]]]]; cbn [app hd] in E; try discriminate E.
    subst c. discriminate Hn.
Qed.
Lemma pair_ok a b v r : PairText (a, b) v -> pair_of (a :: b :: r) = Ok (v, r).
Proof.
  intros [[H1 H2]|[[H|[H [x Hx]]] ->]]; cbn [fst snd] in *; unfold pair_of.
  - apply shows_ok in H1, H2. rewrite H1, H2. destruct v; reflexivity.
  - destruct (unreadable_err _ H) as (e & ->). reflexivity.
  - apply shows_ok in Hx. rewrite Hx. destruct (unreadable_err _ H) as (e & ->). reflexivity.
Qed.
Lemma pair_head ab v : PairText ab v -> hd sp (fst ab) <> "t"%char.
Proof. intros [[H1 _]|[[[_ H]|[_ [x H]]] _]]; [eapply shows_head; eassumption|exact H|eapply shows_head; eassumption]. Qed.
Lemma pairline_not_tfc vs l : PairLine vs l -> is_tfc (strip l) = false /\ vs <> [].
Proof.
  intros (ps & E & Hn & HF). inversion HF as [E1 E2|ab v ps' vs' Hp _ E1 E2]; subst; [contradiction|]. split; [|discriminate].
  pose proof (pair_head _ _ Hp) as Hh. cbn [flat_map app] in E. pose proof (strip_head l) as S. destruct (strip l) as [|c s].
  - rewrite S in E. discriminate E.
  - destruct S as (w & ws & S). rewrite S in E. injection E as E _. rewrite <- E in Hh. cbn [hd] in Hh.
    unfold is_tfc. destruct s as [|c2 [|c3 s]]; cbn [firstn str_eqb ascii_eqb s2l list_ascii_of_string]; unfold ascii_eqb;
    destruct (Ascii.eqb_spec c "t"); try contradiction; reflexivity.
Qed.

Lemma read_line line ps vs m f : is_tfc line = false -> Forall2 PairText ps vs -> ps <> [] ->
  read_vals (length vs + m) line (flat_map (fun ab => [fst ab; snd ab]) ps) f
  = do '(xs, l, g) <- read_vals m line [] f; Ok (map Some vs ++ xs, l, g).
Proof.
  intros Ht HF. induction HF as [|[a b] v ps vs Hp HF IH]; intros Hn; [contradiction|].
  cbn [length Nat.add read_vals flat_map app fst snd]. rewrite Ht, (pair_ok _ _ _ _ Hp). cbn [bind].
  destruct ps as [|p ps].
  - inversion HF; subst. cbn [length flat_map map app Nat.add]. destruct (read_vals m line [] f) as [[[xs l] g]|]; reflexivity.
  - rewrite IH by discriminate. destruct (read_vals m line [] f) as [[[xs l] g]|]; reflexivity.
Qed.
Lemma read_values vss ls rest : Forall2 PairLine vss ls -> forall line,
  read_vals (length (concat vss)) line [] (ls ++ rest) = Ok (map Some (concat vss), match ls with [] => line | _ => strip (last ls []) end, rest).
Proof.
  intros HF. induction HF as [|vs l vss ls Hl HF IH]; intros line; [reflexivity|].
  destruct (pairline_not_tfc _ _ Hl) as [Ht Hne]. destruct Hl as (ps & E & Hn & Hp).
  cbn [concat]. rewrite app_length, map_app.
  transitivity (read_vals (length vs + length (concat vss)) (strip l) (flat_map (fun ab => [fst ab; snd ab]) ps) (ls ++ rest)).
  - destruct vs as [|v vs]; [contradiction|]. cbn [length Nat.add read_vals app readline hd tl]. unfold readline. cbn [hd tl]. rewrite split_strip, E.
    destruct ps as [|p ps]; [contradiction|]. reflexivity.
  - rewrite (read_line _ _ _ _ _ Ht Hp Hn), IH. cbn [bind]. destruct ls; reflexivity.
Qed.

(** ** the array *)
Lemma cart_length ds : length (cart ds) = prod ds.
Proof.
  induction ds as [|d ds IH]; [reflexivity|]. cbn [cart prod].
  assert (G : forall k s, length (flat_map (fun i => map (cons i) (cart ds)) (seq s k)) = k * prod ds).
  { induction k as [|k IHk]; intros s; [reflexivity|]. cbn [seq flat_map]. rewrite app_length, map_length, IH, IHk. cbn [Nat.mul]. reflexivity. }
  apply G.
Qed.
Lemma cart_in ds idx : In idx (cart ds) <-> in_shape ds idx.
Proof.
  unfold in_shape. revert idx. induction ds as [|d ds IH]; intros idx; cbn [cart].
  - split; [intros [<-|[]]; constructor|intros H; inversion H; left; reflexivity].
  - rewrite in_flat_map. split.
    + intros (i & Hi & H). apply in_map_iff in H as (y & <- & Hy). apply in_seq in Hi. constructor; [lia|apply IH; exact Hy].
    + intros H. inversion H as [|i dd y ds' Hi Hy]; subst. exists i. split; [apply in_seq; lia|]. apply in_map, IH. exact Hy.
Qed.
Lemma cart_nodup ds : NoDup (cart ds).
Proof.
  induction ds as [|d ds IH]; cbn [cart]; [repeat constructor; intros []|].
  assert (G : forall k s, NoDup (flat_map (fun i => map (cons i) (cart ds)) (seq s k))).
  { induction k as [|k IHk]; intros s; cbn [seq flat_map]; [constructor|]. apply nodup_app.
    - apply FinFun.Injective_map_NoDup; [intros x y E; injection E; auto|exact IH].
    - apply IHk.
    - intros x H1 H2. apply in_map_iff in H1 as (y & <- & _). apply in_flat_map in H2 as (j & Hj & H2). apply in_map_iff in H2 as (z & E & _).
      injection E as E _. apply in_seq in Hj. lia. }
  apply G.
Qed.
Lemma cart_place ds idx : in_shape ds idx -> nth_error (cart ds) (place ds idx) = Some idx.
Proof.
  unfold in_shape. revert idx. induction ds as [|d ds IH]; intros idx H; inversion H as [|i dd y ds' Hi Hy]; subst; cbn [cart place]; [reflexivity|].
  specialize (IH y Hy). assert (L : place ds y < prod ds). { rewrite <- cart_length. apply nth_error_Some. rewrite IH. discriminate. }
  assert (G : forall k s, i < k -> nth_error (flat_map (fun i => map (cons i) (cart ds)) (seq s k)) (i * prod ds + place ds y) = Some ((s + i) :: y)).
  { clear Hi H. induction i as [|i IHi]; intros k s Hk; (destruct k as [|k]; [lia|]); cbn [seq flat_map Nat.mul Nat.add].
    - rewrite nth_error_app1 by (rewrite map_length, cart_length; exact L). rewrite Nat.add_0_r. apply map_nth_error. exact IH.
    - rewrite nth_error_app2 by (rewrite map_length, cart_length; lia). rewrite map_length, cart_length.
      replace (prod ds + i * prod ds + place ds y - prod ds) with (i * prod ds + place ds y) by lia. rewrite IHi by lia. f_equal. f_equal. lia. }
  apply G. exact Hi.
Qed.
Lemma idx_eqb_eq a b : idx_eqb a b = true <-> a = b.
Proof. unfold idx_eqb. destruct (list_eq_dec Nat.eq_dec a b); split; intros; congruence. Qed.
Lemma dget_combine {V} (ks : list (list nat)) : forall (vs : list V) n k v, NoDup ks -> nth_error ks n = Some k -> nth_error vs n = Some v ->
  dget idx_eqb k (combine ks vs) = Some v.
Proof.
  induction ks as [|k0 ks IH]; intros vs n k v HN H1 H2; [destruct n; discriminate H1|]. inversion HN as [|? ? Hni HN']; subst.
  destruct vs as [|v0 vs]; [destruct n; discriminate H2|]. cbn [combine dget]. destruct n as [|n]; cbn [nth_error] in H1, H2.
  - injection H1 as ->. injection H2 as ->. replace (idx_eqb k k) with true by (symmetry; apply idx_eqb_eq; reflexivity). reflexivity.
  - destruct (idx_eqb k k0) eqn:E; [apply idx_eqb_eq in E; subst; apply nth_error_In in H1; contradiction|]. eapply IH; eassumption.
Qed.
Lemma array_ok ds (vs : list (fl * fl)) idx : length vs = prod ds -> in_shape ds idx ->
  exists v, nth_error vs (place ds idx) = Some v /\ dget idx_eqb idx (combine (cart ds) vs) = Some v.
Proof.
  intros Hl H. pose proof (cart_place ds idx H) as E. assert (L : place ds idx < length vs).
  { rewrite Hl, <- cart_length. apply nth_error_Some. rewrite E. discriminate. }
  destruct (nth_error vs (place ds idx)) as [v|] eqn:Ev; [|apply nth_error_None in Ev; lia].
  exists v. split; [reflexivity|]. eapply dget_combine; [apply cart_nodup|exact E|exact Ev].
Qed.

(** ** the chart *)
Lemma stops_false l : split l <> [] -> ~ mentions "tally" l -> stops (strip l) = false.
Proof.
  intros H1 H2. unfold stops, has_tally. rewrite has_not by (intros X; apply H2, mentions_strip; exact X). cbn [orb].
  destruct (strip l) eqn:E; [apply strip_nil in E; contradiction|reflexivity].
Qed.
Lemma chartline_ok l d : ChartLine l d -> dat_line (split l) = Ok d /\ split l <> [] /\ ~ mentions "tally" l.
Proof.
  intros (n & w1 & w2 & more & z & x & e & g & E & Hm & Hz & Hx & He & Hd). rewrite E. split; [|split; [discriminate|exact Hm]].
  unfold dat_line, int_at, word. cbn [nth_error of_opt bind]. rewrite Hz. cbn [bind].
  assert (Ex : match pyfloat w1 with Ok x => x | Err _ => Some 0%Q end = x).
  { destruct Hx as [Hx|[Hx ->]]; [apply shows_ok in Hx; rewrite Hx; reflexivity|]. destruct (unreadable_err _ Hx) as (? & ->). reflexivity. }
  rewrite Ex. apply shows_ok in He. rewrite He. cbn [bind]. destruct more as [|w [|? ?]]; cbn [length Nat.eqb nth_error of_opt bind].
  - rewrite Hd. reflexivity.
  - destruct Hd as [Hg ->]. apply shows_ok in Hg. rewrite Hg. reflexivity.
  - contradiction.
Qed.
(* what follows a tally: the end, a blank line or the next tally *)
Definition Follows (rest : file) : Prop := match rest with [] => True | l :: _ => stops (strip l) = true end.
Lemma chart_ok ds ls rest : Forall2 ChartLine ls ds -> Follows rest ->
  tfc_dat (strip (hd [] (ls ++ rest))) (tl (ls ++ rest)) = Ok (ds, strip (hd [] rest), tl rest).
Proof.
  intros HF Hr. induction HF as [|l d ls ds Hl HF IH].
  - destruct rest as [|l rest]; [reflexivity|]. cbn [app hd tl Follows] in *. destruct rest; cbn [tfc_dat]; rewrite Hr; reflexivity.
  - destruct (chartline_ok _ _ Hl) as (E & H1 & H2). cbn [app hd tl].
    destruct (ls ++ rest) as [|l2 f2] eqn:El.
    + apply app_eq_nil in El as [-> ->]. inversion HF; subst. cbn [tfc_dat]. rewrite (stops_false _ H1 H2), split_strip, E. reflexivity.
    + cbn [tfc_dat]. rewrite (stops_false _ H1 H2), split_strip, E. cbn [bind]. cbn [hd tl] in IH. rewrite IH. reflexivity.
Qed.
Lemma tfc_ok js ds ls rest : Chart js ds ls -> Follows rest ->
  read_tfc (ls ++ rest) = Ok (js, ds, strip (hd [] rest), tl rest).
Proof.
  intros (a & b & -> & (l & -> & ws & E & Hj & Hn) & Hd) Hr. unfold read_tfc, readline. cbn [app hd tl].
  rewrite split_strip, E. unfold word. cbn [nth_error of_opt bind tl]. rewrite str_eqb_refl'.
  assert (Em : mapM parse_int ws = Ok js).
  { clear -Hj. induction Hj as [|w z ws zs H HF IH]; [reflexivity|]. cbn [mapM]. rewrite H. cbn [bind]. rewrite IH. reflexivity. }
  rewrite Em. cbn [bind]. rewrite Hn, Nat.eqb_refl. rewrite (chart_ok _ _ _ Hd Hr). reflexivity.
Qed.
Lemma skip_mesh_ok ls rest : Forall (fun l => split l <> [] /\ ~ mentions "tally" l) ls -> Follows rest -> forall line, stops line = false ->
  skip_mesh line (ls ++ rest) = (strip (hd [] rest), tl rest).
Proof.
  intros HF Hr. induction HF as [|l ls [H1 H2] HF IH]; intros line Hl.
  - destruct rest as [|l rest]; [cbn [app skip_mesh hd tl]; rewrite Hl; reflexivity|]. cbn [app skip_mesh hd tl]. rewrite Hl.
    cbn [Follows] in Hr. destruct rest; cbn [skip_mesh]; rewrite Hr; reflexivity.
  - cbn [app skip_mesh]. rewrite Hl. apply IH. apply stops_false; assumption.
Qed.
