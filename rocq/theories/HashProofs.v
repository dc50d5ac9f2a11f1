From Coq Require Import Lia ZArith.
From Verif Require Import PyBase PyLemmas PyStr PyStrLemmas PyText D1SProofs2 WWTextProofs LibModel MatModel MatProofs MatProofs2 MatProofs4 InpModel InpSpec InpGeomSpec InpUnionModel InpProofs InpProofs2 InpProofs6 InpGeomProofs InpGeomProofs2 InpGeomProofs3 HashModel HashSpec.
Open Scope nat_scope.

Lemma first_row addition row rows pre rest : tsplit row = pre ++ rest -> Forall (fun w => has_alpha w = false) pre ->
  exists row' rows' rest', add_symbol_rows true addition (row :: rows) = row' :: rows' /\ tsplit row' = pre ++ rest'.
Proof.
  intros T A. cbn [add_symbol_rows]. pose proof (find_alpha_spec (tsplit row)) as FA. pose proof (tsplit_words row) as FW. destruct (find_alpha (tsplit row)) as [n|].
  - destruct FA as (F1 & F2 & _). do 2 eexists. exists (tw rest ++ tsplit addition ++ dw rest). split; [reflexivity|]. rewrite (put_words true addition n (tsplit row) _ FW eq_refl), F1, F2, T. destruct (tw_app pre rest A) as [-> ->]. now rewrite <- app_assoc.
  - destruct rows as [|r2 rows].
    + do 2 eexists. exists (rest ++ tsplit addition). split; [reflexivity|]. rewrite (put_words true addition (length (tsplit row)) (tsplit row) _ FW eq_refl), firstn_all, skipn_all, app_nil_r, T. now rewrite <- app_assoc.
    + do 2 eexists. exists rest. split; [reflexivity|exact T].
Qed.
Lemma add_symbol_rows_first c n m geo key addition rows : ordinary c n m geo key -> add_symbol addition true c = Ok rows ->
  exists w0 w1 row' rows' rest', rows = row' :: rows' /\ tsplit row' = [Hole w0] :: [Hole w1] :: (if (m =? 0)%Z then rest' else [Ch tilde] :: rest') /\
    rest' ++ concat (map tsplit rows') = (lpar :: geo ++ rpar :: tsplit addition) ++ key.
Proof.
  intros O AS. destruct (add_symbol_words c n m geo key addition O) as (w0 & w1 & rows0 & E0 & AS0 & E1). rewrite AS in AS0. injection AS0 as <-. pose proof (get_m_ord _ _ _ _ _ O) as GM. destruct O as [(v0 & v1 & row0 & rest & rws & EI & T & E) OG OK _ _].
  rewrite EI in E0. cbn [map concat] in E0. rewrite T in E0. unfold hd_words in E0, E1. assert (VW : v0 = w0 /\ v1 = w1) by (destruct (m =? 0)%Z; cbn [app] in E0; injection E0; auto). destruct VW as [-> ->].
  unfold add_symbol in AS. rewrite EI, T, GM in AS.
  set (ws1 := if (m =? 0)%Z then [Hole w0] :: ([Hole w1] ++ text (s2l " (")) :: rest else [Hole w0] :: [Hole w1] :: ([Ch tilde] ++ text (s2l " (")) :: rest).
  assert (A : append_word (if (m =? 0)%Z then 1 else 2) (text (s2l " (")) ([Hole w0] :: [Hole w1] :: (if (m =? 0)%Z then rest else [Ch tilde] :: rest)) = Ok ws1) by (unfold ws1; destruct (m =? 0)%Z; reflexivity).
  rewrite A in AS. cbn [bind] in AS. apply (f_equal (fun r => match r with Ok x => x | Err _ => [] end)) in AS. cbv beta iota in AS.
  assert (R : Forall word rest). { pose proof (tsplit_words row0) as F. rewrite T in F. apply Forall_inv_tail, Forall_inv_tail in F. destruct (m =? 0)%Z; [exact F|]. now apply Forall_inv_tail in F. }
  set (hdw := [Hole w0] :: [Hole w1] :: (if (m =? 0)%Z then [] else [[Ch tilde]])).
  assert (W : tsplit (tjoin ws1) = hdw ++ lpar :: rest). { rewrite tsplit_join. unfold hdw, ws1. destruct (m =? 0)%Z; cbn [map concat]; rewrite words_id by exact R; reflexivity. }
  destruct (first_row (text (s2l ") ") ++ addition) (tjoin ws1) rws hdw (lpar :: rest) W) as (row' & rows' & rest' & E2 & T2); [unfold hdw; destruct (m =? 0)%Z; repeat constructor|].
  assert (RR : rows = row' :: rows') by (rewrite <- AS; exact E2). exists w0, w1, row', rows', rest'. split; [exact RR|]. split; [rewrite T2; unfold hdw; destruct (m =? 0)%Z; reflexivity|].
  rewrite RR in E1. cbn [map concat] in E1. rewrite T2 in E1. unfold hdw in E1. clear - E1.
  destruct (m =? 0)%Z; cbn [app] in E1; injection E1 as E1; refine (eq_trans E1 _); cbn [app]; now rewrite <- app_assoc.
Qed.
Lemma hash_ordinary c n m geo key id c' : ordinary c n m geo key -> hash_cell id None c = Ok c' ->
  exists geo', ordinary c' n m geo' key /\ c_hidden c' = c_hidden c /\ c_name c' = c_name c.
Proof.
  intros O H. unfold hash_cell in H. set (w := length (str_of_Z id) - 1) in *. set (ad := text (s2l "#") ++ Hole w :: text (s2l " ")) in *. destruct (add_symbol ad true c) as [rows|] eqn:AS; cbn [bind] in H; [|discriminate]. cbn [renumbered c_values] in H. injection H as <-.
  destruct (add_symbol_rows_first c n m geo key ad rows O AS) as (w0 & w1 & row' & rows' & rest' & RR & T & E).
  assert (TS : tsplit ad = [text (s2l "#") ++ [Hole w]]) by reflexivity. rewrite TS in E. destruct O as [_ OG OK (gs & ks & EV & LG & NG & FG & FK) OD].
  exists (lpar :: geo ++ rpar :: [text (s2l "#") ++ [Hole w]]). split; [|split; reflexivity]. cbn [with_values c_name c_input c_hidden].
  constructor; cbn [c_input c_values c_hidden with_values].
  - exists w0, w1, row', rest', rows'. split; [exact RR|]. split; [exact T|exact E].
  - constructor; [split; [reflexivity|intros [Q|[]]; discriminate]|]. apply Forall_app. split; [exact OG|]. constructor; [split; [reflexivity|intros [Q|[]]; discriminate]|]. constructor; [split; [reflexivity|intros [Q|[Q|[]]]; discriminate]|constructor].
  - exact OK.
  - rewrite EV. rewrite insert_after_geometry by assumption. exists (gs ++ [(id, Kcel)]), ks. split; [now rewrite <- app_assoc|]. split.
    + rewrite app_length, LG. unfold hole_count. cbn [concat]. rewrite concat_app. cbn [concat]. rewrite !filter_app, !app_length. cbn. lia.
    + split; [destruct gs; discriminate|]. split; [|exact FK]. apply Forall_app. split; [exact FG|]. constructor; [now right|constructor].
  - exact OD.
Qed.
Lemma hash_step c n ls g head kw id : Readable c n ls g head kw -> (0 <= id)%Z ->
  exists c' ls' g', hash_cell id None c = Ok c' /\ Readable c' n ls' g' head kw /\ c_name c' = c_name c /\
    (forall side cell, inside side cell g' = inside side cell g && negb (cell (str_of_Z id))).
Proof.
  intros [(m & geo & key & O & HH) T R WD] P. destruct (abs_digits id) as [D ND]. rewrite Z.abs_eq in D, ND by exact P. set (w := length (str_of_Z id) - 1).
  destruct (edit_one c n m geo key (text (s2l "#") ++ [Hole w]) id Kcel None ls O T) as [rows [gw [k0 [ls' [t [AS [T' [F [E1 [E2 [E3 E4]]]]]]]]]]]; try reflexivity.
  - apply text_word; [right; exact I|repeat constructor].
  - intros [Q|[Q|[]]]; discriminate.
  - rewrite fill_text in F by repeat constructor. injection F as <-. rewrite ljust_less in E2, E4 by (unfold w; lia).
    assert (SP : split (s2l "#" ++ str_of_Z id) = [s2l "#" ++ str_of_Z id]) by (apply split_one; [discriminate|apply Forall_app; split; [repeat constructor|now apply digits_ws]]). change (s2l "#" ++ str_of_Z id) with ("#"%char :: str_of_Z id) in SP. rewrite SP in E2, E4. change ("#"%char :: str_of_Z id) with (s2l "#" ++ str_of_Z id) in E2, E4.
    assert (HC : exists c', hash_cell id None c = Ok c' /\ card_text c' = Ok ls'). { unfold hash_cell. fold w. change (text (s2l "#") ++ Hole w :: text (s2l " ")) with ((text (s2l "#") ++ [Hole w]) ++ text (s2l " ")). rewrite AS. cbn [bind]. eexists. split; [reflexivity|exact T']. }
    destruct HC as (c' & HC & TC). destruct (hash_ordinary c n m geo key id c' O HC) as (geo' & O' & HD & NM).
    assert (TK : tokens [s2l "#" ++ str_of_Z id] = [THash; TNum false (str_of_Z id)]). { unfold tokens. cbn [map concat]. rewrite app_nil_r. change (s2l "#" ++ str_of_Z id) with ("#"%char :: str_of_Z id). rewrite lex_sym by reflexivity. now rewrite lex_id. }
    exists c', ls', (GAnd g (GNot (GCell (str_of_Z id)))). split; [exact HC|]. split; [|split; [exact NM|reflexivity]].
    assert (HT : head = hd_text n m (c_hidden c)). { rewrite HH. unfold hd_text. destruct (Z.eqb_spec m 0) as [Z0|Z0]; [reflexivity|]. destruct O as [_ _ _ _ OD]. destruct (OD Z0) as (d & hs & -> & _). reflexivity. }
    assert (K0 : k0 = kw). { rewrite E3, HT in WD. pose proof (eq_trans (eq_sym WD) E1) as X. apply app_inv_head in X. apply app_inv_head in X. congruence. }
    constructor.
    + exists m, geo', key. split; [exact O'|]. rewrite HD. exact HH.
    + exact TC.
    + unfold region_of in *. rewrite E4, tokens_wrapped, TK. rewrite E3 in R. apply wrapped_and; [exact R|]. apply f_cell.
    + rewrite E4, HT, <- K0. exact E2.
Qed.

Definition ops (d : list (Z * list Z)) : list (Z * Z) := concat (map (fun p => map (pair (fst p)) (snd p)) d).
Definition op (cells : cdict) (h : heap) (p : Z * Z) : res heap := hash_one cells (fst p) h (snd p).
Lemma loop_app {A B} (f : A -> B -> res A) l1 : forall a l2, loop f a (l1 ++ l2) = match loop f a l1 with (a', None) => loop f a' l2 | r => r end.
Proof. induction l1 as [|x l1 IH]; intros a l2; [reflexivity|]. cbn [app loop]. destruct (f a x); [apply IH|reflexivity]. Qed.
Lemma loop_map {A B C} (f : A -> B -> res A) (g : C -> B) l : forall a, loop f a (map g l) = loop (fun a c => f a (g c)) a l.
Proof. induction l as [|x l IH]; intros a; [reflexivity|]. cbn [map loop]. destruct (f a (g x)); [apply IH|reflexivity]. Qed.
Lemma multi_flat cells d : forall h, hash_multiple_cells cells h d = loop (op cells) h (ops d).
Proof.
  induction d as [|[id ns] d IH]; intros h; [reflexivity|]. cbn [hash_multiple_cells]. unfold ops. cbn [map concat fst snd]. rewrite loop_app, loop_map. unfold op at 1. cbn [fst snd].
  change (loop (fun a c => hash_one cells id a c) h ns) with (loop (hash_one cells id) h ns). destruct (loop (hash_one cells id) h ns) as [h' [e|]]; [reflexivity|]. apply IH.
Qed.
Definition for_cell (n : Z) (o : list (Z * Z)) : list Z := map fst (filter (fun p => (snd p =? n)%Z) o).
Lemma for_cell_hashes d n : for_cell n (ops d) = hashes d n.
Proof.
  unfold hashes, ops, for_cell. induction d as [|[id ns] d IH]; [reflexivity|]. cbn [map concat fst snd]. rewrite filter_app, map_app, IH. f_equal. clear.
  induction ns as [|x ns IH]; [reflexivity|]. cbn [map filter snd count_occ]. destruct (Z.eqb_spec x n) as [E|E]; destruct (Z.eq_dec x n) as [E'|E']; try congruence; cbn [map fst repeat]; now rewrite IH.
Qed.
Definition stored (cells : cdict) (h : heap) (n : Z) (l : loc) (c : card) : Prop := dget str_eqb (str_of_Z n) cells = Some l /\ nth_error h l = Some c.
Lemma loc_inj cells n n' l : NoDup (locs cells) -> dget str_eqb (str_of_Z n) cells = Some l -> dget str_eqb (str_of_Z n') cells = Some l -> n = n'.
Proof.
  intros ND A B. apply (dget_some_in str_eqb str_eqb_eq) in A, B. apply str_of_Z_inj. revert A B. induction cells as [|[k v] cells IH]; intros A B; [destruct A|]. unfold locs in ND. cbn [map snd] in ND. apply NoDup_cons_iff in ND as [N ND].
  destruct A as [A|A], B as [B|B]; [congruence| | |now apply IH].
  - injection A as -> ->. elim N. change l with (snd (str_of_Z n', l)). now apply in_map.
  - injection B as -> ->. elim N. change l with (snd (str_of_Z n, l)). now apply in_map.
Qed.
Lemma run_ops cells o : NoDup (locs cells) -> forall h, (forall id n, In (id, n) o -> (0 <= id)%Z /\ exists l c ls g head kw, stored cells h n l c /\ Readable c n ls g head kw) ->
  exists h', loop (op cells) h o = (h', None) /\ length h' = length h /\
    (forall l, (forall id n, In (id, n) o -> dget str_eqb (str_of_Z n) cells <> Some l) -> nth_error h' l = nth_error h l) /\
    (forall n l c ls g head kw, stored cells h n l c -> Readable c n ls g head kw -> exists c' ls' g', nth_error h' l = Some c' /\ c_name c' = c_name c /\ Readable c' n ls' g' head kw /\
       forall side cell, inside side cell g' = inside side cell g && forallb (fun id => negb (cell (str_of_Z id))) (for_cell n o)).
Proof.
  intros ND. induction o as [|[id n0] o IH]; intros h H.
  - exists h. split; [reflexivity|]. split; [reflexivity|]. split; [reflexivity|]. intros n l c ls g head kw [_ G] R. exists c, ls, g. split; [exact G|]. split; [reflexivity|]. split; [exact R|]. intros side cell. cbn. now rewrite andb_true_r.
  - destruct (H id n0 (or_introl eq_refl)) as (P & l0 & c0 & ls0 & g0 & hd0 & kw0 & [D0 G0] & R0).
    destruct (hash_step c0 n0 ls0 g0 hd0 kw0 id R0 P) as (c1 & ls1 & g1 & HC & R1 & NM1 & _).
    assert (B0 : l0 < length h) by (apply nth_error_Some; congruence).
    destruct (IH (hset h l0 c1)) as (h' & E & L & O & I).
    + intros id' n' X. destruct (H id' n' (or_intror X)) as (P' & l & c & ls & g & hd' & kw & [D G] & R). split; [exact P'|]. destruct (Nat.eq_dec l l0) as [->|NE].
      * rewrite (loc_inj cells n' n0 l0 ND D D0). exists l0, c1, ls1, g1, hd0, kw0. split; [split; [exact D0|now apply hset_same]|exact R1].
      * exists l, c, ls, g, hd', kw. split; [split; [exact D|]|exact R]. now rewrite hset_other by congruence.
    + exists h'. split; [|split; [|split]].
      * cbn [loop]. unfold op at 1, hash_one. cbn [fst snd]. rewrite D0. cbn [of_opt bind]. unfold hget. rewrite G0. cbn [of_opt bind]. rewrite HC. cbn [bind]. exact E.
      * now rewrite L, hset_length.
      * intros l N. rewrite O by (intros i n X; apply (N i n); now right). apply hset_other. intros X. subst l. now elim (N id n0 (or_introl eq_refl)).
      * intros n l c ls g head kw [D G] R. unfold for_cell. cbn [filter snd]. destruct (Z.eqb_spec n0 n) as [EN|EN].
        -- subst n. assert (l = l0) by congruence. subst l. assert (c = c0) by congruence. subst c.
           destruct (hash_step c0 n0 ls g head kw id R P) as (c1' & ls1' & g1' & HC' & R1' & NM' & IN). assert (c1' = c1) by congruence. subst c1'.
           destruct (I n0 l0 c1 ls1' g1' head kw) as (c' & ls' & g' & A1 & A2 & A3 & A4); [split; [exact D0|now apply hset_same]|exact R1'|]. exists c', ls', g'. split; [exact A1|]. split; [congruence|]. split; [exact A3|].
           intros side cell. rewrite A4, IN. cbn [map fst forallb]. now rewrite andb_assoc.
        -- assert (NE : l0 <> l) by (intros X; subst l; apply EN; now apply (loc_inj cells n0 n l0 ND)). apply (I n l c ls g head kw); [split; [exact D|]|exact R]. now rewrite hset_other.
Qed.
