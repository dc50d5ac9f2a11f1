From Coq Require Import Lia ZArith Qabs Lqa.
From Verif Require Import PyBase PyStr PyText PyLemmas LibModel LibSpec D1SModel D1SProofs MatModel MatInfoModel MatInfoSpec MatInfoProofs XmlModel XmlSpec.
Open Scope nat_scope.

(** ** attributes *)
Lemma escape_means v : Means (escape v) v.
Proof.
  induction v as [|c v IH]; [constructor|]. unfold escape. cbn [flat_map]. fold (escape v). unfold escape_c.
  repeat match goal with |- context [Ascii.eqb c ?k] => destruct (Ascii.eqb_spec c k) as [->|?]; [apply M_entity; [cbn; tauto|exact IH]|] end.
  cbn [app]. apply M_char; [|exact IH]. cbn. unfold nl. intros [K|[K|[K|[K|[]]]]]; congruence.
Qed.
Definition entities : list (str * ascii) := [(s2l "&amp;", "&"%char); (s2l "&lt;", "<"%char); (s2l "&gt;", ">"%char); (s2l "&quot;", """"%char);
                                     (s2l "&#13;", "013"%char); (s2l "&#10;", "010"%char); (s2l "&#09;", "009"%char)].
Lemma means_clean t v : Means t v -> ~ In """"%char t /\ ~ In nl t.
Proof.
  induction 1 as [|c t v N H IH|name c t v N H IH]; [split; intros []| |].
  - split; intros [->|K]; [apply N; cbn; tauto|tauto|apply N; cbn; tauto|tauto].
  - assert (~ In """"%char name /\ ~ In nl name) as [N1 N2].
    { cbn in N. repeat destruct N as [N|N]; try (injection N as <- _; split; cbn; intuition discriminate). destruct N. }
    split; intros K; apply in_app_or in K; tauto.
Qed.
Lemma means_fun t v : Means t v -> forall v', Means t v' -> v = v'.
Proof.
  induction 1 as [|c t v N H IH|name c t v N H IH]; intros v' H'.
  - inversion H' as [| |name c t v N _ E]; [reflexivity|]. cbn in N. repeat destruct N as [N|N]; try (injection N as <- _; discriminate E). destruct N.
  - inversion H' as [|c' t' v'' N' H1|name c' t' v'' N' H1 E]; subst; [f_equal; auto|]. exfalso. cbn in N'.
    repeat destruct N' as [N'|N']; try (injection N' as <- <-; cbn in E; injection E as E1 E2; apply N; rewrite <- E1; cbn; tauto). destruct N'.
  - inversion H' as [E|c' t' v'' N' H1 E|name' c' t' v'' N' H1 E].
    + exfalso. cbn in N. repeat destruct N as [N|N]; try (injection N as <- _; discriminate E). destruct N.
    + exfalso. cbn in N. repeat destruct N as [N|N]; try (injection N as <- _; cbn in E; injection E as E1 _; apply N'; rewrite E1; cbn; tauto). destruct N.
    + cbn in N, N'. repeat destruct N as [N|N]; try (injection N as <- <-); repeat destruct N' as [N'|N']; try (injection N' as <- <-); try contradiction; cbn in E; try discriminate E;
        injection E as E; subst; f_equal; auto.
Qed.
Lemma attribute_escape name v : attribute name v (attr_text (s2l name, v)).
Proof. exists (escape v). split; [apply escape_means|reflexivity]. Qed.

(** ** the lines of the document *)
Definition nuc_elem (n : xnuc) : xml := element (s2l "nuclide") [(s2l "name", xn_name n); ((if xn_weight n then s2l "wo" else s2l "ao"), xn_amount n)] [].
Definition mat_elem (m : xmaterial) : xml := element (s2l "material") [(s2l "id", xm_id m); (s2l "name", xm_name m)]
  (element (s2l "density") [(s2l "value", xm_density m); (s2l "units", xm_units m)] [] :: map nuc_elem (xm_nuclides m)).

Lemma hollow_margin n : hollow (Some (margin n)) = true.
Proof.
  unfold hollow, margin, strip. assert (L : forall k, lstrip (repeat sp k) = []) by (intros k; induction k; [reflexivity|exact IHk]).
  replace (lstrip (nl :: repeat sp (2 * n))) with (@nil ascii); [reflexivity|]. symmetry. exact (L _).
Qed.
(** a leaf at a level, followed by a margin *)
Definition tag_text (tag : str) (attrs : list (str * str)) : str := s2l "<" ++ tag ++ concat (map attr_text attrs).
Definition kid_tail (n : nat) (e : xml) : xml := with_tail (fill (x_tail e) (margin n)) e.
(** texts of the children: each ends with the margin of its own level, the last with that of its parent *)
Lemma serialize_tail e tl : serialize (with_tail tl e) = serialize (with_tail None e) ++ match tl with Some t => t | None => [] end.
Proof. destruct e as [tag at_ tx tl' ks]. cbn [with_tail serialize]. rewrite app_nil_r, <- !app_assoc. reflexivity. Qed.
Definition bare (n : nat) (e : xml) : str := serialize (with_tail None (indent n e)).
Lemma tail_of n tag at_ ks : x_tail (indent (S n) (element tag at_ ks)) = Some (margin (S n)).
Proof. unfold element. destruct ks; reflexivity. Qed.
Lemma kids_text n ks : ks <> [] -> Forall (fun k => exists tag at_ ks', k = element tag at_ ks') ks ->
  margin n ++ [sp; sp] ++ concat (map serialize (on_last (kid_tail n) (map (indent (S n)) ks))) = concat (map (fun k => margin (S n) ++ bare (S n) k) ks) ++ margin n.
Proof.
  intros Hn HF. assert (M : margin n ++ [sp; sp] = margin (S n)).
  { unfold margin. cbn [app]. f_equal. replace (2 * S n) with (2 * n + 2) by lia. rewrite repeat_app. reflexivity. }
  rewrite app_assoc, M. clear M. induction HF as [|k ks (tag & at_ & ks' & Ek) HF IH]; [contradiction|]. destruct ks as [|k2 ks].
  - cbn [map on_last concat]. rewrite !app_nil_r. unfold kid_tail. rewrite serialize_tail. replace (x_tail (indent (S n) k)) with (Some (margin (S n))) by (rewrite Ek; symmetry; apply tail_of). unfold fill. rewrite hollow_margin. rewrite <- app_assoc. reflexivity.
  - change (map (indent (S n)) (k :: k2 :: ks)) with (indent (S n) k :: map (indent (S n)) (k2 :: ks)). cbn [map] in IH |- *. cbn [on_last]. cbn [on_last] in IH. cbn [map concat]. rewrite <- !app_assoc. f_equal.
    assert (S1 : serialize (indent (S n) k) = bare (S n) k ++ margin (S n)).
    { unfold bare. replace (indent (S n) k) with (with_tail (Some (margin (S n))) (indent (S n) k)) at 1; [rewrite serialize_tail; reflexivity|]. rewrite Ek. unfold element. destruct ks'; reflexivity. }
    rewrite S1, <- app_assoc. f_equal. cbn [map concat] in IH. rewrite IH by discriminate. rewrite <- ?app_assoc. reflexivity.
Qed.
Lemma bare_leaf n tag at_ : bare (S n) (element tag at_ []) = tag_text tag at_ ++ s2l " />".
Proof. unfold bare, tag_text, element. cbn [indent Nat.ltb Nat.leb with_tail serialize]. rewrite app_nil_r, <- !app_assoc. reflexivity. Qed.
Lemma bare_node n tag at_ ks : ks <> [] -> Forall (fun k => exists tag at_ ks', k = element tag at_ ks') ks ->
  bare n (element tag at_ ks) = tag_text tag at_ ++ s2l ">" ++ concat (map (fun k => margin (S n) ++ bare (S n) k) ks) ++ margin n ++ s2l "</" ++ tag ++ s2l ">".
Proof.
  intros Hn HF. rewrite (app_assoc (concat _)), <- kids_text by assumption. unfold bare, tag_text, element. destruct ks as [|k ks]; [contradiction|]. cbn [indent].
  cbn [with_tail serialize fill hollow]. rewrite app_nil_r. fold (kid_tail n). rewrite <- !app_assoc. reflexivity.
Qed.

Lemma margin_line n s rest : margin n ++ s ++ nl :: rest = nl :: (repeat sp (2 * n) ++ s ++ [nl]) ++ rest.
Proof. unfold margin. cbn [app]. rewrite <- !app_assoc. reflexivity. Qed.
(** a text "\n" a "\n" b ... is the lines a, b, ... *)
Lemma shift (ls : list str) (s : list str) rest : Forall2 (fun l s => l = s ++ [nl]) ls s ->
  concat (map (fun x => nl :: x) s) ++ nl :: rest = nl :: concat ls ++ rest.
Proof.
  intros H. induction H as [|l s0 ls s -> H IH]; [reflexivity|]. cbn [map concat]. rewrite <- app_assoc, IH. cbn [app]. rewrite <- !app_assoc. reflexivity.
Qed.
Definition padded (n : nat) (s : str) : str := repeat sp (2 * n) ++ s.
Lemma margin_padded n s : margin n ++ s = nl :: padded n s. Proof. reflexivity. Qed.
Lemma nuc_line n : NuclideLine n (padded 2 (bare 2 (nuc_elem n)) ++ [nl]).
Proof.
  unfold nuc_elem. rewrite bare_leaf. exists (attr_text (s2l "name", xn_name n)), (attr_text ((if xn_weight n then s2l "wo" else s2l "ao"), xn_amount n)).
  split; [apply attribute_escape|]. split; [destruct (xn_weight n); apply attribute_escape|]. unfold line, padded, tag_text. cbn [map concat]. rewrite app_nil_r, <- !app_assoc. reflexivity.
Qed.
(** the text of a material, without its own margin *)
Definition mat_lines (m : xmaterial) : list str :=
  (padded 1 (tag_text (s2l "material") [(s2l "id", xm_id m); (s2l "name", xm_name m)] ++ s2l ">") ++ [nl])
  :: (padded 2 (tag_text (s2l "density") [(s2l "value", xm_density m); (s2l "units", xm_units m)] ++ s2l " />") ++ [nl])
  :: map (fun n => padded 2 (bare 2 (nuc_elem n)) ++ [nl]) (xm_nuclides m) ++ [padded 1 (s2l "</material>") ++ [nl]].
Lemma mat_lines_ok m : MaterialLines m (mat_lines m).
Proof.
  exists (attr_text (s2l "id", xm_id m)), (attr_text (s2l "name", xm_name m)), (attr_text (s2l "value", xm_density m)), (attr_text (s2l "units", xm_units m)).
  eexists _, _, (map (fun n => padded 2 (bare 2 (nuc_elem n)) ++ [nl]) (xm_nuclides m)), _.
  split; [apply attribute_escape|]. split; [apply attribute_escape|]. split; [apply attribute_escape|]. split; [apply attribute_escape|].
  split; [reflexivity|]. split; [reflexivity|]. split; [|split; [reflexivity|]].
  - induction (xm_nuclides m) as [|n l IH]; [constructor|]. cbn [map]. constructor; [apply nuc_line|exact IH].
  - unfold mat_lines, padded, tag_text. cbn [map concat]. rewrite !app_nil_r, <- !app_assoc. reflexivity.
Qed.
Lemma mat_text m rest : margin 1 ++ bare 1 (mat_elem m) ++ nl :: rest = nl :: concat (mat_lines m) ++ rest.
Proof.
  unfold mat_elem. rewrite bare_node; [|discriminate|constructor; [unfold element; eauto|apply Forall_forall; intros k Hk; apply in_map_iff in Hk; destruct Hk as (n & <- & _); unfold nuc_elem; eauto]].
  unfold mat_lines. rewrite <- (shift _ (padded 1 (tag_text (s2l "material") [(s2l "id", xm_id m); (s2l "name", xm_name m)] ++ s2l ">")
     :: padded 2 (tag_text (s2l "density") [(s2l "value", xm_density m); (s2l "units", xm_units m)] ++ s2l " />")
     :: map (fun n => padded 2 (bare 2 (nuc_elem n))) (xm_nuclides m) ++ [padded 1 (s2l "</material>")])).
  - cbn [map concat]. rewrite bare_leaf. rewrite map_app, concat_app. cbn [map concat]. rewrite !margin_padded. unfold padded.
    rewrite !map_map. rewrite <- ?app_assoc. cbn [app]. rewrite <- ?app_assoc. cbn [app]. rewrite <- ?app_assoc. reflexivity.
  - repeat constructor. apply Forall2_app; [|repeat constructor]. induction (xm_nuclides m) as [|n l IH]; [constructor|]. cbn [map]. constructor; [reflexivity|exact IH].
Qed.
Lemma doc_text ms : Document ms (serialize (indent 0 (element (s2l "materials") [] (map mat_elem ms)))).
Proof.
  destruct ms as [|m0 ms0]; [reflexivity|]. set (ms := m0 :: ms0). unfold Document. change (match ms with [] => ?a | _ => ?b end) with b.
  exists (s2l "<materials>" ++ [nl]), (map mat_lines ms), (s2l "</materials>" ++ [nl]). split; [reflexivity|].
  split; [clear; induction ms as [|m l IH]; [constructor|]; cbn [map]; constructor; [apply mat_lines_ok|exact IH]|]. split; [reflexivity|].
  assert (E : serialize (indent 0 (element (s2l "materials") [] (map mat_elem ms))) = bare 0 (element (s2l "materials") [] (map mat_elem ms)) ++ [nl]).
  { exact (serialize_tail (indent 0 (element (s2l "materials") [] (map mat_elem ms))) (Some (margin 0))). }
  rewrite E, bare_node; [|discriminate|apply Forall_forall; intros k Hk; apply in_map_iff in Hk; destruct Hk as (n & <- & _); unfold mat_elem; eauto].
  rewrite map_map. cbn [concat]. rewrite concat_app. cbn [concat]. rewrite app_nil_r, <- !app_assoc.
  assert (G : forall l rest, concat (map (fun x => margin 1 ++ bare 1 (mat_elem x)) l) ++ nl :: rest = nl :: concat (concat (map mat_lines l)) ++ rest).
  { clear. induction l as [|m l IH]; intros rest; [reflexivity|]. cbn [map concat]. rewrite concat_app, <- !app_assoc, IH, mat_text. reflexivity. }
  change (margin 0) with [nl]. cbn [app]. rewrite G. reflexivity.
Qed.

(** ** the text determines its content *)
Lemma quoted q q' r r' : ~ In """"%char q -> ~ In """"%char q' -> q ++ s2l """" ++ r = q' ++ s2l """" ++ r' -> q = q' /\ r = r'.
Proof.
  revert q'. induction q as [|c q IH]; intros [|c' q'] N N' E; cbn in E.
  - injection E as E. auto.
  - injection E as E _. exfalso. apply N'. left. symmetry. exact E.
  - injection E as E _. exfalso. apply N. left. exact E.
  - injection E as -> E. destruct (IH q') as [-> ->]; [intros K; apply N; right; exact K|intros K; apply N'; right; exact K|exact E|auto].
Qed.
Lemma attribute_inj name v v' a a' r r' : attribute name v a -> attribute name v' a' -> a ++ r = a' ++ r' -> v = v' /\ r = r'.
Proof.
  intros (q & M & ->) (q' & M' & ->) E. rewrite <- !app_assoc in E. apply app_inv_head, app_inv_head, app_inv_head in E.
  apply quoted in E; [|apply (means_clean q v M)|apply (means_clean q' v' M')]. destruct E as [-> ->]. split; [exact (means_fun _ _ M _ M')|reflexivity].
Qed.
Lemma line_inj n s s' : repeat sp (2 * n) ++ s ++ [nl] = repeat sp (2 * n) ++ s' ++ [nl] -> s = s'.
Proof. intros H. apply app_inv_head in H. apply app_inj_tail in H. apply H. Qed.
Lemma nuclide_line_inj n n' l : NuclideLine n l -> NuclideLine n' l -> n = n'.
Proof.
  intros (a1 & a2 & H1 & H2 & ->) (b1 & b2 & K1 & K2 & E). apply line_inj, app_inv_head in E. destruct n as [x w y], n' as [x' w' y']. cbn [xn_name xn_weight xn_amount] in *.
  destruct (attribute_inj _ _ _ _ _ _ _ H1 K1 E) as [-> E2]. destruct w, w'.
  - destruct (attribute_inj _ _ _ _ _ _ _ H2 K2 E2) as [-> _]. reflexivity.
  - exfalso. destruct H2 as (q & _ & ->), K2 as (q' & _ & ->). discriminate E2.
  - exfalso. destruct H2 as (q & _ & ->), K2 as (q' & _ & ->). discriminate E2.
  - destruct (attribute_inj _ _ _ _ _ _ _ H2 K2 E2) as [-> _]. reflexivity.
Qed.
(** heads of lines *)
Lemma nuclide_head n l : NuclideLine n l -> exists r, l = sp :: sp :: sp :: r.
Proof. intros (a1 & a2 & _ & _ & ->). eexists. reflexivity. Qed.
Lemma nuclides_inj ns ls : Forall2 NuclideLine ns ls -> forall ns' ls' c c' r r', Forall2 NuclideLine ns' ls' ->
  (forall x, c <> sp :: sp :: sp :: x) -> (forall x, c' <> sp :: sp :: sp :: x) -> ls ++ c :: r = ls' ++ c' :: r' -> ns = ns' /\ r = r'.
Proof.
  induction 1 as [|n l ns ls Hn H IH]; intros ns' ls' c c' r r' H' Nc Nc' E; destruct H' as [|n' l' ns' ls' Hn' H']; cbn [app] in E; injection E as E1 E2.
  - auto.
  - destruct (nuclide_head _ _ Hn') as (x & ->). exfalso. exact (Nc x E1).
  - destruct (nuclide_head _ _ Hn) as (x & ->). exfalso. exact (Nc' x (eq_sym E1)).
  - subst l'. rewrite (nuclide_line_inj _ _ _ Hn Hn'). destruct (IH _ _ _ _ _ _ H' Nc Nc' E2) as [-> ->]. auto.
Qed.
Lemma material_inj m m' ls ls' r r' : MaterialLines m ls -> MaterialLines m' ls' -> ls ++ r = ls' ++ r' -> m = m' /\ r = r'.
Proof.
  intros (a1 & a2 & a3 & a4 & l1 & l2 & ns & l3 & H1 & H2 & H3 & H4 & L1 & L2 & HN & L3 & ->) (b1 & b2 & b3 & b4 & k1 & k2 & ns' & k3 & K1 & K2 & K3 & K4 & M1 & M2 & KN & M3 & ->) E.
  cbn [app] in E. injection E as E1 E2 E3. rewrite <- !app_assoc in E3. cbn [app] in E3. subst k1 k2. rewrite L1 in M1. rewrite L2 in M2.
  apply line_inj, app_inv_head in M1. apply line_inj, app_inv_head in M2. rename M1 into E1, M2 into E2. unfold line in L3, M3. subst l3 k3.
  destruct (attribute_inj _ _ _ _ _ _ _ H1 K1 E1) as [J1 E1']. destruct (attribute_inj _ _ _ _ _ _ _ H2 K2 E1') as [J2 _].
  destruct (attribute_inj _ _ _ _ _ _ _ H3 K3 E2) as [J3 E2']. destruct (attribute_inj _ _ _ _ _ _ _ H4 K4 E2') as [J4 _].
  assert (NC : forall x, repeat sp (2 * 1) ++ s2l "</material>" ++ [nl] <> sp :: sp :: sp :: x) by discriminate.
  destruct (nuclides_inj _ _ HN _ _ _ _ _ _ KN NC NC E3) as [J5 ->]. destruct m, m'. cbn in *. subst. auto.
Qed.
Lemma materials_inj ms lss : Forall2 MaterialLines ms lss -> forall ms' lss' l, l = s2l "</materials>" ++ [nl] -> Forall2 MaterialLines ms' lss' ->
  concat lss ++ [l] = concat lss' ++ [l] -> ms = ms'.
Proof.
  induction 1 as [|m ls ms lss Hm H IH]; intros ms' lss' l El H' E; destruct H' as [|m' ls' ms' lss' Hm' H']; cbn [concat app] in E.
  - reflexivity.
  - exfalso. destruct Hm' as (a1 & a2 & a3 & a4 & l1 & l2 & ns & l3 & _ & _ & _ & _ & -> & -> & _ & _ & ->). subst l. discriminate E.
  - exfalso. destruct Hm as (a1 & a2 & a3 & a4 & l1 & l2 & ns & l3 & _ & _ & _ & _ & -> & -> & _ & _ & ->). subst l. discriminate E.
  - rewrite <- !app_assoc in E. destruct (material_inj _ _ _ _ _ _ Hm Hm' E) as [-> E']. f_equal. exact (IH _ _ _ El H' E').
Qed.
(** the lines contain no other line end *)
Definition one_line (l : str) : Prop := exists b, l = b ++ [nl] /\ ~ In nl b.
Lemma one_line_line n s : ~ In nl s -> one_line (repeat sp (2 * n) ++ s ++ [nl]).
Proof.
  intros N. exists (repeat sp (2 * n) ++ s). split; [rewrite <- app_assoc; reflexivity|]. intros K. apply in_app_or in K. destruct K as [K|K]; [|tauto]. apply repeat_spec in K. discriminate K.
Qed.
Lemma attribute_clean name v a : ~ In nl (s2l name) -> attribute name v a -> ~ In nl a.
Proof.
  intros N (q & M & ->) K. apply in_app_or in K. destruct K as [K|K]; [cbn in K; intuition discriminate|]. apply in_app_or in K. destruct K as [K|K]; [tauto|].
  apply in_app_or in K. destruct K as [K|K]; [cbn in K; intuition discriminate|]. apply in_app_or in K. destruct K as [K|K]; [exact (proj2 (means_clean _ _ M) K)|]. cbn in K. intuition discriminate.
Qed.
Lemma no_nl_app (a b : str) : ~ In nl a -> ~ In nl b -> ~ In nl (a ++ b).
Proof. intros A B K. apply in_app_or in K. tauto. Qed.
Ltac clean := repeat apply no_nl_app; try (cbn; intuition discriminate); try (eapply attribute_clean; [|eassumption]; cbn; intuition discriminate).
Lemma material_one_lines m ls : MaterialLines m ls -> Forall one_line ls.
Proof.
  intros (a1 & a2 & a3 & a4 & l1 & l2 & ns & l3 & H1 & H2 & H3 & H4 & -> & -> & HN & -> & ->). constructor; [apply one_line_line; clean|]. constructor; [apply one_line_line; clean|].
  apply Forall_app. split; [|constructor; [apply one_line_line; clean|constructor]]. clear - HN. induction HN as [|n l ns ls (a1 & a2 & H1 & H2 & ->) HN IH]; constructor; [|exact IH].
  apply one_line_line. destruct (xn_weight n); clean.
Qed.
Lemma document_inj ms ms' t : Document ms t -> Document ms' t -> ms = ms'.
Proof.
  assert (L : forall ms, Document ms t -> ms <> [] -> exists lss, Forall2 MaterialLines ms lss /\ lines_of t = (s2l "<materials>" ++ [nl]) :: concat lss ++ [s2l "</materials>" ++ [nl]]).
  { clear. intros ms D N. destruct ms as [|m ms]; [contradiction|]. destruct D as (l1 & lss & l2 & -> & F & -> & ->). exists lss. split; [exact F|].
    rewrite <- (app_nil_r (concat _)). rewrite lines_concat; [cbn [lines_of lines_aux]; rewrite app_nil_r; reflexivity|].
    constructor; [apply (one_line_line 0); clean|]. apply Forall_app. split; [|constructor; [apply (one_line_line 0); clean|constructor]].
    apply Forall_concat. clear - F. induction F; constructor; [eapply material_one_lines; eassumption|assumption]. }
  intros D D'. destruct ms as [|m ms], ms' as [|m' ms'].
  - reflexivity.
  - exfalso. destruct (L _ D') as (lss & _ & E); [discriminate|]. cbn in D. subst t. discriminate E.
  - exfalso. destruct (L _ D) as (lss & _ & E); [discriminate|]. cbn in D'. subst t. discriminate E.
  - destruct (L _ D) as (lss & F & E); [discriminate|]. destruct (L _ D') as (lss' & F' & E'); [discriminate|]. rewrite E in E'. injection E' as E'. eapply materials_inj; eauto.
Qed.
