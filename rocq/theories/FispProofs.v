(** Proofs about the pathways of FISPACT legacy outputs. *)
From Coq Require Import Lia ZArith Permutation Sorted.
From Verif Require Import PyBase PyLemmas PyStr PyText D1SModel D1SProofs2 DataModel MeshModel MeshSpec MeshProofs MatProofs2 LibModel OutModel OutSpec OutProofs OutProofs2 OutProofs4 FispModel FispSpec.
Open Scope nat_scope.

(** ** classes of characters *)
Lemma ws_upper c : is_ws c = true -> is_upper c = false. Proof. destruct c as [[] [] [] [] [] [] [] []]; vm_compute; congruence. Qed.
Lemma ws_lower c : is_ws c = true -> is_lower c = false. Proof. destruct c as [[] [] [] [] [] [] [] []]; vm_compute; congruence. Qed.
Lemma ws_digit c : is_ws c = true -> is_digit c = false. Proof. destruct c as [[] [] [] [] [] [] [] []]; vm_compute; congruence. Qed.
Lemma ws_letter c : is_ws c = true -> LibModel.is_letter c = false. Proof. destruct c as [[] [] [] [] [] [] [] []]; vm_compute; congruence. Qed.
Lemma digit_upper c : is_digit c = true -> is_upper c = false. Proof. destruct c as [[] [] [] [] [] [] [] []]; vm_compute; congruence. Qed.
Lemma digit_lower c : is_digit c = true -> is_lower c = false. Proof. destruct c as [[] [] [] [] [] [] [] []]; vm_compute; congruence. Qed.
Lemma digit_letter c : is_digit c = true -> LibModel.is_letter c = false. Proof. destruct c as [[] [] [] [] [] [] [] []]; vm_compute; congruence. Qed.
Lemma upper_letter c : is_upper c = true -> LibModel.is_letter c = true. Proof. destruct c as [[] [] [] [] [] [] [] []]; vm_compute; congruence. Qed.
Lemma lower_letter c : is_lower c = true -> LibModel.is_letter c = true. Proof. destruct c as [[] [] [] [] [] [] [] []]; vm_compute; congruence. Qed.
Lemma letter_digit c : LibModel.is_letter c = true -> is_digit c = false. Proof. destruct c as [[] [] [] [] [] [] [] []]; vm_compute; congruence. Qed.
Lemma lower_upper c : is_lower c = true -> is_upper c = false. Proof. destruct c as [[] [] [] [] [] [] [] []]; vm_compute; congruence. Qed.
Lemma digit_dot c : is_digit c = true -> Ascii.eqb c dot = false. Proof. destruct c as [[] [] [] [] [] [] [] []]; vm_compute; congruence. Qed.
Lemma digit_percent c : is_digit c = true -> Ascii.eqb c "%"%char = false. Proof. destruct c as [[] [] [] [] [] [] [] []]; vm_compute; congruence. Qed.
Lemma ws_dot c : is_ws c = true -> Ascii.eqb c dot = false. Proof. destruct c as [[] [] [] [] [] [] [] []]; vm_compute; congruence. Qed.
Lemma ws_percent c : is_ws c = true -> Ascii.eqb c "%"%char = false. Proof. destruct c as [[] [] [] [] [] [] [] []]; vm_compute; congruence. Qed.

(** ** findall *)
Section Find.
Variable f : str -> option (str * str).
Hypothesis Hf : forall s w r, f s = Some (w, r) -> length r < length s.
Lemma find_fuel n : forall m s, length s < n -> length s < m -> find_all f n s = find_all f m s.
Proof.
  induction n as [|n IH]; intros m s Hn Hm; [lia|]. destruct m as [|m]; [lia|]. cbn [find_all]. destruct (f s) as [[w r]|] eqn:E; [apply Hf in E; f_equal; apply IH; lia|].
  destruct s as [|c s]; [reflexivity|]. cbn [length] in *. apply IH; lia.
Qed.
Lemma findall_hit s w r : f s = Some (w, r) -> findall f s = w :: findall f r.
Proof. intros E. unfold findall at 1. cbn [find_all]. rewrite E. f_equal. apply Hf in E. apply find_fuel; lia. Qed.
Lemma findall_miss c s : f (c :: s) = None -> findall f (c :: s) = findall f s.
Proof. intros E. unfold findall at 1. cbn [find_all]. rewrite E. apply find_fuel; cbn [length]; lia. Qed.
Lemma findall_nil : f [] = None -> findall f [] = [].
Proof. intros E. unfold findall. cbn [find_all length]. rewrite E. reflexivity. Qed.
Lemma findall_skip g r : (forall g1 c g2, g = g1 ++ c :: g2 -> f (c :: g2 ++ r) = None) -> findall f (g ++ r) = findall f r.
Proof.
  induction g as [|c g IH]; intros H; [reflexivity|]. cbn [app]. rewrite findall_miss by (apply (H [] c g eq_refl)). apply IH. intros g1 x g2 E. apply (H (c :: g1) x g2). rewrite E. reflexivity.
Qed.
End Find.
Lemma span_len p s : forall a b, span p s = (a, b) -> length a + length b = length s.
Proof.
  induction s as [|c s IH]; intros a b E; cbn [span] in E; [injection E as <- <-; reflexivity|]. destruct (p c); [|injection E as <- <-; reflexivity]. destruct (span p s) as [x y]. injection E as <- <-. specialize (IH _ _ eq_refl). cbn [length]. lia.
Qed.
Lemma some1_len p s a b : some1 p s = Some (a, b) -> length a + length b = length s.
Proof. unfold some1. destruct (span p s) as [x y] eqn:E. apply span_len in E. destruct x; [discriminate|]. intros X. injection X as <- <-. exact E. Qed.
Lemma zaid_len s w r : zaid_at s = Some (w, r) -> length r < length s.
Proof.
  destruct s as [|u a]; [discriminate|]. cbn [zaid_at]. destruct (is_upper u); [|discriminate]. destruct (span is_lower a) as [lo b] eqn:E1. destruct (span is_ws b) as [w0 c] eqn:E2. destruct (some1 is_digit c) as [[d e]|] eqn:E3; [|discriminate]. cbn [obind].
  destruct (span (char_is "m"%char) e) as [m f] eqn:E4. intros X. injection X as <- <-. apply span_len in E1, E2, E4. apply some1_len in E3. cbn [length]. lia.
Qed.
Lemma reac_len s w r : reac_at s = Some (w, r) -> length r < length s.
Proof.
  destruct s as [|u a]; [discriminate|]. cbn [reac_at]. destruct (Ascii.eqb u "("%char); [|discriminate]. destruct (some1 is_reac a) as [[x b]|] eqn:E; [|discriminate]. cbn [obind]. apply some1_len in E. destruct b as [|y c]; [discriminate|].
  destruct (Ascii.eqb y ")"%char); [|discriminate]. intros X. injection X as <- <-. cbn [length] in *. lia.
Qed.

(** ** nuclides *)
Definition clear (s : str) : Prop := match s with [] => True | c :: _ => is_ws c = true \/ c = minus end.
Lemma clear_digit s : clear s -> not_starting_digit s. Proof. intros H c r ->. destruct H as [H| ->]; [apply ws_digit; exact H|reflexivity]. Qed.
Lemma zaid_found z t r : NuclideText z t -> clear r -> zaid_at (t ++ r) = Some (t, r).
Proof.
  intros (w & -> & (u & lo & Ee & Hu & Hlo) & Hw & Hn & Hd) Hr. rewrite Ee. cbn [app zaid_at]. rewrite Hu. rewrite <- !app_assoc.
  rewrite (span_app is_lower lo). 2:exact Hlo. 2:{ intros c x E. destruct w as [|c0 w]; cbn [app] in E; [|injection E as <- _; apply ws_lower; inversion Hw; assumption]. destruct (n_iso z) as [|c0 d]; [congruence|]. injection E as <- _. apply digit_lower. inversion Hd; assumption. }
  rewrite (span_app is_ws w). 2:exact Hw. 2:{ intros c x E. destruct (n_iso z) as [|c0 d]; [congruence|]. injection E as <- _. apply digit_ws. inversion Hd; assumption. }
  rewrite (some1_app is_digit (n_iso z)) by first [assumption|destruct (n_meta z); [intros c x E; injection E as <- _; reflexivity|apply clear_digit; exact Hr]]. cbn [obind].
  destruct (n_meta z).
  - rewrite (span_app (char_is "m"%char) (s2l "m")); [reflexivity|repeat constructor|]. intros c x ->. destruct Hr as [H| ->]; [|reflexivity]. unfold char_is. destruct (Ascii.eqb_spec c "m"%char) as [->|]; [discriminate H|reflexivity].
  - cbn [app]. pose proof (span_app (char_is "m"%char) [] r (Forall_nil _)) as E. cbn [app] in E. rewrite E; [reflexivity|]. intros c x ->. destruct Hr as [H| ->]; [|reflexivity]. unfold char_is. destruct (Ascii.eqb_spec c "m"%char) as [->|]; [discriminate H|reflexivity].
Qed.
Lemma zaid_no c s : is_upper c = false -> zaid_at (c :: s) = None. Proof. intros H. cbn [zaid_at]. rewrite H. reflexivity. Qed.
Lemma no_upper_skip g r : Forall (fun c => is_upper c = false) g -> findall zaid_at (g ++ r) = findall zaid_at r.
Proof. intros H. apply findall_skip; [exact zaid_len|]. intros g1 c g2 ->. apply zaid_no. rewrite Forall_forall in H. apply H. apply in_or_app. right. left. reflexivity. Qed.
Lemma ws_no_upper w : ws w -> Forall (fun c => is_upper c = false) w. Proof. apply Forall_impl. exact ws_upper. Qed.
Lemma edge_skip e r : EdgeText e -> findall zaid_at (e ++ r) = findall zaid_at r.
Proof.
  intros (w1 & x & w2 & -> & H1 & H2). rewrite <- app_assoc. rewrite no_upper_skip by (apply ws_no_upper; exact H1). rewrite <- app_assoc. rewrite no_upper_skip by (repeat constructor). change ((x :: s2l ")---" ++ w2) ++ r) with (x :: (s2l ")---" ++ w2) ++ r).
  rewrite (findall_miss _ zaid_len). 2:{ cbn [zaid_at]. destruct (is_upper x); reflexivity. }
  rewrite <- app_assoc. rewrite no_upper_skip by (repeat constructor). apply no_upper_skip. apply ws_no_upper. exact H2.
Qed.
Lemma edge_clear e r : EdgeText e -> clear (e ++ r).
Proof. intros (w1 & x & w2 & -> & H1 & H2). destruct H1; [right; reflexivity|left; assumption]. Qed.
Lemma chain_found zs t : ChainText zs t -> exists ts, findall zaid_at t = ts /\ Forall2 NuclideText zs ts.
Proof.
  intros (parts & -> & HF). exists (map fst parts). split.
  - induction HF as [|z p zs parts [H1 H2] HF IH]; [apply findall_nil; reflexivity|]. unfold chain_text. cbn [map concat]. rewrite <- app_assoc.
    rewrite (findall_hit _ zaid_len _ _ _ (zaid_found z (fst p) _ H1 (edge_clear _ _ H2))). f_equal. rewrite edge_skip by exact H2. exact IH.
  - induction HF as [|z p zs parts [H1 H2] HF IH]; constructor; assumption.
Qed.
Lemma span_letters_app a b : Forall (fun c => LibModel.is_letter c = true) a -> not_starting LibModel.is_letter b -> span_letters (a ++ b) = (a, b).
Proof.
  induction 1 as [|c a Hc Ha IH]; intros Hb.
  - cbn [app]. destruct b as [|c r]; [reflexivity|]. cbn [span_letters]. rewrite (Hb c r eq_refl). reflexivity.
  - cbn [app span_letters]. rewrite Hc, (IH Hb). reflexivity.
Qed.
Lemma meta_found w d s : ws w -> all_digits d -> (forall c r, s = c :: r -> is_digit c = false) -> search meta_at (w ++ d ++ s) = match s with x :: _ => if Ascii.eqb x "m"%char then Some s else search meta_at s | [] => None end.
Proof.
  intros Hw [Hn Hd] Hs. rewrite search_skip. 2:{ intros a1 c a2 ->. unfold meta_at, some1. cbn [span]. rewrite ws_digit; [reflexivity|]. unfold ws in Hw. rewrite Forall_forall in Hw. apply Hw. apply in_or_app. right. left. reflexivity. }
  destruct s as [|x s].
  - rewrite search_skip; [reflexivity|]. intros a1 c a2 E. unfold meta_at. change (c :: a2 ++ []) with ((c :: a2) ++ []). rewrite (some1_app is_digit (c :: a2) []); [reflexivity|discriminate| |intros ? ? X; discriminate X].
    rewrite E in Hd. apply Forall_app in Hd as [_ Hd]. exact Hd.
  - destruct (Ascii.eqb x "m"%char) eqn:Ex.
    + apply search_here. unfold meta_at. rewrite (some1_app is_digit d (x :: s) Hn Hd Hs). cbn [obind]. rewrite Ex. reflexivity.
    + rewrite search_skip; [reflexivity|]. intros a1 c a2 E. unfold meta_at. change (c :: a2 ++ x :: s) with ((c :: a2) ++ x :: s). rewrite (some1_app is_digit (c :: a2) (x :: s)); [cbn [obind]; rewrite Ex; reflexivity|discriminate| |exact Hs].
      rewrite E in Hd. apply Forall_app in Hd as [_ Hd]. exact Hd.
Qed.
Lemma zaid_of_ok z t : NuclideText z t -> zaid_of t = Ok z.
Proof.
  intros (w & -> & (u & lo & Ee & Hu & Hlo) & Hw & Hn & Hd). unfold zaid_of.
  assert (L : Forall (fun c => LibModel.is_letter c = true) (n_el z)) by (rewrite Ee; constructor; [apply upper_letter; exact Hu|eapply Forall_impl; [|exact Hlo]; exact lower_letter]).
  assert (E1 : first_letters (n_el z ++ w ++ n_iso z ++ (if n_meta z then s2l "m" else [])) = Some (n_el z)).
  { pose proof (span_letters_app (n_el z) (w ++ n_iso z ++ (if n_meta z then s2l "m" else [])) L) as X. rewrite Ee in *. cbn [app first_letters] in *. rewrite (upper_letter _ Hu). rewrite X; [reflexivity|].
    intros c x E. destruct w as [|c0 w]; cbn [app] in E; [|injection E as <- _; apply ws_letter; inversion Hw; assumption]. destruct (n_iso z) as [|c0 d]; [congruence|]. injection E as <- _. apply digit_letter. inversion Hd; assumption. }
  rewrite E1. cbn [of_opt bind].
  assert (E2 : first_digits (n_el z ++ w ++ n_iso z ++ (if n_meta z then s2l "m" else [])) = Some (n_iso z)).
  { apply first_number. exists (n_el z ++ w), (if n_meta z then s2l "m" else []). split; [rewrite <- app_assoc; reflexivity|]. split; [apply Forall_app; split; [eapply Forall_impl; [|exact L]; exact letter_digit|eapply Forall_impl; [|exact Hw]; exact ws_digit]|]. split; [split; assumption|]. destruct (n_meta z); intros c x E; [injection E as <- _; reflexivity|discriminate E]. }
  rewrite E2. cbn [of_opt bind]. rewrite search_skip. 2:{ intros a1 c a2 E. unfold meta_at, some1. cbn [span]. rewrite letter_digit; [reflexivity|]. rewrite E in L. apply Forall_app in L as [_ L]. inversion L; assumption. }
  rewrite meta_found; [|exact Hw|split; assumption|destruct (n_meta z); intros c x E; [injection E as <- _; reflexivity|discriminate E]]. destruct z as [e i [|]]; reflexivity.
Qed.
Lemma zaids_of_ok zs ts : Forall2 NuclideText zs ts -> mapM zaid_of ts = Ok zs.
Proof. induction 1 as [|z t zs ts H HF IH]; [reflexivity|]. cbn [mapM]. rewrite (zaid_of_ok _ _ H). cbn [bind]. rewrite IH. reflexivity. Qed.

(** ** the line of a path *)
Lemma perc_no c s : is_digit c = false -> perc_at (c :: s) = None. Proof. intros H. unfold perc_at, some1. cbn [span]. rewrite H. reflexivity. Qed.
Lemma perc_skip g r : Forall (fun c => is_digit c = false) g -> search perc_at (g ++ r) = search perc_at r.
Proof. intros H. apply search_skip. intros a1 c a2 ->. apply perc_no. rewrite Forall_forall in H. apply H. apply in_or_app. right. left. reflexivity. Qed.
Lemma ws_no_digit w : ws w -> Forall (fun c => is_digit c = false) w. Proof. apply Forall_impl. exact ws_digit. Qed.
Lemma perc_found q p r : DecimalText q p -> search perc_at (p ++ "%"%char :: r) = Some p.
Proof.
  intros (a & b & Hp & [Hn Ha] & Hb & _). apply search_here. unfold perc_at. destruct Hp as [->| ->].
  - rewrite (some1_app is_digit a ("%"%char :: r) Hn Ha) by (intros c x E; injection E as <- _; reflexivity). cbn. rewrite app_nil_r. reflexivity.
  - rewrite <- app_assoc. cbn [app]. rewrite (some1_app is_digit a (dot :: b ++ "%"%char :: r) Hn Ha) by (intros c x E; injection E as <- _; reflexivity). cbn [obind].
    pose proof (span_app (char_is dot) [dot] (b ++ "%"%char :: r)) as X. cbn [app] in X. rewrite X. 2:repeat constructor.
    2:{ intros c x E. destruct b as [|c0 b]; injection E as <- _; [reflexivity|]. apply digit_dot. inversion Hb; assumption. }
    rewrite (span_app is_digit b ("%"%char :: r) Hb) by (intros c x E; injection E as <- _; reflexivity). reflexivity.
Qed.
Lemma perc_id d w r : all_digits d -> blanks w -> search perc_at (d ++ w ++ r) = search perc_at r.
Proof.
  intros [Hn Hd] [Hw1 Hw2]. rewrite search_skip; [apply perc_skip; apply ws_no_digit; exact Hw2|]. intros a1 c a2 E. unfold perc_at. change (c :: a2 ++ w ++ r) with ((c :: a2) ++ w ++ r).
  destruct w as [|x w]; [congruence|]. inversion Hw2 as [|? ? Hx _]; subst. rewrite (some1_app is_digit (c :: a2)); [|discriminate|apply Forall_app in Hd as [_ Hd]; exact Hd|intros y z X; injection X as <- _; apply ws_digit; exact Hx].
  cbn [obind app span]. unfold char_is. rewrite (ws_dot _ Hx). cbn [span]. rewrite (ws_digit _ Hx), (ws_percent _ Hx). reflexivity.
Qed.
Lemma path_line_read q zs l : PathLine q zs l -> (exists p, search perc_at l = Some p /\ parse_float p = Ok q) /\ (exists ts, findall zaid_at l = ts /\ Forall2 NuclideText zs ts) /\ path_line l.
Proof.
  intros (w1 & w2 & d & w3 & p & w4 & c & -> & [B1 B1'] & [B2 B2'] & Hd & B3 & Hp & [B4 B4'] & Hc). split; [|split].
  - exists p. split; [|destruct Hp as (a & b & _ & _ & _ & X); exact X]. rewrite perc_skip by (apply ws_no_digit; exact B1'). rewrite perc_skip by (repeat constructor). rewrite perc_skip by (apply ws_no_digit; exact B2'). rewrite (perc_id _ _ _ Hd B3). apply (perc_found q). exact Hp.
  - rewrite no_upper_skip by (apply ws_no_upper; exact B1'). rewrite no_upper_skip by (repeat constructor). rewrite no_upper_skip by (apply ws_no_upper; exact B2').
    rewrite no_upper_skip by (destruct Hd as [_ Hd]; eapply Forall_impl; [|exact Hd]; exact digit_upper). rewrite no_upper_skip by (apply ws_no_upper; apply B3).
    rewrite no_upper_skip. 2:{ destruct Hp as (a & b & [->| ->] & [_ Ha] & Hb & _); [eapply Forall_impl; [|exact Ha]; exact digit_upper|]. apply Forall_app. split; [eapply Forall_impl; [|exact Ha]; exact digit_upper|]. constructor; [reflexivity|]. eapply Forall_impl; [|exact Hb]; exact digit_upper. }
    rewrite (findall_miss _ zaid_len) by reflexivity. rewrite no_upper_skip by (apply ws_no_upper; exact B4'). apply chain_found. exact Hc.
  - exists w1, w2, d, (w3 ++ p ++ "%"%char :: w4 ++ c). split; [reflexivity|]. split; [split; assumption|]. split; [split; assumption|exact Hd].
Qed.
Lemma path_iff l : is_path l = true <-> path_line l.
Proof.
  unfold is_path. split.
  - destruct (some1 is_ws l) as [[w1 a]|] eqn:E1; [|discriminate]. cbn [obind]. destruct (strip_prefix (s2l "path") a) as [b|] eqn:E2; [|discriminate]. cbn [obind]. destruct (some1 is_ws b) as [[w2 c]|] eqn:E3; [|discriminate]. cbn [obind].
    destruct (some1 is_digit c) as [[d r]|] eqn:E4; [|discriminate]. intros _. apply some1_spec in E1 as (-> & ? & ? & _), E3 as (-> & ? & ? & _), E4 as (-> & ? & ? & _). apply strip_prefix_some in E2. subst a. exists w1, w2, d, r. split; [reflexivity|]. repeat split; assumption.
  - intros (w1 & w2 & d & r & -> & [B1 B1'] & [B2 B2'] & [Hn Hd]). rewrite some1_app; [|exact B1|exact B1'|intros c x E; injection E as <- _; reflexivity]. cbn [obind].
    replace (strip_prefix (s2l "path") (s2l "path" ++ w2 ++ d ++ r)) with (Some (w2 ++ d ++ r)) by (symmetry; apply strip_prefix_some; reflexivity). cbn [obind].
    rewrite some1_app; [|exact B2|exact B2'|]. 2:{ intros c x E. destruct d as [|y d]; [congruence|]. injection E as <- _. apply digit_ws. inversion Hd; assumption. }
    cbn [obind]. unfold some1. destruct (span is_digit (d ++ r)) as [x y] eqn:E. destruct x; [|reflexivity]. exfalso. destruct d as [|z d]; [congruence|]. cbn [app span] in E. inversion Hd as [|? ? Hz _]; subst. rewrite Hz in E. destruct (span is_digit (d ++ r)); discriminate E.
Qed.

(** ** reactions *)
Lemma reac_no c s : c <> "("%char -> reac_at (c :: s) = None. Proof. intros H. cbn [reac_at]. destruct (Ascii.eqb_spec c "("%char); [congruence|reflexivity]. Qed.
Lemma no_paren_skip g r : no_paren g -> findall reac_at (g ++ r) = findall reac_at r.
Proof. intros H. apply findall_skip; [exact reac_len|]. intros g1 c g2 ->. apply reac_no. unfold no_paren in H. rewrite Forall_forall in H. apply H. apply in_or_app. right. left. reflexivity. Qed.
Lemma reac_chars b : Forall reac_char b -> Forall (fun c => is_reac c = true) b.
Proof. apply Forall_impl. intros c H. unfold is_reac. destruct H as [-> | [-> | [-> | [-> | ->]]]]; rewrite ?orb_true_r; reflexivity. Qed.
Lemma reac_found t r : ReactionText t -> reac_at (t ++ r) = Some (t, r).
Proof.
  intros (b & -> & Hn & Hb). apply reac_chars in Hb. cbn [app reac_at]. rewrite Ascii.eqb_refl. rewrite <- app_assoc. rewrite (some1_app is_reac b); [|exact Hn|exact Hb|intros c x E; injection E as <- _; reflexivity]. cbn [obind app]. rewrite Ascii.eqb_refl. reflexivity.
Qed.
Lemma reactions_found rs l : ReactionRow rs l -> findall reac_at l = rs.
Proof.
  intros (gaps & e & HL & -> & HG & He & HR). revert gaps HL HG. induction HR as [|t rs Ht HR IH]; intros gaps HL HG.
  - destruct gaps; [|discriminate HL]. cbn [combine map concat app]. pose proof (no_paren_skip e [] He) as X. rewrite app_nil_r in X. rewrite X. apply findall_nil. reflexivity.
  - destruct gaps as [|g gaps]; [discriminate HL|]. injection HL as HL. inversion HG; subst. cbn [combine map concat]. cbn [fst snd]. rewrite <- !app_assoc. rewrite no_paren_skip by assumption. rewrite (findall_hit _ reac_len _ _ _ (reac_found _ _ Ht)). f_equal. apply IH; assumption.
Qed.

(** ** paths *)
Lemma last_snoc {A} (l : list A) x : last_of_list (l ++ [x]) = Some x.
Proof. unfold last_of_list. rewrite rev_app_distr. reflexivity. Qed.
Lemma inner_ends {A} (x : A) m y : inner (x :: m ++ [y]) = m.
Proof. unfold inner. change (x :: m ++ [y]) with ((x :: m) ++ [y]). rewrite removelast_last. reflexivity. Qed.
Lemma F2_snoc {A B} (R : A -> B -> Prop) a x b : Forall2 R (a ++ [x]) b -> exists b1 y, b = b1 ++ [y] /\ Forall2 R a b1 /\ R x y.
Proof. intros H. apply Forall2_app_inv_l in H as (b1 & b2 & H1 & H2 & ->). inversion H2 as [|? y ? l H3 H4]; subst. inversion H4; subst. exists b1, y. auto. Qed.
Lemma F2_len {A B} (R : A -> B -> Prop) a b : Forall2 R a b -> length a = length b.
Proof. induction 1 as [|x y a b _ _ IH]; [reflexivity|]. cbn [length]. rewrite IH. reflexivity. Qed.
Lemma head_read q par mids dau l r l1 : PathLine q (par :: mids ++ [dau]) l -> nth_error r 0 = Some l1 ->
  read_path l r = let inter := match mids with [] => None | _ => Some mids end in
    let rs := findall reac_at l1 in
    if pathway_ok rs inter then Ok (mkPw par dau q rs inter)
    else do l4 <- of_opt IndexError (nth_error r 3);
      if has "path continued" l4
      then let others := findall zaid_at l4 in
        do more <- mapM zaid_of (removelast others);
        let im := match inter with Some x => x ++ [dau] ++ more | None => [] end in
        do z2 <- of_opt IndexError (last_of_list others); do daughter <- zaid_of z2;
        do l5 <- of_opt IndexError (nth_error r 4);
        let rs := rs ++ findall reac_at l5 in
        if pathway_ok rs (Some im) then Ok (mkPw par daughter q rs (Some im)) else Err OtherError
      else Err OtherError.
Proof.
  intros Hl H1. destruct r as [|r0 r]; [discriminate H1|]. injection H1 as ->. destruct (path_line_read _ _ _ Hl) as ((p & E1 & E2) & (ts & E3 & HF) & _). unfold read_path. rewrite E1. cbn [of_opt bind]. rewrite E2. cbn [bind]. rewrite E3.
  inversion HF as [|? t0 ? ts' N0 HF']; subst. apply F2_snoc in HF' as (tm & t1 & -> & HM & N1). cbn [nth_error of_opt bind]. rewrite (zaid_of_ok _ _ N0). cbn [bind].
  change (t0 :: tm ++ [t1]) with ((t0 :: tm) ++ [t1]) at 1. rewrite last_snoc. cbn [of_opt bind]. rewrite (zaid_of_ok _ _ N1). cbn [bind]. rewrite inner_ends.
  pose proof (F2_len _ _ _ HM) as L. cbn [length]. rewrite app_length. cbn [length]. rewrite <- L. destruct mids as [|m mids].
  - cbn [length Nat.add Nat.ltb Nat.leb bind of_opt]. reflexivity.
  - replace (2 <? S (length (m :: mids) + 1)) with true by (symmetry; apply Nat.ltb_lt; cbn [length]; lia). rewrite (zaids_of_ok _ _ HM). cbn [bind of_opt]. reflexivity.
Qed.
Lemma rest_nth {A} (all : list A) i r k : skipn (S i) all = r -> nth_error r k = nth_error all (S i + k).
Proof. intros <-. revert all. induction (S i) as [|n IH]; intros all; [reflexivity|]. destruct all; [destruct k; reflexivity|]. cbn [skipn Nat.add nth_error]. apply IH. Qed.
Lemma path_read sec i l r p : nth_error sec i = Some l -> skipn (S i) sec = r -> PathAt sec i p -> read_path l r = Ok p.
Proof.
  intros Hl Hr (l' & l1 & mids & E0 & E1 & HP & HR & HL & HI). rewrite Hl in E0. injection E0 as <-.
  rewrite (head_read _ _ _ _ _ _ l1 HP). 2:{ rewrite (rest_nth _ _ _ 0 Hr). replace (S i + 0) with (i + 1) by lia. exact E1. }
  cbn zeta. rewrite (reactions_found _ _ HR). destruct p as [par dau q rs im]. cbn [p_parent p_daughter p_perc p_reactions p_inter] in *. subst im.
  replace (pathway_ok rs match mids with [] => None | _ :: _ => Some mids end) with true; [reflexivity|]. symmetry. destruct mids as [|m mids]; [reflexivity|]. cbn [pathway_ok]. apply Nat.eqb_eq. apply HL. discriminate.
Qed.
(* what is read for a long path *)
Definition doubled (q : Q) (zs : list nuclide) (z : nuclide) (more : list nuclide) (rs rs2 : list str) (p : pathway) : Prop :=
  exists par mids mid2 dau, zs = par :: mids /\ more = mid2 ++ [dau] /\ p = mkPw par dau q (rs ++ rs2) (Some (mids ++ [z] ++ z :: mid2)).
Lemma continued_read zs l : ContinuedLine zs l -> has "path continued" l = true /\ exists ts, findall zaid_at l = ts /\ Forall2 NuclideText zs ts.
Proof.
  intros (w & c & -> & Hw & w' & c' & -> & Hw' & Hc). split; [apply has_iff; exists w, (s2l " " ++ w' ++ c'); reflexivity|].
  rewrite no_upper_skip by (apply ws_no_upper; exact Hw). rewrite no_upper_skip by (repeat constructor). rewrite no_upper_skip by (repeat constructor). rewrite no_upper_skip by (apply ws_no_upper; exact Hw'). apply chain_found. exact Hc.
Qed.
Lemma long_read sec i l r q zs z more rs rs2 p : nth_error sec i = Some l -> skipn (S i) sec = r -> LongPathAt sec i q zs z more rs rs2 -> 2 <= length zs -> doubled q zs z more rs rs2 p -> read_path l r = Ok p.
Proof.
  intros Hl Hr (l' & l1 & l4 & l5 & E0 & E1 & E4 & E5 & HP & HR & HL & HC & HR2 & HL2) Hz (par & mids & mid2 & dau & -> & -> & ->). rewrite Hl in E0. injection E0 as <-.
  rewrite (head_read q par mids z l r l1 HP). 2:{ rewrite (rest_nth _ _ _ 0 Hr). replace (S i + 0) with (i + 1) by lia. exact E1. }
  cbn zeta. rewrite (reactions_found _ _ HR). destruct mids as [|m mids]; [cbn in Hz; lia|]. cbn [length] in HL. replace (pathway_ok rs (Some (m :: mids))) with false. 2:{ symmetry. cbn [pathway_ok length]. apply Nat.eqb_neq. lia. }
  rewrite (rest_nth _ _ _ 3 Hr), (rest_nth _ _ _ 4 Hr). replace (S i + 3) with (i + 4) by lia. replace (S i + 4) with (i + 5) by lia. rewrite E4, E5. cbn [of_opt bind].
  destruct (continued_read _ _ HC) as (-> & ts & -> & HF). inversion HF as [|? t0 ? ts' N0 HF']; subst. apply F2_snoc in HF' as (tm & t1 & -> & HM & N1).
  change (t0 :: tm ++ [t1]) with ((t0 :: tm) ++ [t1]). rewrite removelast_last, last_snoc. rewrite (zaids_of_ok (z :: mid2) (t0 :: tm)) by (constructor; assumption). cbn [of_opt bind]. rewrite (zaid_of_ok _ _ N1). cbn [bind].
  rewrite (reactions_found _ _ HR2). replace (pathway_ok (rs ++ rs2) (Some ((m :: mids) ++ [z] ++ z :: mid2))) with true; [reflexivity|].
  symmetry. cbn [pathway_ok]. apply Nat.eqb_eq. rewrite !app_length in *. cbn [length] in *. lia.
Qed.
Definition Entry (sec : list str) (i : nat) (p : pathway) : Prop :=
  PathAt sec i p \/ exists q zs z more rs rs2, LongPathAt sec i q zs z more rs rs2 /\ 2 <= length zs /\ doubled q zs z more rs rs2 p.
Lemma entry_read sec i l r p : nth_error sec i = Some l -> skipn (S i) sec = r -> Entry sec i p -> read_path l r = Ok p.
Proof. intros H1 H2 [H|(q & zs & z & more & rs & rs2 & H & H3 & H4)]; [eapply path_read; eassumption|eapply long_read; eassumption]. Qed.
Lemma entries_read all ls : forall i ps, skipn i all = ls -> Forall2 (Entry all) (where_ is_path i ls) ps -> read_paths ls = Ok ps.
Proof.
  induction ls as [|l r IH]; intros i ps E HF; cbn [where_ read_paths] in *; [inversion HF; reflexivity|]. apply skipn_S in E as [E1 E2].
  destruct (is_path l) eqn:Hl; cbn [app] in HF; [|apply (IH (S i)); assumption].
  inversion HF as [|? p ? ps' H1 H2]; subst. rewrite (entry_read all i l _ p E2 eq_refl H1). cbn [bind]. rewrite (IH (S i) _ eq_refl H2). reflexivity.
Qed.
Lemma paths_where sec is : Places (path_at sec) is -> is = where_ is_path 0 sec.
Proof. apply places_where. intros i. unfold path_at. split; intros (l & H1 & H2); exists l; (split; [exact H1|]); apply path_iff; exact H2. Qed.
Theorem section_read sec is ps : Places (path_at sec) is -> Forall2 (Entry sec) is ps -> read_paths sec = Ok ps.
Proof. intros HP HF. rewrite (paths_where _ _ HP) in HF. apply (entries_read sec sec 0); [reflexivity|exact HF]. Qed.
Theorem section_count sec is ps : Places (path_at sec) is -> read_paths sec = Ok ps -> length ps = length is.
Proof.
  intros HP. rewrite (paths_where _ _ HP). clear HP. generalize 0. revert ps. induction sec as [|l r IH]; intros rows i H; cbn [read_paths where_] in *; [injection H as <-; reflexivity|].
  destruct (is_path l); cbn [app]; [|apply IH; exact H]. destruct (read_path l r) as [x|]; [|discriminate H]. cbn [bind] in H. destruct (read_paths r) as [xs|] eqn:E; [|discriminate H]. injection H as <-. cbn [length]. f_equal. apply (IH xs (S i) eq_refl).
Qed.

(** ** the section of a file *)
Lemma markers_app a : forall i st b, markers i st (a ++ b) = markers (i + length a) (markers i st a) b.
Proof. induction a as [|l a IH]; intros i st b; cbn [app markers length]; [rewrite Nat.add_0_r; reflexivity|]. rewrite IH. f_equal. lia. Qed.
Lemma markers_fst sec : forall i st, Forall (fun l => ~ starts l) sec -> fst (markers i st sec) = fst st.
Proof.
  induction sec as [|l sec IH]; intros i st H; [reflexivity|]. cbn [markers]. rewrite IH by (apply (Forall_inv_tail H)). apply Forall_inv in H. rewrite (has_not _ _ H). destruct (has "G E N E R I C   P A T H W" l); reflexivity.
Qed.
Lemma markers_none b : forall i st, Forall (fun l => ~ starts l /\ ~ ends l) b -> markers i st b = st.
Proof.
  induction b as [|l b IH]; intros i st H; [reflexivity|]. cbn [markers]. rewrite IH by (apply (Forall_inv_tail H)). apply Forall_inv in H as [H1 H2]. rewrite (has_not _ _ H1). destruct (has "G E N E R I C   P A T H W" l) eqn:E; [|reflexivity]. exfalso. apply H2. split; [exact H1|apply has_iff; exact E].
Qed.
Theorem file_section sec lines : Section_of sec lines -> from_file lines = read_paths sec.
Proof.
  intros (a & s & e & b & -> & Hs & [He1 He2] & Hsec & Hb). unfold from_file. rewrite markers_app. cbn [markers]. replace (has "Significant loops" s) with true by (symmetry; apply has_iff; exact Hs).
  rewrite markers_app. set (st := markers _ _ sec). assert (E : fst st = Some (0 + length a)) by (unfold st; rewrite markers_fst by exact Hsec; reflexivity). cbn [markers]. rewrite (has_not _ _ He1).
  replace (has "G E N E R I C   P A T H W" e) with true by (symmetry; apply has_iff; exact He2). rewrite (markers_none b) by exact Hb. rewrite E.
  replace (S (0 + length a) + length sec - S (0 + length a)) with (length sec) by lia. f_equal.
  replace (skipn (S (0 + length a)) (a ++ s :: sec ++ e :: b)) with (sec ++ e :: b). { rewrite firstn_app, Nat.sub_diag, firstn_all. cbn [firstn]. apply app_nil_r. }
  cbn [Nat.add]. clear. induction a as [|x a IH]; [reflexivity|]. cbn [length skipn app]. exact IH.
Qed.
Theorem no_section lines : Forall (fun l => ~ starts l) lines \/ Forall (fun l => ~ ends l) lines -> from_file lines = Err UnboundLocalError.
Proof.
  intros H. unfold from_file. destruct (markers 0 (None, None) lines) as [x y] eqn:E. destruct H as [H|H].
  - pose proof (markers_fst lines 0 (None, None) H) as F. rewrite E in F. cbn [fst] in F. subst x. reflexivity.
  - assert (S : forall ls i st, Forall (fun l => ~ ends l) ls -> snd (markers i st ls) = snd st).
    { clear. induction ls as [|l ls IH]; intros i st H; [reflexivity|]. cbn [markers]. rewrite IH by (apply (Forall_inv_tail H)). apply Forall_inv in H. destruct (has "Significant loops" l) eqn:E1; [reflexivity|]. destruct (has "G E N E R I C   P A T H W" l) eqn:E2; [|reflexivity].
      exfalso. apply H. split; [intros X; apply has_iff in X; congruence|apply has_iff; exact E2]. }
    pose proof (S lines 0 (None, None) H) as F. rewrite E in F. cbn [snd] in F. subst y. destruct x; reflexivity.
Qed.
(* a chain of several steps whose row of reactions does not fit *)
Theorem misfit sec i l r q par mids dau l1 rs : nth_error sec i = Some l -> skipn (S i) sec = r -> PathLine q (par :: mids ++ [dau]) l -> nth_error sec (i + 1) = Some l1 -> ReactionRow rs l1 ->
  mids <> [] -> length rs <> length mids + 1 -> (forall l4, nth_error sec (i + 4) = Some l4 -> ~ mentions "path continued" l4) -> exists e, read_path l r = Err e.
Proof.
  intros Hl Hr HP E1 HR Hm HL H4. rewrite (head_read q par mids dau l r l1 HP). 2:{ rewrite (rest_nth _ _ _ 0 Hr). replace (S i + 0) with (i + 1) by lia. exact E1. }
  cbn zeta. rewrite (reactions_found _ _ HR). destruct mids as [|m mids]; [congruence|]. replace (pathway_ok rs (Some (m :: mids))) with false. 2:{ symmetry. cbn [pathway_ok]. apply Nat.eqb_neq. exact HL. }
  rewrite (rest_nth _ _ _ 3 Hr). replace (S i + 3) with (i + 4) by lia. destruct (nth_error sec (i + 4)) as [l4|] eqn:E; cbn [of_opt bind]; [|eexists; reflexivity]. rewrite (has_not _ _ (H4 l4 eq_refl)). eexists. reflexivity.
Qed.
Lemma section_fails sec i l : nth_error sec i = Some l -> path_line l -> (exists e, read_path l (skipn (S i) sec) = Err e) -> exists e, read_paths sec = Err e.
Proof.
  revert i. induction sec as [|a sec IH]; intros i Hl HP He; [destruct i; discriminate Hl|]. cbn [read_paths]. destruct i as [|i].
  - injection Hl as ->. apply path_iff in HP. rewrite HP. destruct He as (e & E). cbn [skipn] in E. rewrite E. eexists. reflexivity.
  - destruct (IH i Hl HP He) as (e & E). rewrite E. destruct (is_path a); [|eexists; reflexivity]. destruct (read_path a sec); eexists; reflexivity.
Qed.
