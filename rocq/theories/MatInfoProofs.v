From Coq Require Import Lia Lqa Sorted.
From Verif Require Import PyBase PyLemmas PyStr PyStrLemmas PyText D1SModel D1SProofs2 LibModel LibSpec MatModel MatSpec MatProofs MatProofs2 MatProofs3 MatInfoModel MatInfoSpec.
Open Scope nat_scope.

(** symbols *)
Definition symb (E : matenv) (z : zaid) : str :=
  match parse_int (z_elem z) with
  | Ok n => match row_by_Z (l_iso (m_lib E)) n with Some r => r_E r | None => [] end
  | Err _ => []
  end.
Definition label (E : matenv) (z : zaid) : str :=
  match fullname E z with Ok f => f ++ s2l " [" ++ z_elem z ++ z_iso z ++ s2l "]" | Err _ => [] end.
Lemma row_first t n r : row_by_Z t n = Some r -> first_row t n r.
Proof. unfold row_by_Z, first_row. induction t as [|x t IH]; [discriminate|]. cbn [find]. destruct (Z.eqb_spec (Z.of_N (r_Z x)) n) as [Ex|Ex].
  - intros H. injection H as <-. exists [], t. split; [reflexivity|]. split; [exact Ex|intros ? []].
  - intros H. destruct (IH H) as [t1 [t2 [-> [E1 E2]]]]. exists (x :: t1), t2. split; [reflexivity|]. split; [exact E1|]. intros r' [<-|Hr]; [exact Ex|now apply E2]. Qed.
Lemma first_row_fun t n r : first_row t n r -> row_by_Z t n = Some r.
Proof. intros [t1 [t2 [-> [E1 E2]]]]. unfold row_by_Z. induction t1 as [|x t1 IH]; cbn [app find].
  - now rewrite (proj2 (Z.eqb_eq _ _) E1).
  - rewrite (proj2 (Z.eqb_neq _ _)) by (apply E2; now left). apply IH. intros r' H. apply E2. now right. Qed.
Lemma symbol_symb E z e : symbol_of E z e -> e = symb E z.
Proof. intros [n [r [P [F <-]]]]. unfold symb. rewrite P, (first_row_fun _ _ _ F). reflexivity. Qed.
Lemma before_dash_no s : ~ In dash s -> before_dash s = s.
Proof. induction s as [|c s IH]; intros H; [reflexivity|]. cbn [before_dash]. destruct (Ascii.eqb_spec c dash) as [->|N]; [exfalso; apply H; now left|]. rewrite IH; [reflexivity|]. intros Q. apply H. now right. Qed.
Lemma before_dash_dash s r : ~ In dash s -> before_dash (s ++ dash :: r) = s.
Proof. induction s as [|c s IH]; intros H; [reflexivity|]. cbn [app before_dash]. destruct (Ascii.eqb_spec c dash) as [->|N]; [exfalso; apply H; now left|]. rewrite IH; [reflexivity|]. intros Q. apply H. now right. Qed.
Lemma word_no_dash (s : str) : word s -> ~ In dash s.
Proof. intros [_ F] H. rewrite Forall_forall in F. specialize (F _ H). discriminate. Qed.
Lemma row_in t n r : row_by_Z t n = Some r -> In r t. Proof. unfold row_by_Z. intros H. now apply find_some in H. Qed.
Lemma fullname_ok E z f : wf_table (l_iso (m_lib E)) -> fullname E z = Ok f -> symbol_of E z (symb E z) /\ before_dash f = symb E z /\
  exists a, parse_int (z_iso z) = Ok a /\ f = symb E z ++ (if (0 <? a)%Z then s2l "-" ++ str_of_Z a else []).
Proof. intros [W _] H. unfold fullname in H. destruct (parse_int (z_elem z)) as [n|] eqn:P; [|discriminate]. cbn [bind] in H.
  destruct (row_by_Z _ n) as [r|] eqn:R; [|discriminate]. cbn [of_opt bind] in H. destruct (parse_int (z_iso z)) as [a|] eqn:A; [|discriminate]. cbn [bind] in H.
  assert (S : symb E z = r_E r) by (unfold symb; now rewrite P, R). rewrite S.
  assert (ND : ~ In dash (r_E r)) by (apply word_no_dash; apply (W r (row_in _ _ _ R))).
  split; [exists n, r; split; [exact P|]; split; [now apply row_first|reflexivity]|].
  assert (Hf : f = if (0 <? a)%Z then r_E r ++ dash :: str_of_Z a else r_E r) by (symmetry; exact (f_equal (fun x => match x with Ok y => y | Err _ => [] end) H)). split.
  - rewrite Hf. destruct (0 <? a)%Z; [now apply before_dash_dash|now apply before_dash_no].
  - exists a. split; [reflexivity|]. rewrite Hf. destruct (0 <? a)%Z; [reflexivity|now rewrite app_nil_r]. Qed.
Lemma zaid_row_ok E z r : wf_table (l_iso (m_lib E)) -> zaid_row E z = Ok r -> symbol_of E z (symb E z) /\ r = (symb E z, label E z, z_frac z) /\ label_of E z (label E z).
Proof. intros W H. unfold zaid_row in H. destruct (fullname E z) as [f|] eqn:F; [|discriminate]. cbn [bind] in H. destruct (fullname_ok E z f W F) as [S [B [a [A Hf]]]].
  split; [exact S|]. assert (L : label E z = f ++ s2l " [" ++ z_elem z ++ z_iso z ++ s2l "]") by (unfold label; now rewrite F). split.
  - rewrite L. rewrite B in H. symmetry. exact (f_equal (fun r => match r with Ok x => x | Err _ => ([], [], 0%Q) end) H).
  - exists (symb E z), a. split; [exact S|]. split; [exact A|]. rewrite L, Hf, <- app_assoc. reflexivity. Qed.
Lemma symb_elem E z z' : z_elem z = z_elem z' -> symb E z = symb E z'.
Proof. intros H. unfold symb. now rewrite H. Qed.

(** the tables of a submaterial *)
Definition zrow (E : matenv) (z : zaid) : irow := (symb E z, Some (label E z), z_frac z).
Definition dz : zaid := mkzaid 0 [] [] None.
Definition gsym (E : matenv) (zs : list zaid) : str := symb E (last zs dz).
Definition grow (E : matenv) (zs : list zaid) : irow := (gsym E zs, None, elem_fraction zs).
Lemma mapM_map {A B} (f : A -> res B) (g : A -> B) l r : (forall x y, In x l -> f x = Ok y -> y = g x) -> mapM f l = Ok r -> r = map g l.
Proof. revert r. induction l as [|x l IH]; intros r H M; cbn [mapM] in M; [injection M as <-; reflexivity|].
  destruct (f x) as [y|] eqn:F; [|discriminate]. cbn [bind] in M. destruct (mapM f l) as [ys|] eqn:Ml; [|discriminate]. cbn [bind] in M. injection M as <-.
  cbn [map]. f_equal; [apply H; [now left|exact F]|]. apply IH; [|reflexivity]. intros x' y' Hx. apply H. now right. Qed.
Lemma rev_last {A} (l : list A) x r d : rev l = x :: r -> last l d = x.
Proof. intros H. assert (l = rev r ++ [x]) as -> by (rewrite <- (rev_involutive l), H; reflexivity). apply last_last. Qed.
Lemma last_map {A B} (f : A -> B) l d : last (map f l) (f d) = f (last l d).
Proof. induction l as [|x l IH]; [reflexivity|]. destruct l; [reflexivity|]. cbn [map last] in *. exact IH. Qed.
Lemma last_in {A} (l : list A) d : l <> [] -> In (last l d) l.
Proof. induction l as [|x l IH]; [congruence|]. intros _. destruct l; [now left|]. right. apply IH. discriminate. Qed.
Lemma elem_info_ok E zs t : wf_table (l_iso (m_lib E)) -> elem_info E zs = Ok t -> zs <> [] /\ t = ((gsym E zs, elem_fraction zs), map (fun z => (symb E z, label E z, z_frac z)) zs) /\
  forall z, In z zs -> symbol_of E z (symb E z) /\ label_of E z (label E z).
Proof. intros W H. unfold elem_info in H. destruct (mapM (zaid_row E) zs) as [rows|] eqn:M; [|discriminate]. cbn [bind] in H.
  assert (R : rows = map (fun z => (symb E z, label E z, z_frac z)) zs) by (apply (mapM_map (zaid_row E)); [|exact M]; intros x y _ Hx; now apply (zaid_row_ok E x y W) in Hx).
  destruct (rev rows) as [|r rr] eqn:Rv; [discriminate|].
  assert (N : zs <> []) by (intros ->; rewrite R in Rv; discriminate). split; [exact N|]. split.
  - assert (L : r = (symb E (last zs dz), label E (last zs dz), z_frac (last zs dz))).
    { rewrite <- (rev_last _ _ _ (symb E dz, label E dz, z_frac dz) Rv), R. exact (last_map (fun z => (symb E z, label E z, z_frac z)) zs dz). }
    rewrite L in H. cbn [fst] in H. rewrite <- R. unfold gsym. congruence.
  - intros z Hz. apply mapM_Forall2 in M. assert (exists y, zaid_row E z = Ok y) as [y Hy].
    { clear -M Hz. induction M; [destruct Hz|]. destruct Hz as [->|Hz]; [eauto|auto]. }
    apply (zaid_row_ok E z y W) in Hy. tauto. Qed.
Lemma sub_info_ok E s t : wf_table (l_iso (m_lib E)) -> sub_info E s = Ok t ->
  rows_of true t = map (zrow E) (shown s) /\ rows_of false t = map (grow E) (s_elems s) /\
  (forall zs, In zs (s_elems s) -> zs <> []) /\ forall z, In z (shown s) -> symbol_of E z (symb E z) /\ label_of E z (label E z).
Proof. intros W H. unfold sub_info in H. destruct (mapM (elem_info E) (s_elems s)) as [l|] eqn:M; [|discriminate]. cbn [bind] in H.
  assert (L : l = map (fun zs => ((gsym E zs, elem_fraction zs), map (fun z => (symb E z, label E z, z_frac z)) zs)) (s_elems s)) by (apply (mapM_map (elem_info E)); [|exact M]; intros x y _ Hx; now apply (elem_info_ok E x y W) in Hx).
  assert (G : forall zs, In zs (s_elems s) -> exists y, elem_info E zs = Ok y).
  { apply mapM_Forall2 in M. clear -M. induction M; intros zs Hz; [destruct Hz|]. destruct Hz as [->|Hz]; [eauto|auto]. }
  assert (T : t = (map fst l, concat (map snd l))) by congruence. rewrite T, L. unfold rows_of. cbn [fst snd]. split; [|split; [|split]].
  - unfold shown. rewrite map_map. cbn [snd]. clear. induction (s_elems s) as [|zs l IH]; [reflexivity|]. cbn [map concat]. rewrite !map_app, IH. f_equal. rewrite map_map. reflexivity.
  - rewrite !map_map. reflexivity.
  - intros zs Hz. destruct (G zs Hz) as [y Hy]. now apply (elem_info_ok E zs y W) in Hy.
  - intros z Hz. unfold shown in Hz. apply in_concat in Hz. destruct Hz as [zs [Hzs Hz]]. destruct (G zs Hzs) as [y Hy]. apply (elem_info_ok E zs y W) in Hy. destruct Hy as [_ [_ Hy]]. now apply Hy. Qed.

(** the zaids of an element of a collapsed list *)
Lemma nuclide_elem z z' : nuclide z = nuclide z' -> z_elem z = z_elem z'.
Proof. unfold nuclide. congruence. Qed.
Lemma collapse_same_elem zs g : Forall wf_zaid zs -> In g (collapse zs) -> exists e, In e (map z_elem zs) /\ forall z, In z g -> z_elem z = e.
Proof. intros W H. unfold collapse in H. rewrite group_spec, map_map in H. apply in_map_iff in H. destruct H as [e [<- He]]. exists e. split; [apply firsts_aux_in in He; tauto|]. cbn [snd]. intros z Hz.
  destruct (element_spec _ (filter_wf (fun z => str_eqb (z_elem z) e) _ W)) as [_ F]. rewrite Forall_forall in F. destruct (F z Hz) as [_ [[z0 [H0 N0]] _]].
  apply filter_In in H0. destruct H0 as [_ H0]. apply str_eqb_eq in H0. rewrite <- H0. symmetry. now apply nuclide_elem. Qed.
Lemma named_filter (p : zaid -> bool) zs n : (forall y, In y zs -> z_name y = n -> p y = true) -> named n (filter p zs) = named n zs.
Proof. intros H. unfold named. induction zs as [|y zs IH]; [reflexivity|]. cbn [filter]. assert (H' : forall y0, In y0 zs -> z_name y0 = n -> p y0 = true) by (intros; apply H; [now right|assumption]). specialize (IH H').
  destruct (str_eqb (z_name y) n) eqn:E; [|destruct (p y); cbn [filter]; rewrite ?E; exact IH].
  apply str_eqb_eq in E. rewrite (H y (or_introl eq_refl) E). cbn [filter]. rewrite (proj2 (str_eqb_eq _ _) E), IH. reflexivity. Qed.
Lemma nodup_map_filter {A B} (f : A -> B) (p : A -> bool) l : NoDup (map f l) -> NoDup (map f (filter p l)).
Proof. induction l as [|x l IH]; [trivial|]. cbn [map filter]. intros H. inversion H; subst. destruct (p x); [|now apply IH]. cbn [map]. constructor; [|now apply IH].
  intros Q. apply H2. apply in_map_iff in Q. destruct Q as [y [E Hy]]. apply filter_In in Hy. apply in_map_iff. exists y. tauto. Qed.
(** sums over zaids with a property of the nuclide are kept *)
Lemma collapse_sum (p : zaid -> bool) zs : Forall wf_zaid zs -> (forall y y', wf_zaid y -> wf_zaid y' -> nuclide y = nuclide y' -> p y = p y') ->
  (total (filter p (concat (collapse zs))) == total (filter p zs))%Q.
Proof. intros W P. destruct (collapse_spec zs W) as [N [I F]]. rewrite Forall_forall in F, W.
  rewrite <- (total_by_names (map z_name (filter p (concat (collapse zs)))) (filter p zs)).
  - unfold total at 1. rewrite map_map. apply qsum_map_ext. intros z Hz. apply filter_In in Hz. destruct Hz as [Hz Pz]. destruct (F z Hz) as [Wz [_ ->]].
    rewrite named_filter; [reflexivity|]. intros y Hy Ey. rewrite <- Pz. apply P; [now apply W|exact Wz|]. apply name_nuclide; [now apply W|exact Wz|exact Ey].
  - now apply nodup_map_filter.
  - intros z Hz. apply filter_In in Hz. destruct Hz as [Hz Pz]. assert (H : In (z_name z) (map z_name (concat (collapse zs)))) by (apply I; now apply in_map).
    apply in_map_iff in H. destruct H as [y [Ey Hy]]. apply in_map_iff. exists y. split; [exact Ey|]. apply filter_In. split; [exact Hy|]. rewrite <- Pz. destruct (F y Hy) as [Wy _].
    apply P; [exact Wy|now apply W|]. apply name_nuclide; [exact Wy|now apply W|exact Ey]. Qed.
(** element rows against zaid rows *)
Definition esel (e : str) (r : irow) : bool := str_eqb (i_elem r) e.
Definition rsum (p : irow -> bool) (l : list irow) : Q := qsum (map i_frac (filter p l)).
Lemma rsum_app p a b : (rsum p (a ++ b) == rsum p a + rsum p b)%Q.
Proof. unfold rsum. rewrite filter_app, map_app. apply qsum_app. Qed.
Lemma rsum_grow E e gs : (forall g, In g gs -> g <> [] /\ exists x, forall z, In z g -> z_elem z = x) ->
  (rsum (esel e) (map (grow E) gs) == total (filter (fun z => str_eqb (symb E z) e) (concat gs)))%Q.
Proof. induction gs as [|g gs IH]; intros H; [reflexivity|]. cbn [map concat]. rewrite filter_app. unfold total. rewrite map_app, qsum_app. fold (total (filter (fun z => str_eqb (symb E z) e) (concat gs))).
  rewrite <- IH by (intros g' Hg; apply H; now right). change (grow E g :: map (grow E) gs) with ([grow E g] ++ map (grow E) gs). rewrite rsum_app.
  destruct (H g (or_introl eq_refl)) as [Ng [x Hx]].
  assert (S : forall z, In z g -> symb E z = gsym E g) by (intros z Hz; unfold gsym; apply symb_elem; rewrite (Hx z Hz), (Hx _ (last_in g dz Ng)); reflexivity).
  apply Qplus_comp; [|reflexivity]. unfold rsum, esel. cbn [filter]. unfold i_elem, grow at 1. cbn [fst]. destruct (str_eqb (gsym E g) e) eqn:Eg.
  - cbn [map]. unfold i_frac, grow. cbn [snd]. rewrite qsum_cons. change (qsum []) with 0%Q. unfold elem_fraction.
    assert (filter (fun z => str_eqb (symb E z) e) g = g) as ->; [|lra]. clear -S Eg. induction g as [|z g IH]; [reflexivity|]. revert S Eg. generalize (gsym E (z :: g)). intros y S Eg. cbn [filter]. rewrite (S z (or_introl eq_refl)), Eg. f_equal.
    assert (forall l, (forall z, In z l -> symb E z = y) -> filter (fun z => str_eqb (symb E z) e) l = l) as Q; [|apply Q; intros z' Hz; apply S; now right].
    clear -Eg. induction l as [|z l IH]; intros S; [reflexivity|]. cbn [filter]. rewrite (S z (or_introl eq_refl)), Eg. f_equal. apply IH. intros z' Hz. apply S. now right.
  - cbn [map]. change (qsum []) with 0%Q. revert S. generalize (gsym E g) Eg. clear. intros y Eg S. induction g as [|z g IH]; [reflexivity|]. cbn [filter]. rewrite (S z (or_introl eq_refl)), Eg. apply IH. intros z' Hz. apply S. now right. Qed.
Lemma rsum_zrow E e l : (rsum (esel e) (map (zrow E) l) == total (filter (fun z => str_eqb (symb E z) e) l))%Q.
Proof. unfold rsum, total. induction l as [|z l IH]; [reflexivity|]. cbn [map filter]. unfold esel at 1, i_elem, zrow at 1. cbn [fst]. destruct (str_eqb (symb E z) e); [|exact IH]. cbn [map]. rewrite !qsum_cons, IH. reflexivity. Qed.
Lemma rsum_all_zrow E l : (rsum (fun _ => true) (map (zrow E) l) == total l)%Q.
Proof. unfold rsum, total. induction l as [|z l IH]; [reflexivity|]. cbn [map filter]. rewrite !qsum_cons, IH. reflexivity. Qed.
Lemma rsum_all_grow E gs : (rsum (fun _ => true) (map (grow E) gs) == total (concat gs))%Q.
Proof. induction gs as [|g gs IH]; [reflexivity|]. cbn [map concat]. unfold total. rewrite map_app, qsum_app. fold (total (concat gs)). rewrite <- IH. reflexivity. Qed.

(** a consistent submaterial: the sums are those of its zaids *)
Definition lvl (E : matenv) (b : bool) (s : submat) : list irow := if b then map (zrow E) (shown s) else map (grow E) (s_elems s).
Lemma lvl_sum E b s e : Forall wf_zaid (s_zaids s) -> consistent s -> (forall g, In g (s_elems s) -> g <> []) ->
  (rsum (esel e) (lvl E b s) == total (filter (fun z => str_eqb (symb E z) e) (s_zaids s)))%Q /\ (rsum (fun _ => true) (lvl E b s) == total (s_zaids s))%Q.
Proof. intros W C N. unfold lvl, shown.
  assert (Q : (total (filter (fun z => str_eqb (symb E z) e) (concat (s_elems s))) == total (filter (fun z => str_eqb (symb E z) e) (s_zaids s)))%Q).
  { rewrite C. apply collapse_sum; [exact W|]. intros y y' _ _ H. now rewrite (symb_elem E y y' (nuclide_elem _ _ H)). }
  assert (Q2 : (total (concat (s_elems s)) == total (s_zaids s))%Q) by (rewrite C; now apply collapse_total).
  destruct b; split.
  - rewrite rsum_zrow. exact Q.
  - rewrite rsum_all_zrow. exact Q2.
  - rewrite rsum_grow; [exact Q|]. intros g Hg. split; [now apply N|]. rewrite C in Hg. destruct (collapse_same_elem _ g W Hg) as [x [_ Hx]]. now exists x.
  - rewrite rsum_all_grow. exact Q2. Qed.
Lemma lvl_elems E b s e : Forall wf_zaid (s_zaids s) -> consistent s -> (forall g, In g (s_elems s) -> g <> []) ->
  (In e (map i_elem (lvl E b s)) <-> exists z, In z (s_zaids s) /\ symb E z = e).
Proof. intros W C N. destruct (collapse_spec _ W) as [_ [I F]]. rewrite <- C in I, F. fold (shown s) in I, F.
  assert (G : (exists z, In z (shown s) /\ symb E z = e) <-> exists z, In z (s_zaids s) /\ symb E z = e).
  { split; intros [z [Hz Hs]].
    - rewrite Forall_forall in F. destruct (F z Hz) as [_ [[z0 [H0 N0]] _]]. exists z0. split; [exact H0|]. rewrite <- Hs. apply symb_elem. now apply nuclide_elem.
    - assert (H : In (z_name z) (map z_name (shown s))) by (apply I; now apply in_map). apply in_map_iff in H. destruct H as [y [Ey Hy]]. exists y. split; [exact Hy|]. rewrite <- Hs. apply symb_elem.
      apply nuclide_elem. rewrite Forall_forall in F, W. apply name_nuclide; [apply (F y Hy)|now apply W|exact Ey]. }
  rewrite <- G. destruct b; cbn [lvl].
  - rewrite map_map. rewrite in_map_iff. unfold i_elem, zrow. cbn [fst]. split; intros [z H]; exists z; tauto.
  - rewrite map_map, in_map_iff. unfold i_elem, grow. cbn [fst]. split.
    + intros [g [Hs Hg]]. exists (last g dz). split; [|exact Hs]. unfold shown. apply in_concat. exists g. split; [exact Hg|]. apply last_in. now apply N.
    + intros [z [Hz Hs]]. unfold shown in Hz. apply in_concat in Hz. destruct Hz as [g [Hg Hz]]. exists g. split; [|exact Hg]. rewrite <- Hs. unfold gsym. apply symb_elem.
      pose proof Hg as Hg'. rewrite C in Hg'. destruct (collapse_same_elem _ g W Hg') as [x [_ Hx]]. rewrite (Hx z Hz), (Hx _ (last_in g dz (N g Hg))). reflexivity. Qed.
