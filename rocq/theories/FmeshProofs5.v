(** Proofs about transformations (C60) *)
From Coq Require Import Lia ZArith Qabs Lqa.
From Verif Require Import PyBase PyLemmas PyStr PyStrLemmas PyText DataModel DataProofs D1SModel D1SProofs2 LibModel MeshModel MeshProofs FmeshModel FmeshSpec FmeshProofs FmeshProofs2 FmeshProofs3 FmeshProofs4.
Open Scope nat_scope.

Section Tr.
  Context {R : Type} (cos_deg : Q -> Q).
  Lemma affine_shift star x y z : exists t, affine cos_deg (mkTR true star [x; y; z]) = Ok t /\ forall p, t p = addv p (x, y, z).
  Proof. eexists. split; [reflexivity|]. reflexivity. Qed.
  Lemma affine_turn (star : bool) x y z bs B : rows_of (fun q => if star then cos_deg q else q) bs = Some B -> Orthonormal B ->
    exists t, affine cos_deg (mkTR true star (x :: y :: z :: bs)) = Ok t /\ forall p, Veq (t p) (addv (mulv B p) (x, y, z)).
  Proof.
    intros HB HO. do 9 (destruct bs as [|? bs]; [discriminate HB|]). destruct bs; [|discriminate HB]. injection HB as <-.
    destruct (inv_transpose _ HO) as (n & En & Hn). unfold affine. cbn [tr_is negb tr_vals tr_star]. rewrite En. eexists. split; [reflexivity|].
    intros p. specialize (Hn p). cbv beta. destruct (mulv n p) as [[a b] c]. destruct (mulv _ p) as [[a' b'] c']. cbn [Veq addv] in *. destruct Hn as (H1 & H2 & H3). repeat split; lra.
  Qed.
  Lemma affine_singular (star : bool) x y z bs B : rows_of (fun q => if star then cos_deg q else q) bs = Some B -> (det B == 0)%Q ->
    affine cos_deg (mkTR true star (x :: y :: z :: bs)) = Err UnboundLocalError.
  Proof.
    intros HB HD. do 9 (destruct bs as [|? bs]; [discriminate HB|]). destruct bs; [|discriminate HB]. injection HB as <-.
    unfold affine. cbn [tr_is negb tr_vals tr_star]. rewrite <- det_transpose in HD. cbn [transpose] in *. unfold inv. rewrite (proj2 (Qeq_bool_iff _ _) HD). reflexivity.
  Qed.
  Lemma affine_count star is vs : is = false \/ (length vs <> 3 /\ length vs <> 12) -> affine cos_deg (mkTR is star vs) = Err ValueError.
  Proof.
    intros H. unfold affine. cbn [tr_is tr_vals tr_star]. destruct is; [|reflexivity]. cbn [negb]. destruct H as [H|[H1 H2]]; [discriminate H|].
    do 3 (destruct vs as [|? vs]; [reflexivity|]). destruct vs as [|? vs]; [cbn in H1; lia|].
    do 8 (destruct vs as [|? vs]; [reflexivity|]). destruct vs as [|? vs]; [cbn in H2; lia|reflexivity].
  Qed.
  Lemma mcnp_transpose o B p : Veq (addv (mulv B p) o) (mcnp_map o (transpose B) p).
  Proof. destruct B as [[[[a b] c] [[d e] f]] [[g h] i]]. destruct o as [[x y] z], p as [[u v] w]. cbn. repeat split; ring. Qed.
  Lemma mcnp_symmetric o B p : (let '((a, b, c), (d, e, f), (g, h, i)) := B in b == d /\ c == g /\ f == h)%Q -> Veq (addv (mulv B p) o) (mcnp_map o B p).
  Proof. destruct B as [[[[a b] c] [[d e] f]] [[g h] i]]. destruct o as [[x y] z], p as [[u v] w]. intros (H1 & H2 & H3). cbn. rewrite H1, H2, H3. repeat split; ring. Qed.
  Lemma columns_orthonormal m : Orthonormal m -> Orthonormal (transpose m).
  Proof.
    intros HO. destruct (inv_transpose m HO) as (n & En & Hn). apply inv_ok in En.
    pose proof (Hn (1, 0, 0)%Q) as X. pose proof (Hn (0, 1, 0)%Q) as Y. pose proof (Hn (0, 0, 1)%Q) as Z.
    destruct m as [[[[a b] c] [[d e] f]] [[g h] i]]. destruct n as [[[[a' b'] c'] [[d' e'] f']] [[g' h'] i']].
    cbn [mulv Veq] in X, Y, Z.
    assert ((a' == a)%Q /\ (b' == b)%Q /\ (c' == c)%Q /\ (d' == d)%Q /\ (e' == e)%Q /\ (f' == f)%Q /\ (g' == g)%Q /\ (h' == h)%Q /\ (i' == i)%Q) as (A1 & A2 & A3 & A4 & A5 & A6 & A7 & A8 & A9) by (repeat split; lra).
    cbn [transpose mmul] in En. destruct En as (E1 & E2 & E3 & E4 & E5 & E6 & E7 & E8 & E9). rewrite A1, A2, A3, A4, A5, A6, A7, A8, A9 in *.
    cbn [Orthonormal transpose dot3]. repeat split; assumption.
  Qed.
  Lemma rigid B o p q : Orthonormal B -> (dist2 (addv (mulv B p) o) (addv (mulv B q) o) == dist2 p q)%Q.
  Proof.
    intros HO. apply columns_orthonormal in HO. destruct B as [[[[a b] c] [[d e] f]] [[g h] i]]. destruct o as [[x y] z], p as [[u v] w], q as [[u' v'] w'].
    cbn [Orthonormal transpose dot3] in HO. destruct HO as (H1 & H2 & H3 & H4 & H5 & H6). cbn [mulv addv dist2].
    transitivity ((a*a+d*d+g*g) * ((u-u')*(u-u')) + (b*b+e*e+h*h) * ((v-v')*(v-v')) + (c*c+f*f+i*i) * ((w-w')*(w-w'))
      + 2 * (a*b+d*e+g*h) * ((u-u')*(v-v')) + 2 * (a*c+d*f+g*i) * ((u-u')*(w-w')) + 2 * (b*c+e*f+h*i) * ((v-v')*(w-w')))%Q; [ring|].
    rewrite H1, H2, H3, H4, H5, H6. ring.
  Qed.
  Lemma veq_dist p p' q q' : Veq p p' -> Veq q q' -> (dist2 p q == dist2 p' q')%Q.
  Proof. destruct p as [[? ?] ?], p' as [[? ?] ?], q as [[? ?] ?], q' as [[? ?] ?]. cbn. intros (H1 & H2 & H3) (H4 & H5 & H6). rewrite H1, H2, H3, H4, H5, H6. reflexivity. Qed.

  (** several meshes *)
  Lemma many_ok : forall l (d : list (Z * fmesh (R := R))), NoDup (map fst l) ->
    (forall k c, In (k, c) l -> exists f f', dget Z.eqb k d = Some f /\ apply_transformation cos_deg f c = Ok f') ->
    exists d', transform_many cos_deg d l = (d', None) /\ map fst d' = map fst d
      /\ (forall k c f f', In (k, c) l -> dget Z.eqb k d = Some f -> apply_transformation cos_deg f c = Ok f' -> dget Z.eqb k d' = Some f')
      /\ (forall k, ~ In k (map fst l) -> dget Z.eqb k d' = dget Z.eqb k d).
  Proof.
    induction l as [|[k c] l IH]; intros d ND H.
    - exists d. split; [reflexivity|]. split; [reflexivity|]. split; [intros ? ? ? ? []|reflexivity].
    - cbn [map fst] in ND. inversion ND as [|? ? Hk ND']; subst. destruct (H k c (or_introl eq_refl)) as (f & f' & Hf & Ha).
      cbn [transform_many]. rewrite Hf, Ha.
      assert (O : forall k', k' <> k -> dget Z.eqb k' (dset Z.eqb k f' d) = dget Z.eqb k' d) by (intros; apply (dget_dset_other Z.eqb Z.eqb_eq); auto).
      destruct (IH (dset Z.eqb k f' d) ND') as (d' & E & M & A & B).
      { intros k' c' Hin. assert (k' <> k) by (intros ->; apply Hk; apply in_map_iff; exists (k, c'); auto). rewrite O by assumption. apply (H k' c'). right. exact Hin. }
      exists d'. split; [exact E|]. split.
      { rewrite M. clear -Hf. induction d as [|[k0 v] d IH]; [discriminate Hf|]. cbn [dget] in Hf. cbn [dset]. destruct (Z.eqb k k0) eqn:E.
        - apply Z.eqb_eq in E. subst. reflexivity.
        - cbn [map fst]. f_equal. apply IH. exact Hf. }
      split.
      + intros k' c' g g' [E'|Hin] Hg Hg'.
        * injection E' as <- <-. rewrite B by exact Hk. rewrite (dget_dset_same Z.eqb Z.eqb_eq). congruence.
        * assert (k' <> k) by (intros ->; apply Hk; apply in_map_iff; exists (k, c'); auto). apply (A k' c' g g' Hin); [rewrite O by assumption; exact Hg|exact Hg'].
      + intros k' Hn. cbn [map fst In] in Hn. rewrite B by tauto. apply O. intros ->. tauto.
  Qed.
  Lemma many_err : forall l (d d' : list (Z * fmesh (R := R))) e, transform_many cos_deg d l = (d', Some e) ->
    exists pre k c post, l = pre ++ (k, c) :: post /\ transform_many cos_deg d pre = (d', None)
      /\ (dget Z.eqb k d' = None /\ e = KeyError \/ exists f, dget Z.eqb k d' = Some f /\ apply_transformation cos_deg f c = Err e).
  Proof.
    induction l as [|[k c] l IH]; intros d d' e H; [discriminate H|]. cbn [transform_many] in H. destruct (dget Z.eqb k d) as [f|] eqn:Hf.
    - destruct (apply_transformation cos_deg f c) as [f'|x] eqn:Ha.
      + destruct (IH _ _ _ H) as (pre & k' & c' & post & -> & E & C). exists ((k, c) :: pre), k', c', post. split; [reflexivity|]. split; [|exact C].
        cbn [transform_many]. rewrite Hf, Ha. exact E.
      + injection H as <- <-. exists [], k, c, l. split; [reflexivity|]. split; [reflexivity|]. right. eauto.
    - injection H as <- <-. exists [], k, c, l. split; [reflexivity|]. split; [reflexivity|]. left. auto.
  Qed.
End Tr.

(** ** the pattern *)
Lemma span_ws_app w s : blanks w -> (match s with c :: _ => is_ws c = false | [] => True end) -> span_ws (w ++ s) = (w, s).
Proof.
  induction 1 as [|c w Hc H IH]; intros Hs.
  - destruct s as [|c s]; [reflexivity|]. cbn [app span_ws]. rewrite Hs. reflexivity.
  - cbn [app span_ws]. rewrite Hc, (IH Hs). reflexivity.
Qed.
Lemma span_ws_split s : exists w r, span_ws s = (w, r) /\ s = w ++ r /\ blanks w /\ (match r with c :: _ => is_ws c = false | [] => True end).
Proof.
  induction s as [|c s (w & r & E & -> & B & N)]; [exists [], []; repeat split; constructor|]. cbn [span_ws]. destruct (is_ws c) eqn:Hc.
  - rewrite E. exists (c :: w), r. repeat split; [constructor; assumption|exact N].
  - exists [], (c :: w ++ r). repeat split; [constructor|exact Hc].
Qed.
Lemma digit_not_ws c : is_digit c = true -> is_ws c = false.
Proof. intros H. destruct (is_ws c) eqn:E; [|reflexivity]. unfold is_ws in E. destruct c as [[] [] [] [] [] [] [] []]; vm_compute in H, E; discriminate. Qed.
Lemma span_digits_split s : exists d r, span_digits s = (d, r) /\ s = d ++ r /\ Forall (fun c => is_digit c = true) d /\ (match r with c :: _ => is_digit c = false | [] => True end).
Proof.
  induction s as [|c s (w & r & E & -> & B & N)]; [exists [], []; repeat split; constructor|]. cbn [span_digits]. destruct (is_digit c) eqn:Hc.
  - rewrite E. exists (c :: w), r. repeat split; [constructor; assumption|exact N].
  - exists [], (c :: w ++ r). repeat split; [constructor|exact Hc].
Qed.
Lemma here_iff s x : tr_here s = Some x <-> exists gap ds, x = gap ++ ds /\ TagAt [] s gap ds.
Proof.
  split.
  - unfold tr_here. destruct s as [|t [|r s1]]; try discriminate. destruct (Ascii.eqb_spec t "t"%char) as [->|]; [|discriminate]. destruct (Ascii.eqb_spec r "r"%char) as [->|]; [|discriminate]. cbn [andb].
    destruct (span_ws_split s1) as (w & r1 & -> & -> & Bw & _). cbn [snd]. destruct r1 as [|q s2]; [discriminate|]. destruct (Ascii.eqb_spec q "="%char) as [->|]; [|discriminate].
    destruct (span_ws_split s2) as (g & r2 & -> & -> & Bg & _). destruct (span_digits_split r2) as (d & p & -> & -> & Bd & Np).
    destruct d as [|c d]; [discriminate|]. intros H. injection H as <-. exists g, (c :: d). split; [reflexivity|]. exists w, p. repeat split; auto. discriminate.
  - intros (g & ds & -> & w & p & -> & Bw & Bg & Hne & Bd & Np). cbn [app s2l list_ascii_of_string].
    change (tr_here ("t"%char :: "r"%char :: w ++ "="%char :: g ++ ds ++ p) = Some (g ++ ds)).
    unfold tr_here. cbn [Ascii.eqb Bool.eqb andb]. rewrite span_ws_app by (auto; reflexivity). cbn [snd]. rewrite Ascii.eqb_refl.
    rewrite span_ws_app; [|exact Bg|destruct ds as [|c ds]; [contradiction|]; inversion Bd; apply digit_not_ws; assumption].
    rewrite span_digits_app by assumption. destruct ds; [contradiction|reflexivity].
Qed.
Lemma tag_cons c s pre gap ds : TagAt (c :: pre) (c :: s) gap ds <-> TagAt pre s gap ds.
Proof.
  split; intros (w & p & E & H); exists w, p; (split; [|exact H]).
  - cbn [app] in E. injection E as E. exact E.
  - cbn [app]. rewrite E. reflexivity.
Qed.
Lemma tag_head s pre gap ds c : TagAt (c :: pre) s gap ds -> exists s', s = c :: s' /\ TagAt pre s' gap ds.
Proof. intros (w & p & -> & H). eexists. split; [reflexivity|]. exists w, p. split; [reflexivity|exact H]. Qed.
Lemma search_some s x : tr_search s = Some x -> exists gap ds, x = gap ++ ds /\ Tag s gap ds.
Proof.
  induction s as [|c s IH]; intros H; cbn [tr_search] in H; [discriminate H|]. destruct (tr_here (c :: s)) as [y|] eqn:E.
  - injection H as ->. apply here_iff in E as (g & ds & -> & T). exists g, ds. split; [reflexivity|]. exists []. split; [exact T|]. intros. cbn. lia.
  - destruct (IH H) as (g & ds & -> & pre & T & M). exists g, ds. split; [reflexivity|]. exists (c :: pre). split; [apply tag_cons; exact T|].
    intros [|c' pre'] g' ds' T'.
    + exfalso. assert (X : tr_here (c :: s) = Some (g' ++ ds')) by (apply here_iff; exists g', ds'; auto). rewrite X in E. discriminate E.
    + apply tag_head in T' as (s' & E' & T'). injection E' as <- <-. cbn [length]. specialize (M _ _ _ T'). lia.
Qed.
Lemma search_none s : tr_search s = None -> Untagged s.
Proof.
  induction s as [|c s IH]; intros H pre g ds T.
  - destruct T as (w & p & E & _). destruct pre; discriminate E.
  - cbn [tr_search] in H. destruct (tr_here (c :: s)) as [y|] eqn:E; [discriminate H|]. destruct pre as [|c' pre].
    + assert (X : tr_here (c :: s) = Some (g ++ ds)) by (apply here_iff; exists g, ds; auto). rewrite X in E. discriminate E.
    + apply tag_head in T as (s' & E' & T). injection E' as <- <-. exact (IH H _ _ _ T).
Qed.
Lemma tag_search s gap ds : Tag s gap ds -> tr_search s = Some (gap ++ ds).
Proof.
  intros (pre & T & M). destruct (tr_search s) as [x|] eqn:E; [|exfalso; exact (search_none _ E _ _ _ T)].
  apply search_some in E as (g & d & -> & pre' & T' & M'). pose proof (M _ _ _ T'). pose proof (M' _ _ _ T).
  assert (L : length pre = length pre') by lia. clear M M' H H0.
  assert (forall pre pre' s g1 d1 g2 d2, length pre = length pre' -> TagAt pre s g1 d1 -> TagAt pre' s g2 d2 -> g1 ++ d1 = g2 ++ d2) as G.
  { clear. induction pre as [|c pre IH]; intros [|c' pre'] s g1 d1 g2 d2 L T1 T2; try discriminate L.
    - assert (X : tr_here s = Some (g1 ++ d1)) by (apply here_iff; eauto). assert (Y : tr_here s = Some (g2 ++ d2)) by (apply here_iff; eauto). congruence.
    - apply tag_head in T1 as (s1 & -> & T1). apply tag_head in T2 as (s2 & E & T2). injection E as _ <-. injection L as L. exact (IH _ _ _ _ _ _ L T1 T2). }
  f_equal. exact (G _ _ _ _ _ _ _ (eq_sym L) T' T).
Qed.
Lemma untagged_search s : Untagged s -> tr_search s = None.
Proof. intros H. destruct (tr_search s) as [x|] eqn:E; [|reflexivity]. apply search_some in E as (g & d & _ & pre & T & _). exfalso. exact (H _ _ _ T). Qed.
Lemma card_tag ls gap ds : CardTag ls gap ds -> first_match ls = Some (gap ++ ds).
Proof.
  intros (a & l & b & -> & U & T). induction U as [|x a Hx U IH]; cbn [app first_match]; [rewrite (tag_search _ _ _ T); reflexivity|]. rewrite (untagged_search _ Hx). exact IH.
Qed.
Lemma card_untagged ls : Forall Untagged ls -> first_match ls = None.
Proof. induction 1 as [|x a Hx U IH]; cbn [first_match]; [reflexivity|]. rewrite (untagged_search _ Hx). exact IH. Qed.
Lemma first_match_inv ls : (exists gap ds, CardTag ls gap ds /\ first_match ls = Some (gap ++ ds)) \/ (Forall Untagged ls /\ first_match ls = None).
Proof.
  induction ls as [|l ls [(g & d & (a & l' & b & -> & U & T) & E)|[U E]]].
  - right. split; [constructor|reflexivity].
  - cbn [first_match]. destruct (tr_search l) as [x|] eqn:S.
    + left. apply search_some in S as (g' & d' & -> & T'). exists g', d'. split; [exists [], l, (a ++ l' :: b); repeat split; [constructor|exact T']|reflexivity].
    + left. exists g, d. split; [exists (l :: a), l', b; repeat split; [constructor; [apply search_none; exact S|exact U]|exact T]|exact E].
  - cbn [first_match]. destruct (tr_search l) as [x|] eqn:S.
    + left. apply search_some in S as (g' & d' & -> & T'). exists g', d'. split; [exists [], l, ls; repeat split; [constructor|exact T']|reflexivity].
    + right. split; [constructor; [apply search_none; exact S|exact U]|exact E].
Qed.

(** ** meshes moved by their input *)
Section Inp.
  Context {R : Type} (cos_deg : Q -> Q) (d : list (Z * fmesh (R := R))) (trs : list (str * trcard)).
  Notation card := (str * (Z * list str))%type.
  Definition counts (c : card) : bool := has "FMESH" (fst c) && match dget Z.eqb (fst (snd c)) d with Some _ => true | None => false end.
  (* the entry of a card *)
  Definition wants (c : card) : list (Z * str) := if counts c then match first_match (snd (snd c)) with Some x => [(fst (snd c), s2l "TR" ++ x)] | None => [] end else [].
  Lemma collect_ok : forall cards acc (sel : list (Z * trcard)), NoDup (map fst acc ++ map fst (concat (map wants cards))) ->
    Forall2 (fun w s => fst w = fst s /\ dget str_eqb (snd w) trs = Some (snd s)) (concat (map wants cards)) sel ->
    collect d trs cards acc = Ok (acc ++ sel).
  Proof.
    induction cards as [|[key [n ls]] cards IH]; intros acc sel ND F.
    - inversion F; subst. cbn [collect]. rewrite app_nil_r. reflexivity.
    - cbn [map concat] in ND, F. unfold wants at 1 in F. unfold wants at 1 in ND. unfold counts in *. cbn [fst snd] in *. cbn [collect].
      destruct (has "FMESH" key && match dget Z.eqb n d with Some _ => true | None => false end); [|apply IH; assumption].
      destruct (first_match ls) as [x|]; [|apply IH; assumption].
      cbn [app] in F. inversion F as [|? [n' c] ? sel' [E1 E2] F']; subst. cbn [fst snd] in *. subst n'. change (s2l "TR" ++ x) with ("T"%char :: "R"%char :: x). cbn [app s2l list_ascii_of_string] in E2. rewrite E2.
      assert (Hn : ~ In n (map fst acc)). { intros X. cbn [app map fst] in ND. apply NoDup_remove_2 in ND. apply ND. apply in_or_app. left. exact X. }
      assert (ES : dset Z.eqb n c acc = acc ++ [(n, c)]).
      { clear -Hn. induction acc as [|[k v] acc IH]; [reflexivity|]. cbn [dset map fst In app] in *. destruct (Z.eqb n k) eqn:E; [apply Z.eqb_eq in E; subst; tauto|]. f_equal. apply IH. tauto. }
      rewrite ES, (IH (acc ++ [(n, c)]) sel').
      + rewrite <- app_assoc. reflexivity.
      + rewrite map_app. cbn [map fst]. rewrite <- app_assoc. exact ND.
      + exact F'.
  Qed.
  Lemma collect_missing : forall cards acc, Exists (fun w => dget str_eqb (snd w) trs = None) (concat (map wants cards)) -> collect d trs cards acc = Err KeyError.
  Proof.
    induction cards as [|[key [n ls]] cards IH]; intros acc H; [inversion H|]. cbn [map concat] in H. unfold wants at 1 in H. unfold counts in H. cbn [fst snd] in *. cbn [collect].
    destruct (has "FMESH" key && match dget Z.eqb n d with Some _ => true | None => false end); [|apply IH; exact H].
    destruct (first_match ls) as [x|]; [|apply IH; exact H].
    cbn [app] in H. inversion H as [? ? X|? ? X]; subst.
    - cbn [snd] in X. change (s2l "TR" ++ x) with ("T"%char :: "R"%char :: x). cbn [app s2l list_ascii_of_string] in X. rewrite X. reflexivity.
    - destruct (dget str_eqb (s2l "TR" ++ x) trs); [apply IH; exact X|reflexivity].
  Qed.
  Lemma wants_in c n x : In (n, x) (wants c) <-> exists gap ds, counts c = true /\ n = fst (snd c) /\ CardTag (snd (snd c)) gap ds /\ x = s2l "TR" ++ gap ++ ds.
  Proof.
    unfold wants. destruct (counts c); [|split; [intros []|intros (? & ? & H & _); discriminate H]].
    destruct (first_match_inv (snd (snd c))) as [(g & ds & T & ->)|[U ->]].
    - split.
      + intros [E|[]]. injection E as <- <-. exists g, ds. auto.
      + intros (g' & ds' & _ & -> & T' & ->). left. apply card_tag in T, T'. rewrite T in T'. injection T' as ->. reflexivity.
    - split; [intros []|]. intros (g' & ds' & _ & _ & T' & _). apply card_tag in T'. rewrite (card_untagged _ U) in T'. discriminate T'.
  Qed.
End Inp.
