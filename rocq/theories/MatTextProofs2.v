(** Proofs about the writing of material cards. *)
From Coq Require Import Lia QArith.
From Verif Require Import PyBase PyLemmas PyStr PyStrLemmas PyText PySci PySciLemmas LibModel LibProofs D1SProofs MatModel MatSpec MatProofs MatProofs2 MatTextModel MatTextSpec MatTextProofs.
Open Scope nat_scope.

(** ** Joined lines *)
Definition body (b : str) : Prop := b <> [] /\ ~ In nl b.
Definition tailj (bs : list str) : str := concat (map (fun b => nl :: b) bs).
Lemma joined_cons b r : joined (b :: r) = b ++ tailj r.
Proof. revert b. induction r as [|a r IH]; intros b; [unfold tailj; cbn; now rewrite app_nil_r|]. cbn [joined] in *. rewrite IH. unfold tailj. cbn [map concat app]. reflexivity. Qed.
Lemma tailj_cons b r : tailj (b :: r) = nl :: joined (b :: r).
Proof. rewrite joined_cons. reflexivity. Qed.
Lemma tailj_joined bs : bs <> [] -> tailj bs = nl :: joined bs.
Proof. destruct bs; [contradiction|]. intros _. apply tailj_cons. Qed.
Lemma closed_tailj bs : nl :: closed bs = tailj bs ++ [nl].
Proof. induction bs as [|b r IH]; [reflexivity|]. unfold tailj in *. unfold closed in *. cbn [map concat]. rewrite <- !app_assoc. cbn [app]. rewrite IH. reflexivity. Qed.
Lemma closed_joined bs : bs <> [] -> closed bs = joined bs ++ [nl].
Proof. intros H. pose proof (closed_tailj bs) as E. rewrite (tailj_joined bs H) in E. cbn [app] in E. injection E as E. exact E. Qed.
Lemma tailj_app a b : tailj (a ++ b) = tailj a ++ tailj b.
Proof. unfold tailj. now rewrite map_app, concat_app. Qed.

Lemma lstrip_nl_id s c r : s = c :: r -> c <> nl -> lstrip_nl s = s.
Proof. intros -> H. cbn [lstrip_nl]. destruct (Ascii.eqb_spec c nl); [contradiction|reflexivity]. Qed.
Lemma joined_first bs : Forall body bs -> bs <> [] -> exists c r, joined bs = c :: r /\ c <> nl.
Proof.
  intros H N. destruct bs as [|b bs]; [contradiction|]. rewrite joined_cons. destruct (Forall_inv H) as [X Y]. destruct b as [|c b]; [contradiction|].
  exists c, (b ++ tailj bs). split; [reflexivity|]. intros ->. apply Y. left. reflexivity.
Qed.
Lemma joined_last bs : Forall body bs -> bs <> [] -> exists c r, rev (joined bs) = c :: r /\ c <> nl.
Proof.
  intros H N. destruct (exists_last N) as (a & b & ->). apply Forall_app in H. destruct H as [_ H]. destruct (Forall_inv H) as [X Y].
  assert (E : exists p, joined (a ++ [b]) = p ++ b).
  { destruct a as [|x a]; [exists []; reflexivity|]. cbn [app]. rewrite joined_cons, tailj_app. unfold tailj at 2. cbn [map concat app]. rewrite app_nil_r. exists (x ++ tailj a ++ [nl]). rewrite <- !app_assoc. reflexivity. }
  destruct E as [p ->]. rewrite rev_app_distr. destruct (rev b) as [|c r] eqn:R.
  - exfalso. apply X. rewrite <- (rev_involutive b), R. reflexivity.
  - exists c, (r ++ rev p). split; [reflexivity|]. intros ->. apply Y. apply in_rev. rewrite R. left. reflexivity.
Qed.
Lemma strip_joined bs : Forall body bs -> strip_nl (joined bs) = joined bs.
Proof.
  intros H. destruct bs as [|b bs]; [reflexivity|]. assert (N : b :: bs <> []) by discriminate. unfold strip_nl.
  destruct (joined_first _ H N) as (c & r & E & X). rewrite (lstrip_nl_id _ c r E X). destruct (joined_last _ H N) as (c' & r' & E' & X'). rewrite (lstrip_nl_id _ c' r' E' X'). apply rev_involutive.
Qed.
Lemma strip_tailj bs : Forall body bs -> strip_nl (tailj bs) = joined bs.
Proof.
  intros H. destruct bs as [|b bs]; [reflexivity|]. rewrite <- (strip_joined (b :: bs) H) at 1. rewrite tailj_cons. unfold strip_nl. cbn [lstrip_nl]. reflexivity.
Qed.
Lemma strip_closed bs : Forall body bs -> strip_nl (closed bs) = joined bs.
Proof.
  intros H. destruct bs as [|b bs]; [reflexivity|]. assert (N : b :: bs <> []) by discriminate. rewrite (closed_joined _ N). unfold strip_nl.
  destruct (joined_first _ H N) as (c & r & E & X). rewrite (lstrip_nl_id (joined (b :: bs) ++ [nl]) c (r ++ [nl])); [|rewrite E; reflexivity|exact X].
  rewrite rev_app_distr. cbn [rev app lstrip_nl]. destruct (joined_last _ H N) as (c' & r' & E' & X'). replace (Ascii.eqb nl nl) with true by reflexivity.
  rewrite (lstrip_nl_id _ c' r' E' X'). apply rev_involutive.
Qed.
Lemma strip_closed_end bs k : Forall body bs -> body k -> strip_nl (closed bs ++ k) = joined (bs ++ [k]).
Proof.
  intros H K. assert (F : Forall body (bs ++ [k])) by (apply Forall_app; split; [exact H|constructor; [exact K|constructor]]).
  rewrite <- (strip_joined (bs ++ [k]) F). f_equal. destruct bs as [|b bs]; [reflexivity|]. cbn [app]. rewrite joined_cons, tailj_app. rewrite (closed_joined (b :: bs)) by discriminate.
  rewrite joined_cons, <- !app_assoc. unfold tailj. cbn [map concat app]. rewrite app_nil_r. reflexivity.
Qed.
Lemma file_joined bs : Forall body bs -> bs <> [] -> file_lines (joined bs) = map (fun b => b ++ [nl]) bs.
Proof.
  intros H N. unfold file_lines. rewrite <- (closed_joined bs N). unfold closed. rewrite <- (app_nil_r (concat _)), lines_concat; [apply app_nil_r|].
  apply Forall_map. eapply Forall_impl; [|exact H]. intros b [_ X]. exists b. split; [reflexivity|exact X].
Qed.

(** ** A line with a nuclide *)
Definition zt (zi : zaid * info) : str := zaid_to_text (fst zi) (snd zi).
Lemma no_ws_notin s c : no_ws s -> is_ws c = true -> ~ In c s.
Proof. intros H E X. unfold no_ws in H. rewrite Forall_forall in H. specialize (H c X). congruence. Qed.
Lemma in_repeat_sp k c : In c (repeat sp k) -> c = sp. Proof. apply repeat_spec. Qed.
Lemma zt_plain zi : WZaid zi -> Plain (zt zi).
Proof.
  destruct zi as [z i]. unfold WZaid, zt, zaid_to_text. cbn [fst snd]. intros (_ & _ & (_ & Nw & _) & _ & (F1 & F2) & (W1 & W2) & (A1 & A2)).
  destruct (fmt_sci_no_ws Short "E"%char 6 (z_frac z) eq_refl) as [Nf _].
  assert (G : forall x, is_ws x = true -> x <> sp -> ~ In x (i_fullname i) -> ~ In x (i_weight i) -> ~ In x (i_abundance i) ->
    ~ In x (rjust 15 (z_name z) ++ sp :: rjust 18 (fmt_sci Short "E" 6 (z_frac z)) ++ sp :: ljust 12 (s2l "    $ " ++ i_fullname i) ++ sp :: ljust 10 (s2l "WEIGHT(%) " ++ i_weight i) ++ sp :: ljust 10 (s2l "AB(%) " ++ i_abundance i))).
  { intros x Ex Es H1 H2 H3. unfold rjust, ljust. rewrite !in_app_iff. cbn [In]. rewrite !in_app_iff. cbn [In]. rewrite !in_app_iff. cbn [In]. rewrite !in_app_iff. cbn [In]. rewrite !in_app_iff.
    pose proof (no_ws_notin _ x Nw Ex). pose proof (no_ws_notin _ x Nf Ex).
    assert (R : forall k, ~ In x (repeat sp k)) by (intros k X; apply in_repeat_sp in X; contradiction).
    assert (C1 : ~ In x (s2l "    $ ")) by (cbn; intros [X|[X|[X|[X|[X|[X|[]]]]]]]; subst x; (contradiction || discriminate Ex)).
    assert (C2 : ~ In x (s2l "WEIGHT(%) ")) by (cbn; intros X; repeat (destruct X as [X|X]; [subst x; (contradiction || discriminate Ex)|]); exact X).
    assert (C3 : ~ In x (s2l "AB(%) ")) by (cbn; intros X; repeat (destruct X as [X|X]; [subst x; (contradiction || discriminate Ex)|]); exact X).
    assert (Es' : sp <> x) by congruence. intuition (eauto; firstorder). }
  split; (apply G; [reflexivity|discriminate|assumption|assumption|assumption]).
Qed.
Lemma zt_blanks zi : WZaid zi -> exists r, zt zi = repeat sp 5 ++ r.
Proof.
  destruct zi as [z i]. intros (_ & _ & _ & L & _). unfold zt, zaid_to_text, rjust. cbn [fst snd] in *.
  assert (E : 15 - length (z_name z) = 5 + (10 - length (z_name z))) by lia. rewrite E, repeat_app, <- !app_assoc. eexists. reflexivity.
Qed.
Lemma split_space x : split (sp :: x) = split x. Proof. apply (split_ws [sp] x). constructor; [reflexivity|constructor]. Qed.
Lemma zt_split zi x : WZaid zi -> exists r, split (zt zi ++ x) = z_name (fst zi) :: fmt_sci Short "E"%char 6 (z_frac (fst zi)) :: [ "$"%char ] :: r.
Proof.
  destruct zi as [z i]. intros (_ & _ & (Nn & Nw & _) & _). unfold zt, zaid_to_text. cbn [fst snd] in *. rewrite <- !app_assoc. cbn [app]. rewrite <- !app_assoc. cbn [app]. rewrite <- !app_assoc.
  destruct (fmt_sci_no_ws Short "E"%char 6 (z_frac z) eq_refl) as [Fw Fn].
  rewrite split_rjust, (split_tok_ws (z_name z) sp) by (assumption || reflexivity). rewrite split_rjust, (split_tok_ws _ sp) by (assumption || reflexivity).
  unfold ljust. change (s2l "    $ ") with (repeat sp 4 ++ ("$"%char :: sp :: [])). rewrite <- !app_assoc. rewrite (split_ws (repeat sp 4)) by (apply Forall_forall; intros y Y; apply in_repeat_sp in Y; subst; reflexivity).
  assert (D : forall t, split ("$"%char :: sp :: t) = ["$"%char] :: split t). { intros t. apply (split_tok_ws ["$"%char] sp t); [constructor; [reflexivity|constructor]|discriminate|reflexivity]. }
  cbn [app]. rewrite D. eexists. reflexivity.
Qed.
Lemma word_no_dollar (w : str) : Word w -> hd_error w <> Some "$"%char. Proof. intros (_ & _ & H). exact H. Qed.
Lemma fmt_no_dollar q : hd_error (fmt_sci Short "E"%char 6 q) <> Some "$"%char.
Proof.
  assert (G : forall d x, exists c r, scin Short "E"%char 6 d x = c :: r /\ is_digit c = true).
  { intros d x. unfold scin. pose proof (ndig_length 7 (Z.to_N d)) as L. pose proof (ndig_digits 7 (Z.to_N d)) as D. destruct (ndig 7 (Z.to_N d)) as [|c cs]; [discriminate L|]. exists c. eexists. split; [reflexivity|exact (Forall_inv D)]. }
  assert (K : forall d x, hd_error (scin Short "E"%char 6 d x) <> Some "$"%char) by (intros d x; destruct (G d x) as (c & r & -> & E); cbn; intros [= ->]; discriminate E).
  unfold fmt_sci. destruct (Qeq_bool q 0); [apply K|]. destruct (Qle_bool 0 q).
  - destruct (decn 6 q). apply K.
  - destruct (decn 6 (-q)). cbn. discriminate.
Qed.
Definition wz (zi : zaid * info) : zaid := with_frac (fst zi) (roundn Short 6 (z_frac (fst zi))).
Lemma zt_upto zi x : WZaid zi -> UpToDollar (split (zt zi ++ x)) [z_name (fst zi); fmt_sci Short "E"%char 6 (z_frac (fst zi))].
Proof.
  intros H. destruct (zt_split zi x H) as [r ->]. destruct H as (_ & _ & W & _). constructor; [exact (word_no_dollar _ W)|]. constructor; [apply fmt_no_dollar|]. constructor.
Qed.
Lemma zaid_text_ok z q : wf_zaid z -> (exists c r, z_elem z = c :: r /\ is_digit c = true) -> ZaidText (z_name z) (with_frac z q).
Proof.
  intros (A & B & C & D) (c & r & E & Hd). unfold ZaidText, with_frac, z_name. cbn [z_elem z_iso z_lib]. split; [rewrite E; cbn [app]; eauto|]. split; [exact A|]. split; [rewrite in_app_iff; tauto|]. split; [reflexivity|]. destruct (z_lib z); [exact D|exact I].
Qed.
Lemma zt_data zi : WZaid zi -> Data (zt zi ++ [nl]) [wz zi] [].
Proof.
  intros H. exists [z_name (fst zi); fmt_sci Short "E"%char 6 (z_frac (fst zi))]. split; [now apply zt_upto|]. destruct H as (W & D & _). cbn zeta in *.
  constructor; [apply zaid_text_ok; assumption|apply parse_fmt_sci; right; reflexivity|constructor].
Qed.
Lemma zt_line zi : WZaid zi -> DataLine (zt zi ++ [nl]).
Proof.
  intros H. destruct (zt_blanks zi H) as [r E]. split; [rewrite E; reflexivity|]. split; [rewrite E; discriminate|]. intros w t Ew. destruct (zt_split zi [nl] H) as [u Eu].
  unfold str in *. rewrite Eu in Ew. injection Ew as <- _. destruct H as (_ & (c & e & E1 & Hd) & _). unfold z_name. rewrite E1. intros (a & b & s & Es & Ha & _). injection Es as <- _. destruct Ha as [-> | ->]; discriminate Hd.
Qed.
Lemma plain_nl s : Plain s -> ~ In cr (s ++ [nl]). Proof. intros [_ H]. rewrite in_app_iff. intros [X|[X|[]]]; [contradiction|discriminate X]. Qed.

(** ** The line of the keywords *)
Definition kt (ks : list str) : str := "009"%char :: concat (map (fun k => sp :: k) ks).
Lemma split_kt ks x : Forall Word ks -> split (concat (map (fun k => sp :: k) ks) ++ nl :: x) = ks ++ split x.
Proof.
  induction ks as [|k ks IH]; intros H; cbn [map concat app]; [apply (split_ws [nl] x); constructor; [reflexivity|constructor]|]. rewrite split_space, <- app_assoc. destruct (Forall_inv H) as (Hn & Hw & _).
  destruct ks as [|k' ks].
  - cbn [map concat app]. rewrite (split_tok_ws k nl) by (assumption || reflexivity). reflexivity.
  - specialize (IH (Forall_inv_tail H)). cbn [map concat app] in IH |- *. rewrite (split_tok_ws k sp) by (assumption || reflexivity). rewrite split_space in IH. unfold str in *. rewrite IH. reflexivity.
Qed.
Lemma kt_split ks : Forall Word ks -> split (kt ks ++ [nl]) = ks.
Proof.
  intros H. unfold kt. cbn [app]. pose proof (split_ws ["009"%char] (concat (map (fun k => sp :: k) ks) ++ [nl])) as E. cbn [app] in E. rewrite E by (constructor; [reflexivity|constructor]).
  rewrite (split_kt ks [] H). apply app_nil_r.
Qed.
Lemma kt_data ks : Forall Word ks -> (forall k r, ks = k :: r -> ~ MatWord k /\ forall c s, k = c :: s -> is_digit c = false) -> Data (kt ks ++ [nl]) [] ks.
Proof.
  intros H K. exists ks. rewrite (kt_split ks H). split.
  - clear K. induction H as [|k ks W _ IH]; constructor; [exact (word_no_dollar _ W)|exact IH].
  - destruct ks as [|k r]; constructor. exact (proj2 (K k r eq_refl)).
Qed.
Lemma kt_line ks : Forall Word ks -> (forall k r, ks = k :: r -> ~ MatWord k /\ forall c s, k = c :: s -> is_digit c = false) -> DataLine (kt ks ++ [nl]).
Proof.
  intros H K. split; [reflexivity|]. split; [discriminate|]. intros w r E. rewrite (kt_split ks H) in E. exact (proj1 (K w r E)).
Qed.
Lemma kt_plain ks : Forall Word ks -> Plain (kt ks).
Proof.
  intros H. assert (G : forall x, is_ws x = true -> x <> sp -> x <> "009"%char -> ~ In x (kt ks)).
  { intros x Ex Es Et. unfold kt. intros [X|X]; [congruence|]. apply in_concat in X. destruct X as (t & Ht & X). apply in_map_iff in Ht. destruct Ht as (k & <- & Hk). destruct X as [X|X]; [congruence|].
    rewrite Forall_forall in H. destruct (H k Hk) as (_ & W & _). exact (no_ws_notin k x W Ex X). }
  split; (apply G; [reflexivity|discriminate|discriminate]).
Qed.

(** ** A submaterial *)
Definition kbodies (ks : list str) : list str := match ks with [] => [] | _ => [kt ks] end.
Definition bodies (p : wpart) : list str := wp_notes p ++ map zt (concat (wp_elems p)) ++ kbodies (wp_keys p).
Lemma note_body l : Note l -> body l.
Proof. intros ((c & w & r & E & Hc & _) & H & _). split; [|exact H]. intros ->. cbn in E. injection E as <- _. destruct Hc as [X|X]; discriminate X. Qed.
Lemma zt_body zi : WZaid zi -> body (zt zi).
Proof. intros H. split; [|exact (proj1 (zt_plain zi H))]. destruct (zt_blanks zi H) as [r ->]. discriminate. Qed.
Lemma kt_body ks : Forall Word ks -> body (kt ks). Proof. intros H. split; [discriminate|exact (proj1 (kt_plain ks H))]. Qed.
Lemma bodies_ok p : WPart p -> Forall body (bodies p) /\ bodies p <> [].
Proof.
  intros (HN & Hz & HZ & HK & _). split.
  - apply Forall_app. split; [eapply Forall_impl; [exact note_body|exact HN]|]. apply Forall_app. split; [apply Forall_map; eapply Forall_impl; [exact zt_body|exact HZ]|].
    unfold kbodies. destruct (wp_keys p) as [|k ks]; [constructor|]. constructor; [apply kt_body; exact HK|constructor].
  - unfold bodies. destruct (concat (wp_elems p)); [contradiction|]. destruct (wp_notes p); discriminate.
Qed.
Lemma strip_nl_cons s : strip_nl (nl :: s) = strip_nl s. Proof. reflexivity. Qed.
Lemma sub_text w p : WPart p -> Sub w p -> sub_to_text w = joined (bodies p).
Proof.
  intros H (E1 & E2 & E3). destruct (bodies_ok p H) as [HB _]. unfold sub_to_text. rewrite E1, E2.
  assert (E : forall k, strip_nl ((match w_header w with Some h => h ++ [nl] | None => [] end) ++ concat (map (fun zi => zaid_to_text (fst zi) (snd zi) ++ [nl]) (concat (wp_elems p))) ++ k) = strip_nl (closed (wp_notes p ++ map zt (concat (wp_elems p))) ++ k)).
  { intros k. unfold closed. rewrite map_app, concat_app, map_map, <- app_assoc. destruct E3 as [[-> ->]| ->]; [reflexivity|]. destruct (wp_notes p) as [|a r]; [apply strip_nl_cons|].
    f_equal. f_equal. symmetry. apply (closed_joined (a :: r)). discriminate. }
  rewrite E. unfold bodies, kbodies in *. destruct (wp_keys p) as [|k ks] eqn:Ek.
  - rewrite !app_nil_r in *. apply strip_closed. exact HB.
  - rewrite app_assoc in HB |- *. apply Forall_app in HB. destruct HB as [B1 B2]. exact (strip_closed_end _ (kt (k :: ks)) B1 (Forall_inv B2)).
Qed.

(** ** A material *)
Definition mbodies (m : wmat) (hs : list str) (ps : list wpart) : list str := hs ++ upper (wm_name m) :: concat (map bodies ps).
Lemma upper_name n : MatName n -> exists ds, upper n = "M"%char :: ds /\ ds <> [] /\ Forall (fun d => is_digit d = true) ds.
Proof.
  intros (c & ds & -> & Hc & Hn & Hd). exists ds. split; [|split; assumption]. unfold upper. cbn [map]. f_equal; [destruct Hc as [-> | ->]; reflexivity|].
  rewrite <- (map_id ds) at 2. apply map_ext_in. intros d Hi. rewrite Forall_forall in Hd. specialize (Hd d Hi). clear - Hd. destruct d as [[] [] [] [] [] [] [] []]; (reflexivity || discriminate Hd).
Qed.
Lemma name_plain n : MatName n -> body (upper n) /\ ~ In cr (upper n).
Proof.
  intros H. destruct (upper_name n H) as (ds & -> & Hn & Hd). pose proof (digits_no_ws ds Hd) as W. split; [split; [discriminate|]|]; (intros [X|X]; [discriminate X|]; revert X; apply (no_ws_notin ds); [exact W|reflexivity]).
Qed.
Lemma mbodies_ok m hs ps : WMat m hs ps -> Forall body (mbodies m hs ps) /\ mbodies m hs ps <> [].
Proof.
  intros (HN & (HH & _) & _ & HP & _). split.
  - apply Forall_app. split; [eapply Forall_impl; [exact note_body|exact HH]|]. constructor; [exact (proj1 (name_plain _ HN))|]. apply Forall_concat, Forall_map. eapply Forall_impl; [|exact HP]. intros p Hp. exact (proj1 (bodies_ok p Hp)).
  - unfold mbodies. destruct hs; discriminate.
Qed.
Lemma strip_body b : body b -> strip_nl b = b.
Proof. intros H. pose proof (strip_joined [b]) as E. cbn [joined] in E. apply E. constructor; [exact H|constructor]. Qed.
Lemma mat_text m hs ps : WMat m hs ps -> mat_to_text m = joined (mbodies m hs ps).
Proof.
  intros H. destruct (mbodies_ok m hs ps H) as [HB _]. destruct H as (HN & (HH & HO) & HS & HP & _ & HM). unfold mat_to_text. rewrite HM. cbn [concat map]. rewrite app_nil_r.
  assert (ET : concat (map (fun s => nl :: sub_to_text s) (wm_subs m)) = tailj (concat (map bodies ps))).
  { clear - HP HS. induction HS as [|w p ws ps Sw _ IH]; [reflexivity|]. pose proof (Forall_inv HP) as Hp. cbn [map concat]. rewrite (IH (Forall_inv_tail HP)), (sub_text w p Hp Sw), tailj_app, (tailj_joined (bodies p)) by exact (proj2 (bodies_ok p Hp)). reflexivity. }
  rewrite ET. pose proof (proj1 (name_plain _ HN)) as NB. assert (HHB : Forall body hs) by (eapply Forall_impl; [exact note_body|exact HH]).
  assert (EN : strip_nl (upper (wm_name m) ++ tailj (concat (map bodies ps))) = joined (upper (wm_name m) :: concat (map bodies ps))).
  { rewrite <- joined_cons. apply strip_joined. unfold mbodies in HB. apply Forall_app in HB. exact (proj2 HB). }
  assert (EH : forall h, strip_nl h = joined hs -> strip_nl ((strip_nl h ++ nl :: strip_nl (upper (wm_name m))) ++ tailj (concat (map bodies ps))) = joined (mbodies m hs ps)).
  { intros h ->. rewrite (strip_body _ NB). destruct hs as [|a r].
    - cbn [joined app]. rewrite <- (strip_tailj (mbodies m [] ps)) by exact HB. reflexivity.
    - rewrite <- (strip_joined (mbodies m (a :: r) ps)) by exact HB. f_equal. unfold mbodies. cbn [app]. rewrite !joined_cons, tailj_app, <- !app_assoc. reflexivity. }
  destruct HO as [[-> ->]|[-> | ->]].
  - exact EN.
  - apply EH, strip_joined, HHB.
  - apply EH, strip_closed, HHB.
Qed.
Lemma mat_lines m hs ps : WMat m hs ps -> file_lines (mat_to_text m) = map (fun b => b ++ [nl]) (mbodies m hs ps).
Proof. intros H. rewrite (mat_text m hs ps H). destruct (mbodies_ok m hs ps H). now apply file_joined. Qed.
(** with mx cards *)
Lemma upper_body b : body b -> body (upper b).
Proof.
  intros [A B]. split; [destruct b; [congruence|discriminate]|]. unfold upper. rewrite in_map_iff. intros (c & E & I). apply B. replace nl with c; [exact I|].
  destruct c as [b0 b1 b2 b3 b4 b5 b6 b7]. destruct b0, b1, b2, b3, b4, b5, b6, b7; vm_compute in E; first [discriminate E|reflexivity].
Qed.
Lemma one_line_ok l b : one_line l b -> body b /\ strip_nl l = b.
Proof.
  intros (E & A & B). split; [split; assumption|]. destruct E as [-> | ->]; [apply strip_body; split; assumption|]. pose proof (strip_closed [b]) as X. unfold closed in X. cbn [map concat joined] in X. rewrite app_nil_r in X. apply X. constructor; [split; assumption|constructor].
Qed.
Lemma mat_text_mx m hs ps mx bs : WMat m hs ps -> Forall2 one_line (concat mx) bs -> mat_to_text (with_mx m mx) = joined (mbodies m hs ps ++ map upper bs).
Proof.
  intros H M. assert (HE : Forall body (map upper bs)).
  { apply Forall_map. clear - M. induction M as [|l b ls bs O _ IH]; constructor; [exact (upper_body _ (proj1 (one_line_ok _ _ O)))|exact IH]. }
  assert (EM : concat (map (fun l => nl :: upper (strip_nl l)) (concat mx)) = tailj (map upper bs)).
  { clear - M. induction M as [|l b ls bs O _ IH]; [reflexivity|]. cbn [map concat]. rewrite IH, (proj2 (one_line_ok _ _ O)). rewrite (tailj_joined (upper b :: map upper bs)) by discriminate. rewrite joined_cons. reflexivity. }
  destruct (mbodies_ok m hs ps H) as [HB _]. destruct H as (HN & (HH & HO) & HS & HP & _ & HM). unfold mat_to_text, with_mx. cbn [wm_name wm_header wm_subs wm_mx]. rewrite EM.
  assert (ET : concat (map (fun s => nl :: sub_to_text s) (wm_subs m)) = tailj (concat (map bodies ps))).
  { clear - HP HS. induction HS as [|w p ws ps Sw _ IH]; [reflexivity|]. pose proof (Forall_inv HP) as Hp. cbn [map concat]. rewrite (IH (Forall_inv_tail HP)), (sub_text w p Hp Sw), tailj_app, (tailj_joined (bodies p)) by exact (proj2 (bodies_ok p Hp)). reflexivity. }
  rewrite ET, <- tailj_app. pose proof (proj1 (name_plain _ HN)) as NB. assert (HHB : Forall body hs) by (eapply Forall_impl; [exact note_body|exact HH]).
  assert (HB2 : Forall body (mbodies m hs ps ++ map upper bs)) by (apply Forall_app; split; assumption).
  set (T := concat (map bodies ps) ++ map upper bs).
  assert (MB : mbodies m hs ps ++ map upper bs = hs ++ upper (wm_name m) :: T) by (unfold mbodies, T; rewrite <- app_assoc; reflexivity). rewrite MB in *.
  assert (EN : strip_nl (upper (wm_name m) ++ tailj T) = joined (upper (wm_name m) :: T)).
  { rewrite <- joined_cons. apply strip_joined. apply Forall_app in HB2. exact (proj2 HB2). }
  assert (EH : forall h, strip_nl h = joined hs -> strip_nl ((strip_nl h ++ nl :: strip_nl (upper (wm_name m))) ++ tailj T) = joined (hs ++ upper (wm_name m) :: T)).
  { intros h ->. rewrite (strip_body _ NB). destruct hs as [|a r].
    - change ([] ++ upper (wm_name m) :: T) with (upper (wm_name m) :: T). rewrite <- (strip_tailj (upper (wm_name m) :: T)) by exact HB2. reflexivity.
    - rewrite <- (strip_joined ((a :: r) ++ upper (wm_name m) :: T)) by exact HB2. f_equal. cbn [app]. rewrite !joined_cons, tailj_app, <- !app_assoc. reflexivity. }
  destruct HO as [[-> ->]|[-> | ->]].
  - exact EN.
  - apply EH, strip_joined, HHB.
  - apply EH, strip_closed, HHB.
Qed.
Lemma mat_lines_mx m hs ps mx bs : WMat m hs ps -> Forall2 one_line (concat mx) bs ->
  file_lines (mat_to_text (with_mx m mx)) = file_lines (mat_to_text m) ++ map (fun b => upper b ++ [nl]) bs.
Proof.
  intros H M. rewrite (mat_text_mx m hs ps mx bs H M), (mat_lines m hs ps H). destruct (mbodies_ok m hs ps H) as [B N]. rewrite file_joined; [rewrite map_app, map_map; reflexivity| |destruct (mbodies m hs ps); [congruence|discriminate]].
  apply Forall_app. split; [exact B|]. apply Forall_map. clear - M. induction M as [|l b ls bs O _ IH]; constructor; [exact (upper_body _ (proj1 (one_line_ok _ _ O)))|exact IH].
Qed.

(** ** Reading what was written *)
Definition dlines (p : wpart) : list (str * list zaid * list str) :=
  map (fun zi => (zt zi ++ [nl], [wz zi], [])) (concat (wp_elems p)) ++ match wp_keys p with [] => [] | ks => [(kt ks ++ [nl], [], ks)] end.
Definition to_part (p : wpart) : part := mkpart (map (fun b => b ++ [nl]) (wp_notes p)) (dlines p).
Lemma dlines_ok p : WPart p -> Lines (dlines p) /\ dlines p <> [].
Proof.
  intros (_ & Hz & HZ & HK & HF). split.
  - apply Forall_app. split.
    + apply Forall_map. eapply Forall_impl; [|exact HZ]. intros zi Hi. cbn [fst snd]. split; [now apply zt_line|]. split; [apply plain_nl, zt_plain, Hi|now apply zt_data].
    + destruct (wp_keys p) as [|k ks] eqn:Ek; [constructor|]. constructor; [|constructor]. cbn [fst snd]. split; [apply kt_line; assumption|]. split; [apply plain_nl, kt_plain, HK|apply kt_data; assumption].
  - unfold dlines. destruct (concat (wp_elems p)); [contradiction|discriminate].
Qed.
Lemma dlines_zaids p : concat (map (fun x => snd (fst x)) (dlines p)) = wp_zaids p.
Proof.
  unfold dlines, wp_zaids. rewrite map_app, concat_app, map_map. cbn [fst snd].
  assert (E : concat (map (fun x : str * list zaid * list str => snd (fst x)) match wp_keys p with [] => [] | ks => [(kt ks ++ [nl], [], ks)] end) = []) by (destruct (wp_keys p); reflexivity).
  unfold str in *. rewrite E, app_nil_r. induction (concat (wp_elems p)) as [|zi r IH]; [reflexivity|]. cbn [map concat app]. rewrite IH. reflexivity.
Qed.
Lemma dlines_keys p : concat (map snd (dlines p)) = wp_keys p.
Proof.
  unfold dlines. rewrite map_app, concat_app, map_map. cbn [snd]. assert (E : concat (map (fun _ : zaid * info => @nil str) (concat (wp_elems p))) = []) by (induction (concat (wp_elems p)) as [|x r IH]; [reflexivity|exact IH]).
  unfold str in *. rewrite E. destruct (wp_keys p); [reflexivity|]. cbn. now rewrite app_nil_r.
Qed.
Lemma dlines_text p : map (fun x => fst (fst x)) (dlines p) = map (fun b => b ++ [nl]) (map zt (concat (wp_elems p)) ++ kbodies (wp_keys p)).
Proof. unfold dlines. rewrite !map_app, !map_map. f_equal. destruct (wp_keys p); reflexivity. Qed.
Lemma note_line l : Note l -> CommentLine (l ++ [nl]) /\ ~ In cr (l ++ [nl]).
Proof. intros (A & B & C). split; [exact A|]. apply plain_nl. split; assumption. Qed.
Lemma notes_ok ls : Forall Note ls -> Comments (map (fun b => b ++ [nl]) ls).
Proof. intros H. apply Forall_map. eapply Forall_impl; [exact note_line|exact H]. Qed.
Lemma to_part_ok p : WPart p -> wp_notes p <> [] -> Part (to_part p).
Proof.
  intros H N. destruct (dlines_ok p H) as [A B]. split; [apply notes_ok; exact (proj1 H)|]. split; [cbn; destruct (wp_notes p); [contradiction|discriminate]|]. split; assumption.
Qed.
Lemma to_part_text p : p_text (to_part p) = map (fun b => b ++ [nl]) (bodies p).
Proof. unfold p_text, to_part, bodies. cbn [p_comments p_lines]. rewrite dlines_text, !map_app. reflexivity. Qed.
Lemma removelast_closed ls : removelast (concat (map (fun b => b ++ [nl]) ls)) = joined ls.
Proof.
  change (concat (map (fun b => b ++ [nl]) ls)) with (closed ls). destruct ls as [|a r]; [reflexivity|]. rewrite closed_joined by discriminate. apply removelast_last.
Qed.
Lemma psubs_seen ps : Forall2 (fun p s => seen s (wp_zaids p) (wp_keys p) (joined (wp_notes p))) ps (psubs (map to_part ps)).
Proof.
  induction ps as [|p ps IH]; [constructor|]. cbn [map psubs]. constructor; [|exact IH]. unfold seen, p_zaids, p_keys, to_part. cbn [r_zaids r_keys r_header p_lines p_comments].
  rewrite dlines_zaids, dlines_keys, removelast_closed. repeat split.
Qed.
Lemma name_line_ok n : MatName n -> NameLine (mkname [] (upper n) [nl] [] []).
Proof.
  intros H. pose proof (name_plain n H) as [_ NC]. destruct (upper_name n H) as (ds & E & Hn & Hd). split; [constructor|]. cbn [n_name n_rest n_zaids n_keys n_ws].
  split; [exists "M"%char, ds; auto|]. split; [exists nl, []; auto|]. split; [exists []; split; [constructor|constructor]|]. unfold n_text. cbn [n_ws n_name n_rest app]. rewrite in_app_iff. intros [X|[X|[]]]; [contradiction|discriminate X].
Qed.
Lemma written_read m hs ps : WMat m hs ps ->
  exists subs, mat_from_text (file_lines (mat_to_text m)) = Ok (mkRM (upper (wm_name m)) (closed hs) subs) /\
    Forall2 (fun p s => seen s (wp_zaids p) (wp_keys p) (joined (wp_notes p))) ps subs.
Proof.
  intros H. rewrite (mat_lines m hs ps H). destruct H as (HN & (HH & _) & _ & HP & HS & _). unfold mbodies. rewrite map_app. cbn [map]. pose proof (name_line_ok _ HN) as NL.
  assert (NT : n_text (mkname [] (upper (wm_name m)) [nl] [] []) = upper (wm_name m) ++ [nl]) by reflexivity.
  assert (CT : forall q : list wpart, map (fun b => b ++ [nl]) (concat (map bodies q)) = concat (map p_text (map to_part q))).
  { intros q. rewrite concat_map, !map_map. f_equal. apply map_ext. intros p. symmetry. apply to_part_text. }
  assert (ALL : Forall (fun p => wp_notes p <> []) ps -> exists subs, mat_from_text (map (fun b : str => b ++ [nl]) hs ++ (upper (wm_name m) ++ [nl]) :: map (fun b : str => b ++ [nl]) (concat (map bodies ps))) = Ok (mkRM (upper (wm_name m)) (closed hs) subs) /\
    Forall2 (fun p s => seen s (wp_zaids p) (wp_keys p) (joined (wp_notes p))) ps subs).
  { intros HA. exists (psubs (map to_part ps)). split; [|apply psubs_seen]. rewrite CT, <- NT.
    assert (FP : Forall Part (map to_part ps)). { apply Forall_map. rewrite Forall_forall in HP, HA |- *. intros p Hp. apply to_part_ok; auto. }
    exact (card_read _ _ [] _ (notes_ok hs HH) NL (Forall_nil _) FP). }
  destruct ps as [|p ps]; [apply ALL; constructor|]. destruct (wp_notes p) as [|a r] eqn:En; [|apply ALL; constructor; [rewrite En; discriminate|exact HS]].
  clear ALL. exists (mkR (Some (upper (wm_name m))) (wp_zaids p) [] (wp_keys p) :: psubs (map to_part ps)). split.
  - cbn [map concat]. rewrite map_app, CT, <- NT. assert (EB : map (fun b => b ++ [nl]) (bodies p) = map (fun x => fst (fst x)) (dlines p)) by (rewrite dlines_text; unfold bodies; rewrite En; reflexivity).
    unfold str in *. rewrite EB. destruct (dlines_ok p (Forall_inv HP)) as [L _].
    assert (FP : Forall Part (map to_part ps)). { pose proof (Forall_inv_tail HP) as HP'. apply Forall_map. rewrite Forall_forall in HP'. cbn in HS. rewrite Forall_forall in HS |- *. intros q Hq. apply to_part_ok; auto. }
    pose proof (card_read _ _ (dlines p) (map to_part ps) (notes_ok hs HH) NL L FP) as R. unfold str in R. rewrite R. cbn [n_zaids n_keys n_name app]. rewrite dlines_zaids, dlines_keys.
    assert (Z : wp_zaids p <> []). { unfold wp_zaids. pose proof (proj1 (proj2 (Forall_inv HP))) as X. destruct (concat (wp_elems p)); [contradiction|discriminate]. }
    destruct (wp_zaids p); [contradiction|]. reflexivity.
  - constructor; [|apply psubs_seen]. unfold seen. cbn. rewrite En. repeat split.
Qed.

(** ** The list *)
Lemma list_lines ws : Forall (fun x => WMat (fst (fst x)) (snd (fst x)) (snd x)) ws -> ws <> [] ->
  file_lines (list_to_text (map (fun x => fst (fst x)) ws)) = concat (map (fun x => file_lines (mat_to_text (fst (fst x)))) ws).
Proof.
  intros H N. unfold list_to_text. set (B := fun x : wmat * list str * list wpart => mbodies (fst (fst x)) (snd (fst x)) (snd x)).
  assert (E : concat (map (fun m => nl :: mat_to_text m) (map (fun x => fst (fst x)) ws)) = tailj (concat (map B ws))).
  { clear N. induction H as [|[[m hs] ps] ws Hm _ IH]; [reflexivity|]. cbn [map concat fst snd] in *. rewrite IH, (mat_text m hs ps Hm), tailj_app, (tailj_joined (B (m, hs, ps))) by exact (proj2 (mbodies_ok m hs ps Hm)). reflexivity. }
  rewrite E. assert (FB : Forall body (concat (map B ws))). { apply Forall_concat, Forall_map. eapply Forall_impl; [|exact H]. intros [[m hs] ps] Hm. exact (proj1 (mbodies_ok m hs ps Hm)). }
  rewrite (strip_tailj _ FB), file_joined; [|exact FB|].
  - rewrite concat_map, map_map. f_equal. apply map_ext_in. intros [[m hs] ps] Hi. rewrite Forall_forall in H. symmetry. exact (mat_lines m hs ps (H _ Hi)).
  - destruct ws as [|[[m hs] ps] ws]; [contradiction|]. cbn [map concat]. destruct (mbodies_ok m hs ps (Forall_inv H)) as [_ X]. unfold B at 1. cbn [fst snd]. destruct (mbodies m hs ps); [contradiction|discriminate].
Qed.
Lemma roundn_idem st k q : roundn st k (roundn st k q) = roundn st k q.
Proof.
  pose proof (parse_fmt_sci st "E"%char k (roundn st k q) (or_intror eq_refl)) as A. rewrite roundn_text, (parse_fmt_sci st "E"%char k q (or_intror eq_refl)) in A. injection A as A. symmetry. exact A.
Qed.
