(** Proofs about the writing of an input file. *)
From Coq Require Import Lia.
From Verif Require Import PyBase PyLemmas PyStr PyStrLemmas PyText D1SProofs MatTextModel MatTextSpec MatTextProofs MatTextProofs2 InpWriteModel InpWriteSpec.
Open Scope nat_scope.

Definition linebody (b : str) : Prop := ~ In nl b.
Lemma blank_nl b : blank (b ++ [nl]) = blank b.
Proof. unfold blank. rewrite forallb_app. cbn. now rewrite andb_true_r. Qed.
Lemma blank_run_line b s : ~ In nl b -> blank_run (b ++ nl :: s) = if blank b then match blank_run s with Some x => Some x | None => Some s end else None.
Proof.
  induction b as [|c b IH]; intros H; cbn [app blank_run].
  - cbn. destruct (blank_run s); reflexivity.
  - assert (Hc : c <> nl) by (intros ->; apply H; left; reflexivity). assert (Hb : ~ In nl b) by (intros X; apply H; right; exact X). rewrite (IH Hb). unfold blank. cbn [forallb]. destruct (is_ws c); [|reflexivity]. cbn [andb]. fold (blank b).
    destruct (blank b); [destruct (blank_run s); reflexivity|]. destruct (Ascii.eqb_spec c nl); [contradiction|reflexivity].
Qed.
Lemma blank_run_closed bs : Forall linebody bs -> exists bs' : list str, (blank_run (closed bs) = None /\ bs' = bs /\ (forall b r, bs = b :: r -> blank b = false) \/ (blank_run (closed bs) = Some (closed bs') /\ length bs' < length bs /\ (forall b r, bs' = b :: r -> blank b = false))) /\
   Forall linebody bs' /\ filter (fun b => negb (blank b)) bs' = filter (fun b => negb (blank b)) bs.
Proof.
  induction bs as [|b bs IH]; intros H; [exists []; split; [left; repeat split; intros; discriminate|split; [constructor|reflexivity]]|]. unfold closed. cbn [map concat]. fold (closed bs). rewrite <- app_assoc. cbn [app].
  rewrite (blank_run_line b (closed bs) (Forall_inv H)). cbn [filter]. destruct (blank b) eqn:B.
  - destruct (IH (Forall_inv_tail H)) as (bs' & C & F & E). exists bs'. cbn [negb]. split; [|split; [exact F|exact E]]. right. destruct C as [(R & -> & N)|(R & L & N)]; rewrite R; (split; [reflexivity|]; split; [cbn; lia|exact N]).
  - exists (b :: bs). split; [left; repeat split; intros ? ? [= <- _]; exact B|]. split; [exact H|]. cbn [filter]. rewrite B. reflexivity.
Qed.
Lemma sub_body b : forall n s, ~ In nl b -> length b <= n -> sub_blank n (b ++ s) = b ++ sub_blank (n - length b) s.
Proof.
  induction b as [|c b IH]; intros n s H L; [now rewrite Nat.sub_0_r|]. destruct n as [|n]; [cbn in L; lia|]. cbn [app sub_blank length]. destruct (Ascii.eqb_spec c nl) as [->|_]; [exfalso; apply H; left; reflexivity|].
  rewrite IH; [reflexivity|intros X; apply H; right; exact X|cbn in L; lia].
Qed.
Lemma sub_nil n : sub_blank n [] = []. Proof. destruct n; reflexivity. Qed.
Lemma closed_length_cons b bs : length (closed (b :: bs)) = length b + 1 + length (closed bs).
Proof. unfold closed. cbn [map concat]. rewrite !app_length. cbn. lia. Qed.
Lemma sub_tail m : forall bs n, length bs <= m -> Forall linebody bs -> length (closed bs) < n -> sub_blank n (nl :: closed bs) = nl :: closed (filter (fun b => negb (blank b)) bs).
Proof.
  induction m as [|m IH]; intros bs n Lm H Ln.
  - destruct bs; [|cbn in Lm; lia]. destruct n; [lia|]. cbn. destruct n; reflexivity.
  - destruct n as [|n]; [lia|]. cbn [sub_blank]. change (Ascii.eqb nl nl) with true. cbn iota.
    assert (G : forall bs' n', length bs' <= S m -> Forall linebody bs' -> length (closed bs') <= n' -> (forall b r, bs' = b :: r -> blank b = false) -> sub_blank n' (closed bs') = closed (filter (fun b => negb (blank b)) bs')).
    { intros bs' n' L1 F L2 N. destruct bs' as [|b bs']; [apply sub_nil|]. cbn [filter]. rewrite (N b bs' eq_refl). cbn [negb]. rewrite closed_length_cons in L2.
      unfold closed. cbn [map concat]. fold (closed bs'). fold (closed (filter (fun b => negb (blank b)) bs')). rewrite <- !app_assoc. cbn [app]. rewrite (sub_body b n') by (try exact (Forall_inv F); lia). f_equal.
      rewrite (IH bs'); [reflexivity|cbn in L1; lia|exact (Forall_inv_tail F)|lia]. }
    destruct (blank_run_closed bs H) as (bs' & C & F & E). rewrite <- E. destruct C as [(R & -> & N)|(R & L & N)]; rewrite R; f_equal; apply G; try assumption; try lia.
    assert (LL : length (closed bs') <= length (closed bs)); [|lia]. clear - R. revert bs' R. 
    assert (K : forall s x, blank_run s = Some x -> length x <= length s).
    { induction s as [|c s IHs]; intros x E; [discriminate E|]. cbn [blank_run] in E. destruct (is_ws c); [|discriminate E]. destruct (blank_run s) as [y|]; [injection E as <-; specialize (IHs y eq_refl); cbn; lia|]. destruct (Ascii.eqb c nl); [|discriminate E]. injection E as <-. cbn. lia. }
    intros bs' R. exact (K _ _ R).
Qed.
Lemma sub_lines b bs : linebody b -> Forall linebody bs -> sub_blank (length (closed (b :: bs))) (closed (b :: bs)) = closed (b :: filter (fun b => negb (blank b)) bs).
Proof.
  intros Hb H. rewrite closed_length_cons. unfold closed. cbn [map concat]. fold (closed bs). fold (closed (filter (fun b => negb (blank b)) bs)). rewrite <- !app_assoc. cbn [app].
  rewrite (sub_body b) by (try exact Hb; lia). f_equal. rewrite (sub_tail (length bs) bs); [reflexivity|lia|exact H|lia].
Qed.

(** ** any text is made of lines *)
Lemma bodies_of t : exists b bs, t = joined (b :: bs) /\ linebody b /\ Forall linebody bs.
Proof.
  induction t as [|c t (b & bs & -> & Hb & Hbs)]; [exists [], []; repeat split; [intros []|constructor]|]. destruct (Ascii.eqb_spec c nl) as [->|N].
  - exists [], (b :: bs). split; [reflexivity|]. split; [intros []|]. constructor; assumption.
  - exists (c :: b), bs. split; [rewrite !joined_cons; reflexivity|]. split; [|exact Hbs]. intros [X|X]; [congruence|contradiction].
Qed.
Lemma file_lines_joined bs : Forall linebody bs -> bs <> [] -> file_lines (joined bs) = map (fun b => b ++ [nl]) bs.
Proof.
  intros H N. unfold file_lines. rewrite <- (closed_joined bs N). unfold closed. rewrite <- (app_nil_r (concat _)), lines_concat; [apply app_nil_r|].
  apply Forall_map. eapply Forall_impl; [|exact H]. intros b X. exists b. split; [reflexivity|exact X].
Qed.
Lemma no_cr_app a b : no_cr (a ++ b) = no_cr a ++ no_cr b. Proof. unfold no_cr. apply filter_app. Qed.
Lemma no_cr_tailj bs : no_cr (tailj bs) = tailj (map no_cr bs).
Proof. induction bs as [|b bs IH]; [reflexivity|]. unfold tailj in *. cbn [map concat]. rewrite no_cr_app, IH. reflexivity. Qed.
Lemma no_cr_joined b bs : no_cr (joined (b :: bs)) = joined (no_cr b :: map no_cr bs).
Proof. rewrite !joined_cons, no_cr_app, no_cr_tailj. reflexivity. Qed.
Lemma no_cr_body b : linebody b -> linebody (no_cr b). Proof. intros H X. apply H. unfold no_cr in X. apply filter_In in X. exact (proj1 X). Qed.
Lemma filter_map_nl bs : filter (fun l => negb (blank l)) (map (fun b => b ++ [nl]) bs) = map (fun b => b ++ [nl]) (filter (fun b => negb (blank b)) bs).
Proof. induction bs as [|b bs IH]; [reflexivity|]. cbn [map filter]. rewrite blank_nl. destruct (negb (blank b)); cbn [map]; rewrite IH; reflexivity. Qed.
Lemma kept_joined b bs : linebody b -> Forall linebody bs -> kept (joined (b :: bs)) = map (fun b => b ++ [nl]) (filter (fun b => negb (blank b)) (map no_cr (b :: bs))).
Proof.
  intros Hb Hbs. unfold kept. rewrite no_cr_joined, file_lines_joined; [|constructor; [now apply no_cr_body|apply Forall_map; eapply Forall_impl; [|exact Hbs]; exact no_cr_body]|discriminate]. apply filter_map_nl.
Qed.
(** ** stripping line ends *)
Lemma kept_nl t : kept (nl :: t) = kept t.
Proof.
  destruct (bodies_of t) as (b & bs & -> & Hb & Hbs). change (nl :: joined (b :: bs)) with (joined ([] :: b :: bs)). rewrite !kept_joined by (try assumption; try (intros []); try (constructor; assumption)). reflexivity.
Qed.
Lemma joined_snoc b bs : joined ((b :: bs) ++ [[]]) = joined (b :: bs) ++ [nl].
Proof. cbn [app]. rewrite !joined_cons, tailj_app, <- app_assoc. reflexivity. Qed.
Lemma kept_nl_end t : kept (t ++ [nl]) = kept t.
Proof.
  destruct (bodies_of t) as (b & bs & -> & Hb & Hbs). rewrite <- joined_snoc. cbn [app]. rewrite !kept_joined; try assumption; [|apply Forall_app; split; [exact Hbs|constructor; [intros []|constructor]]].
  cbn [map]. rewrite map_app. cbn [filter]. rewrite filter_app. cbn [map filter]. destruct (negb (blank (no_cr b))); cbn; rewrite app_nil_r; reflexivity.
Qed.
Lemma lstrip_nl_repeat s : exists k, s = repeat nl k ++ lstrip_nl s.
Proof. induction s as [|c s [k E]]; [exists 0; reflexivity|]. cbn [lstrip_nl]. destruct (Ascii.eqb_spec c nl) as [->|N]; [exists (S k); cbn; rewrite <- E; reflexivity|exists 0; reflexivity]. Qed.
Lemma kept_repeat k t : kept (repeat nl k ++ t) = kept t.
Proof. induction k as [|k IH]; [reflexivity|]. cbn [repeat app]. now rewrite kept_nl. Qed.
Lemma repeat_snoc {A} (x : A) k : repeat x (S k) = repeat x k ++ [x].
Proof. induction k as [|k IH]; [reflexivity|]. cbn [repeat app] in *. rewrite <- IH. reflexivity. Qed.
Lemma kept_repeat_end k t : kept (t ++ repeat nl k) = kept t.
Proof. induction k as [|k IH]; [now rewrite app_nil_r|]. rewrite repeat_snoc, app_assoc, kept_nl_end. exact IH. Qed.
Lemma rev_repeat {A} (x : A) k : rev (repeat x k) = repeat x k.
Proof. induction k as [|k IH]; [reflexivity|]. cbn [repeat rev]. rewrite IH. rewrite <- repeat_snoc. reflexivity. Qed.
Lemma strip_nl_parts t : exists i j, t = repeat nl i ++ strip_nl t ++ repeat nl j.
Proof.
  unfold strip_nl. destruct (lstrip_nl_repeat t) as [i E]. destruct (lstrip_nl_repeat (rev (lstrip_nl t))) as [j E']. exists i, j. rewrite E at 1. f_equal.
  rewrite <- (rev_involutive (lstrip_nl t)) at 1. rewrite E' at 1. rewrite rev_app_distr, rev_repeat. reflexivity.
Qed.
Lemma kept_strip t : kept (strip_nl t) = kept t.
Proof. destruct (strip_nl_parts t) as (i & j & E). rewrite E at 2. now rewrite kept_repeat, kept_repeat_end. Qed.
Lemma repeat_nl_tail k (s : str) : forall i (u : str), repeat nl i ++ s = repeat nl k ++ u -> (forall r, s = nl :: r -> False) -> s <> [] -> (forall r, u = nl :: r -> False) -> u <> [] -> s = u.
Proof.
  induction k as [|k IH]; intros i u E Hs Ns Hu Nu.
  - destruct i as [|i]; [exact E|]. cbn [repeat app] in E. exfalso. apply (Hu (repeat nl i ++ s)). symmetry. exact E.
  - destruct i as [|i]; [cbn [repeat app] in E; exfalso; exact (Hs _ E)|]. cbn [repeat app] in E. injection E as E. exact (IH i u E Hs Ns Hu Nu).
Qed.
Lemma printable_first t : Printable t -> exists b bs, strip_nl t = joined (b :: bs) /\ linebody b /\ Forall linebody bs /\ blank (no_cr b) = false.
Proof.
  intros (k & b & r & E & Hb & c & Hc & Wc). assert (Nb : b <> []) by (intros ->; destruct Hc).
  assert (Hbn : forall x s, b ++ s = nl :: x -> False). { intros x s X. destruct b as [|d b']; [contradiction|]. injection X as -> _. apply Hb. left. reflexivity. }
  (* the part after the leading line ends *)
  assert (EL : lstrip_nl t = b ++ r).
  { rewrite E. clear E. induction k as [|k IH]; [|exact IH]. cbn [repeat app]. destruct b as [|d b']; [contradiction|]. cbn [app lstrip_nl]. destruct (Ascii.eqb_spec d nl) as [->|]; [exfalso; apply Hb; left; reflexivity|reflexivity]. }
  destruct (lstrip_nl_repeat (rev (lstrip_nl t))) as [j E']. rewrite EL in E'. unfold strip_nl. rewrite EL. set (u := lstrip_nl (rev (b ++ r))) in *.
  assert (EU : b ++ r = rev u ++ repeat nl j) by (rewrite <- (rev_involutive (b ++ r)), E', rev_app_distr, rev_repeat; reflexivity).
  assert (P : exists v, rev u = b ++ v).
  { assert (G : forall (x y z w : str), x ++ y = z ++ w -> ~ In nl x -> (forall c, In c w -> c = nl) -> exists v, z = x ++ v).
    { clear. induction x as [|c x IH]; intros y z w E H W; [exists z; reflexivity|]. destruct z as [|d z].
      - cbn [app] in E. exfalso. apply H. left. apply W. rewrite <- E. left. reflexivity.
      - cbn [app] in E. injection E as <- E. destruct (IH y z w E) as [v ->]; [intros X; apply H; right; exact X|exact W|]. exists v. reflexivity. }
    apply (G b r (rev u) (repeat nl j) EU Hb). intros x. apply repeat_spec. }
  destruct P as [v Ev]. rewrite Ev. destruct (bodies_of v) as (b1 & bs & -> & H1 & Hbs). exists (b ++ b1), bs. split; [rewrite !joined_cons, app_assoc; reflexivity|].
  split; [unfold linebody; rewrite in_app_iff; intros [X|X]; [exact (Hb X)|exact (H1 X)]|]. split; [exact Hbs|].
  apply Bool.not_true_iff_false. unfold blank. rewrite forallb_forall. intros X. assert (In c (no_cr (b ++ b1))).
  { unfold no_cr. apply filter_In. split; [apply in_app_iff; left; exact Hc|]. destruct (Ascii.eqb_spec c cr) as [->|]; [discriminate Wc|reflexivity]. }
  specialize (X c H). congruence.
Qed.
Lemma print_card_lines wrap c : Printable (c wrap) -> print_card wrap c = concat (kept (c wrap)).
Proof.
  intros H. rewrite <- kept_strip. destruct (printable_first _ H) as (b & bs & E & Hb & Hbs & NB). unfold print_card. rewrite E, no_cr_app, no_cr_joined. change (no_cr [nl]) with [nl].
  rewrite <- (closed_joined (no_cr b :: map no_cr bs)) by discriminate.
  rewrite (sub_lines (no_cr b) (map no_cr bs)); [|now apply no_cr_body|apply Forall_map; eapply Forall_impl; [|exact Hbs]; exact no_cr_body].
  rewrite (kept_joined b bs Hb Hbs). cbn [map filter]. rewrite NB. reflexivity.
Qed.
Lemma kept_full t : Forall (fun l => (exists b, l = b ++ [nl] /\ ~ In nl b) /\ blank l = false) (kept t).
Proof.
  destruct (bodies_of t) as (b & bs & -> & Hb & Hbs). rewrite (kept_joined b bs Hb Hbs). apply Forall_map. apply Forall_forall. intros x Hx. apply filter_In in Hx. destruct Hx as [Hx Bx]. split.
  - exists x. split; [reflexivity|]. apply in_map_iff in Hx. destruct Hx as (y & <- & Hy). apply no_cr_body. destruct Hy as [<-|Hy]; [exact Hb|]. rewrite Forall_forall in Hbs. exact (Hbs y Hy).
  - rewrite blank_nl. apply Bool.negb_true_iff in Bx. exact Bx.
Qed.
Definition full (l : str) : Prop := (exists b, l = b ++ [nl] /\ ~ In nl b) /\ blank l = false.
Lemma kept_cards_full w cs : Forall full (kept_cards w cs).
Proof. unfold kept_cards. apply Forall_concat, Forall_map. apply Forall_forall. intros c _. exact (kept_full (c w)). Qed.
Lemma kept_opt_full w o : Forall full (kept_opt w o). Proof. destruct o; [apply kept_cards_full|constructor]. Qed.
Lemma print_cards_lines wrap cs : Forall (fun c => Printable (c wrap)) cs -> print_cards wrap cs = concat (kept_cards wrap cs).
Proof.
  intros H. unfold print_cards, kept_cards. induction H as [|c cs Hc _ IH]; [reflexivity|]. cbn [map concat]. rewrite concat_app, IH, (print_card_lines wrap c Hc). reflexivity.
Qed.
Lemma opt_cards_lines wrap o : match o with Some cs => Forall (fun c => Printable (c wrap)) cs | None => True end -> opt_cards wrap o = concat (kept_opt wrap o).
Proof. destruct o as [cs|]; intros H; [now apply print_cards_lines|reflexivity]. Qed.
Lemma header_full o : match o with Some ls => Forall FullLine ls | None => True end -> Forall full (header_lines o) /\ (match o with Some ls => concat (map no_cr ls) | None => s2l "C" ++ [nl] end) = concat (header_lines o).
Proof.
  destruct o as [ls|]; intros H; cbn [header_lines].
  - split; [|reflexivity]. apply Forall_map. eapply Forall_impl; [|exact H]. intros l ((b & -> & Hb) & B). split; [|exact B]. exists (no_cr b). rewrite no_cr_app. split; [reflexivity|now apply no_cr_body].
  - split; [|reflexivity]. constructor; [|constructor]. split; [exists (s2l "C"); split; [reflexivity|intros [X|[]]; discriminate X]|reflexivity].
Qed.
Lemma lines_full ls r : Forall full ls -> lines_of (concat ls ++ r) = ls ++ lines_of r.
Proof. intros H. apply lines_concat. eapply Forall_impl; [|exact H]. intros l [X _]. exact X. Qed.
Lemma lines_nl r : lines_of (nl :: r) = [nl] :: lines_of r. Proof. exact (lines_line [] r (fun X => X)). Qed.
Lemma file_lines_full t : Forall (fun l => blank l = false) (file_lines t) -> Forall full (file_lines t) /\ t ++ [nl] = concat (file_lines t).
Proof.
  intros H. destruct (bodies_of t) as (b & bs & -> & Hb & Hbs). rewrite file_lines_joined in H |- * by (try (constructor; assumption); discriminate). split.
  - rewrite Forall_map in H |- *. assert (F : Forall linebody (b :: bs)) by (constructor; assumption). rewrite Forall_forall in H, F |- *. intros x Hx. split; [exists x; split; [reflexivity|exact (F x Hx)]|exact (H x Hx)].
  - symmetry. apply (closed_joined (b :: bs)). discriminate.
Qed.
Lemma written_lines wrap b : Writable wrap b -> exists hs cs ss ds, lines_of (write_blocks wrap b) = hs ++ cs ++ [nl] :: ss ++ [nl] :: ds /\
  hs = header_lines (bl_header b) /\ cs = kept_cards wrap (bl_cells b) /\ ss = kept_cards wrap (bl_surfs b) /\
  ds = kept_opt false (bl_trans b) ++ mats_lines (bl_mats b) ++ kept_opt wrap (bl_other b) /\ Forall full (hs ++ cs ++ ss ++ ds).
Proof.
  intros (HH & HC & HS & HT & HM & HO). destruct (header_full _ HH) as [FH EH]. do 4 eexists. split; [|repeat (split; [reflexivity|])].
  - unfold write_blocks. rewrite EH, (print_cards_lines wrap _ HC), (print_cards_lines wrap _ HS), (opt_cards_lines false _ HT), (opt_cards_lines wrap _ HO).
    rewrite (lines_full _ _ FH). f_equal. rewrite (lines_full _ _ (kept_cards_full wrap _)). f_equal. cbn [app]. rewrite lines_nl. f_equal. rewrite (lines_full _ _ (kept_cards_full wrap _)). f_equal. rewrite lines_nl. f_equal.
    rewrite (lines_full _ _ (kept_opt_full false _)). f_equal. 
    assert (EM : match bl_mats b with Some t => t ++ [nl] | None => [] end = concat (mats_lines (bl_mats b)) /\ Forall full (mats_lines (bl_mats b))).
    { destruct (bl_mats b) as [t|]; cbn [mats_lines]; [|split; [reflexivity|constructor]]. destruct (file_lines_full t HM). split; assumption. }
    destruct EM as [EM FM]. rewrite EM, (lines_full _ _ FM). f_equal. rewrite <- (app_nil_r (concat _)), (lines_full _ _ (kept_opt_full wrap _)). apply app_nil_r.
  - repeat (apply Forall_app; split); try exact FH; try apply kept_cards_full; try apply kept_opt_full. destruct (bl_mats b) as [t|]; cbn [mats_lines]; [exact (proj1 (file_lines_full t HM))|constructor].
Qed.
