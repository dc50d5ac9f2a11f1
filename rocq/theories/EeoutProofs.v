(** Proofs about the lines of .eeout files. *)
From Coq Require Import Lia ZArith.
From Verif Require Import PyBase PyLemmas PyStr PyText D1SModel D1SProofs2 DataModel MeshModel MeshSpec MeshProofs MctalProofs EliteProofs3 OutModel OutSpec OutProofs OutProofs2 OutProofs4 FispModel FispProofs EeoutModel EeoutSpec.
Open Scope nat_scope.

(** ** titles that a line cannot hold *)
Lemma lacks c t l : In c (s2l t) -> ~ In c l -> has t l = false.
Proof. intros Ht Hl. apply has_not. intros (a & b & ->). apply Hl. apply in_or_app; right; apply in_or_app; left. exact Ht. Qed.
Lemma split_chars s c : In c s -> is_ws c = false -> exists w, In w (split s) /\ In c w.
Proof.
  unfold split. assert (G : forall x cur, (In c x \/ In c cur) -> is_ws c = false -> exists w, In w (split_aux cur x) /\ In c w).
  { induction x as [|d x IH]; intros cur H Hc; cbn [split_aux].
    - destruct H as [[]|H]. destruct cur as [|y cur]; [destruct H|]. exists (rev (y :: cur)). split; [left; reflexivity|apply in_rev in H; exact H].
    - destruct (is_ws d) eqn:Ed.
      + destruct cur as [|y cur].
        * apply IH; [left; destruct H as [[->|H]|[]]; [congruence|exact H]|exact Hc].
        * destruct H as [[->|H]|H]; [congruence| |].
          { destruct (IH [] (or_introl H) Hc) as (w & Hw & Hcw). exists w. split; [right; exact Hw|exact Hcw]. }
          exists (rev (y :: cur)). split; [left; reflexivity|apply in_rev in H; exact H].
      + apply IH; [|exact Hc]. destruct H as [[->|H]|H]; [right; left; reflexivity|left; exact H|right; right; exact H]. }
  intros H Hc. apply (G s []); auto.
Qed.
Definition num_char (c : ascii) : bool := is_digit c || is_ws c || Ascii.eqb c minus || Ascii.eqb c plus || Ascii.eqb c dot || Ascii.eqb c "E"%char.
Lemma sci_chars w c : SciText w -> In c w -> num_char c = true.
Proof.
  intros (sg & d & ds & g & xs & -> & Hs & Hd & [_ Hds] & Hg & [_ Hxs]) H. unfold num_char.
  assert (D : forall l, Forall (fun c => is_digit c = true) l -> In c l -> is_digit c = true) by (intros l Hl Hi; rewrite Forall_forall in Hl; auto).
  apply in_app_or in H as [H|[<-|[<-|H]]].
  - destruct Hs as [->|[->| ->]]; [destruct H|destruct H as [<-|[]]; vm_compute; reflexivity|destruct H as [<-|[]]; vm_compute; reflexivity].
  - rewrite Hd. reflexivity.
  - vm_compute. reflexivity.
  - apply in_app_or in H as [H|[<-|[<-|H]]]; [rewrite (D _ Hds H); reflexivity|vm_compute; reflexivity|destruct Hg as [->| ->]; vm_compute; reflexivity|rewrite (D _ Hxs H); reflexivity].
Qed.
Lemma numbers_chars qs l c : Numbers qs l -> In c l -> num_char c = true.
Proof.
  intros [_ F] H. destruct (is_ws c) eqn:E; [unfold num_char; rewrite E, Bool.orb_true_r; reflexivity|].
  destruct (split_chars l c H E) as (w & Hw & Hc). apply In_nth_error in Hw as [n Hw]. 
  assert (S : SciText w). { clear -F Hw. revert n Hw. induction F as [|x q xs qs [Hx _] _ IH]; intros [|n] Hw; try discriminate Hw; [injection Hw as <-; exact Hx|exact (IH n Hw)]. }
  exact (sci_chars w c S Hc).
Qed.
Lemma digits_line_chars l c : Forall all_digits (split l) -> In c l -> num_char c = true.
Proof.
  intros F H. destruct (is_ws c) eqn:E; [unfold num_char; rewrite E, Bool.orb_true_r; reflexivity|].
  destruct (split_chars l c H E) as (w & Hw & Hc). rewrite Forall_forall in F. destruct (F w Hw) as [_ D]. rewrite Forall_forall in D. unfold num_char. rewrite (D c Hc). reflexivity.
Qed.
Lemma whole_chars zs l c : Whole zs l -> In c l -> num_char c = true.
Proof.
  intros [_ F]. apply digits_line_chars. clear -F. induction F as [|w z ws zs [H _] _ IH]; constructor; assumption.
Qed.
(* a line of numbers holds no title *)
Lemma numeric_has t l : existsb (fun c => negb (num_char c)) (s2l t) = true -> (forall c, In c l -> num_char c = true) -> has t l = false.
Proof.
  intros H Hl. apply existsb_exists in H as (c & Hc & Hn). apply (lacks c); [exact Hc|]. intros Hi. rewrite (Hl c Hi) in Hn. discriminate Hn.
Qed.
Lemma record_chars l c : RecordLine l -> In c l -> num_char c = true.
Proof. intros (_ & _ & F). apply digits_line_chars. exact F. Qed.
Lemma record_value l : RecordLine l -> value_line l = false.
Proof. intros ((r & ->) & _). reflexivity. Qed.
Lemma numbers_value qs l : Numbers qs l -> value_line l = true.
Proof.
  intros ((a & b & c & r & -> & Ha & Hb & Hc) & _). cbn [value_line]. rewrite Ha, Hc. destruct Hb as [-> | ->]; [reflexivity|]. rewrite Ascii.eqb_refl, Bool.orb_true_r. reflexivity.
Qed.

(** ** the numbers of a line *)
Lemma resplit_words l : split l <> [] -> resplit (strip l) = split l. Proof. apply resplit_strip. Qed.
Lemma mapM_F2 {A B} (f : A -> res B) l : forall r, Forall2 (fun a b => f a = Ok b) l r -> mapM f l = Ok r.
Proof. induction l as [|x l IH]; intros r F; inversion F; subst; [reflexivity|]. cbn [mapM]. rewrite H1. cbn [bind]. rewrite (IH _ H3). reflexivity. Qed.
Lemma numbers_split qs l : Numbers qs l -> split l <> [].
Proof.
  intros ((a & b & c & r & -> & Ha & Hb & Hc) & _) E. destruct (split_chars (a :: b :: c :: r) c) as (w & Hw & _); [right; right; left; reflexivity|apply digit_ws; exact Hc|]. rewrite E in Hw. destruct Hw.
Qed.
Lemma floats_ok qs l : Numbers qs l -> floats_of l = Ok qs.
Proof.
  intros H. unfold floats_of. rewrite resplit_words by exact (numbers_split qs l H). apply mapM_F2. destruct H as [_ F].
  clear -F. induction F as [|w q ws qs [_ H] _ IH]; constructor; assumption.
Qed.
Lemma sci_free s : ~ In plus s -> ~ In minus s -> search sci_at s = None.
Proof.
  induction s as [|c s IH]; intros Hp Hm; [reflexivity|]. cbn [search].
  assert (E : sci_at (c :: s) = None).
  { unfold sci_at. pose proof (span_spec is_sign (c :: s)) as X. destruct (span is_sign (c :: s)) as [sg s1]. destruct X as (Es & _ & _). destruct s1 as [|d [|a s2]]; try reflexivity.
    destruct (is_digit d && negb (Ascii.eqb a nl)); [|reflexivity]. destruct (some1 is_digit s2) as [[ds s3]|] eqn:E3; [|reflexivity]. cbn [obind].
    apply some1_spec in E3 as (-> & _). destruct s3 as [|e [|g s4]]; try reflexivity. destruct (Ascii.eqb e "E"%char && is_sign g) eqn:Eg; [|reflexivity].
    exfalso. apply Bool.andb_true_iff in Eg as [_ Eg]. unfold is_sign in Eg. apply Bool.orb_true_iff in Eg.
    assert (In g (c :: s)). { rewrite Es. apply in_or_app; right. right; right. apply in_or_app; right. right; left; reflexivity. }
    destruct Eg as [Eg|Eg]; apply Ascii.eqb_eq in Eg; subst g; auto. }
  rewrite E. apply IH; intros X; [apply Hp|apply Hm]; right; exact X.
Qed.
Lemma in_resplit w l : In w (resplit l) -> w = [] \/ In w (split l).
Proof.
  unfold resplit. destruct l as [|c l]; [intros [<-|[]]; auto|]. intros H. apply in_app_or in H as [H|H]; [|apply in_app_or in H as [H|H]; [auto|]].
  - destruct (starts_ws (c :: l)); [|destruct H]. destruct H as [<-|[]]. auto.
  - destruct (ends_ws (c :: l)); [|destruct H]. destruct H as [<-|[]]. auto.
Qed.
Lemma sci_numbers_none l : (forall w, In w (split l) -> search sci_at w = None) -> sci_numbers l = Ok [].
Proof.
  intros H. unfold sci_numbers. replace (concat _) with (@nil (str * str)); [reflexivity|]. symmetry.
  assert (G : forall ws, (forall w, In w ws -> search sci_at w = None) -> concat (map (fun w => match search sci_at w with Some x => [x] | None => [] end) ws) = []).
  { induction ws as [|w ws IH]; intros Hw; [reflexivity|]. cbn [map concat]. rewrite (Hw w (or_introl eq_refl)). apply IH. intros x Hx. apply Hw. right; exact Hx. }
  apply G. intros w Hw. destruct (in_resplit w l Hw) as [->|Hi]; [reflexivity|exact (H w Hi)].
Qed.
Lemma sci_numbers_split l : sci_numbers l = mapM (fun t => parse_float (fst t)) (concat (map (fun w => match search sci_at w with Some x => [x] | None => [] end) (split l))).
Proof.
  unfold sci_numbers. f_equal. unfold resplit. destruct l as [|c l]; [reflexivity|]. rewrite !map_app, !concat_app.
  destruct (starts_ws (c :: l)); destruct (ends_ws (c :: l)); cbn; rewrite ?app_nil_r; reflexivity.
Qed.
Lemma sci_numbers_ok qs l : Numbers qs l -> sci_numbers l = Ok qs.
Proof.
  intros [_ F]. rewrite sci_numbers_split. remember (split l) as ws. clear Heqws l. induction F as [|w q ws qs [Hw Hn] _ IH]; [reflexivity|].
  cbn [map concat]. replace (search sci_at w) with (Some (w, @nil ascii)).
  2:{ symmetry. apply search_here. rewrite <- (app_nil_r w) at 1. apply sci_found; [exact Hw|intros c r E; discriminate E]. }
  cbn [app mapM fst]. rewrite Hn. cbn [bind]. rewrite IH. reflexivity.
Qed.
Lemma record_sci l : RecordLine l -> sci_numbers l = Ok [].
Proof.
  intros (_ & _ & F). apply sci_numbers_none. intros w Hw. rewrite Forall_forall in F. destruct (F w Hw) as [_ D]. rewrite Forall_forall in D.
  apply sci_free; intros X; apply D in X; discriminate X.
Qed.
(* titles *)
Lemma title_sci t l : ~ In plus (s2l t) -> ~ In minus (s2l t) -> Title t l -> sci_numbers l = Ok [].
Proof.
  intros Hp Hm (r & -> & Hr). apply sci_numbers_none. intros w Hw. apply in_split_in in Hw as (a & b & E). rewrite Forall_forall in Hr.
  assert (N : forall c, In c w -> c <> plus /\ c <> minus).
  { intros c Hc. assert (I : In c (sp :: s2l t ++ r)) by (rewrite E; apply in_or_app; right; apply in_or_app; left; exact Hc).
    destruct I as [<-|I]; [split; discriminate|]. apply in_app_or in I as [I|I]; [split; congruence|]. destruct (Hr c I) as (_ & H1 & H2). auto. }
  apply sci_free; intros X; apply N in X as [X1 X2]; congruence.
Qed.
Lemma title_has t l : Title t l -> has t l = true.
Proof. intros (r & -> & _). apply has_iff. exists [sp], r. reflexivity. Qed.
(* another title, with a capital letter that this one lacks *)
Lemma title_hasnt t t' l : Title t l -> existsb (fun c => is_upper c && negb (existsb (Ascii.eqb c) (s2l t))) (s2l t') = true -> has t' l = false.
Proof.
  intros (r & -> & Hr) H. apply existsb_exists in H as (c & Hc & H). apply Bool.andb_true_iff in H as [U N]. apply (lacks c); [exact Hc|]. intros [E|I]; [subst c; discriminate U|].
  apply in_app_or in I as [I|I].
  - apply Bool.negb_true_iff in N. rewrite (proj2 (existsb_exists _ _)) in N; [discriminate N|]. exists c. split; [exact I|apply Ascii.eqb_refl].
  - rewrite Forall_forall in Hr. destruct (Hr c I) as (X & _). congruence.
Qed.
