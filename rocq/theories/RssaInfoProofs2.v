(** Proofs for C117, continued. *)
From Coq Require Import Reals Qreals Lia.
From Verif Require Import PyBase PyStr RssaModel PyText RssaInfoModel RssaInfoSpec RssaInfoProofs.
From Coq Require Import Lra.
Open Scope nat_scope.

Lemma type_multiple p ts : rssa_type p ts = Multiple <-> 2 <= length (surfaces p).
Proof. unfold rssa_type. destruct (Nat.ltb_spec 1 (length (surfaces p))) as [L|L]; [split; [lia|reflexivity]|]. split; [|lia].
  destruct ts; [discriminate|]. destruct (Rlt_dec _ _); discriminate. Qed.
Lemma type_cyl p ts r : length (surfaces p) <= 1 -> ts <> [] -> on_cylinder r ts -> rssa_type p ts = Cyl.
Proof. intros H N C. unfold rssa_type. destruct (Nat.ltb_spec 1 (length (surfaces p))); [lia|]. destruct ts as [|t ts]; [congruence|].
  destruct (Rlt_dec _ _) as [_|F]; [reflexivity|]. exfalso. apply F. apply (std_small _ r); [discriminate|lra|]. apply Forall_map. exact C. Qed.
Lemma type_cyl_means p ts : rssa_type p ts = Cyl ->
  length (surfaces p) <= 1 /\ ts <> [] /\
  forall t, In t ts -> (Rabs (radius t - mean (map radius ts)) < 1 / 10000 * sqrt (INR (length ts)))%R.
Proof. unfold rssa_type. destruct (Nat.ltb_spec 1 (length (surfaces p))); [discriminate|]. destruct ts as [|t0 ts0] eqn:Ets; [discriminate|]. rewrite <- Ets.
  destruct (Rlt_dec _ _) as [L|_]; [|discriminate]. intros _. split; [lia|]. split; [rewrite Ets; discriminate|]. intros t I.
  assert (E : (1 / 10000 > 0)%R) by lra. pose proof (std_means (map radius ts) (1 / 10000)%R ltac:(rewrite Ets; discriminate) E L) as F. rewrite map_length in F.
  rewrite Forall_forall in F. apply F. now apply in_map. Qed.
Lemma type_plane p ts t u : length (surfaces p) <= 1 -> In t ts -> In u ts ->
  (2 / 10000 * sqrt (INR (length ts)) <= radius t - radius u)%R -> rssa_type p ts = Plane.
Proof. intros H It Iu D. destruct (rssa_type p ts) eqn:E; [|exfalso|reflexivity].
  - apply type_multiple in E. lia.
  - destruct (type_cyl_means p ts E) as (_ & _ & F). pose proof (F t It) as A. pose proof (F u Iu) as B. apply Rabs_def2 in A. apply Rabs_def2 in B. lra. Qed.

Lemma where_len {A} (p : A -> bool) : forall l n, length (map fst (filter (fun ix => p (snd ix)) (combine (seq n (length l)) l))) = length (filter p l).
Proof. induction l as [|x l IH]; intros n; [reflexivity|]. cbn [length seq combine filter snd]. specialize (IH (S n)). destruct (p x); cbn [map length]; now rewrite IH. Qed.
Lemma neutrons_count ts : length (mask_neutron ts) = count is_neutron ts. Proof. apply where_len. Qed.
Lemma photons_count ts : length (mask_photon ts) = count is_photon ts. Proof. apply where_len. Qed.
Lemma counts_add ts : (forall t, In t ts -> word_b t <> NaN) -> count is_neutron ts + count is_photon ts = length ts.
Proof. unfold count, is_neutron, is_photon. induction ts as [|t ts IH]; intros H; [reflexivity|]. cbn [filter length]. specialize (IH (fun t' I => H t' (or_intror I))). specialize (H t (or_introl eq_refl)).
  destruct (word_b t) as [q|b|]; [| |congruence]; cbn [abs_lt abs_ge].
  - destruct (Qle_bool nine8 _); cbn [negb length]; lia.
  - cbn [length]; lia. Qed.

Lemma win_here a b : within a (a ++ b). Proof. exists [], b. reflexivity. Qed.
Lemma win_after c a b : within a b -> within a (c ++ b). Proof. intros (x & y & ->). exists (c ++ x), y. now rewrite <- app_assoc. Qed.
Lemma win_eq a b p q : b = p ++ a ++ q -> within a b. Proof. intros ->. now exists p, q. Qed.

Definition surf_line (s : surface) : str := s2l "  Surface id: " ++ str_of_Z (su_id s) ++ [nl].
Lemma surf_before : forall l s, In s l -> exists p q, [nl] ++ concat (map surf_line l) = p ++ ([nl] ++ surf_line s) ++ q.
Proof. intros l s I. apply in_split in I. destruct I as (a & b & ->). rewrite map_app, concat_app. cbn [map concat].
  assert (G : exists p, [nl] ++ concat (map surf_line a) = p ++ [nl]).
  { destruct a as [|x a'] using rev_ind; [exists []; reflexivity|]. rewrite map_app, concat_app. cbn [map concat]. rewrite app_nil_r.
    exists ([nl] ++ concat (map surf_line a') ++ s2l "  Surface id: " ++ str_of_Z (su_id x)). unfold surf_line. now rewrite <- !app_assoc. }
  destruct G as [p G]. exists p, (concat (map surf_line b)). rewrite app_assoc, G. now rewrite <- !app_assoc. Qed.
Lemma surf_end : forall l, exists p, [nl] ++ concat (map surf_line l) = p ++ [nl].
Proof. intros a. destruct a as [|x a'] using rev_ind; [exists []; reflexivity|]. rewrite map_app, concat_app. cbn [map concat]. rewrite app_nil_r.
  exists ([nl] ++ concat (map surf_line a') ++ s2l "  Surface id: " ++ str_of_Z (su_id x)). unfold surf_line. now rewrite <- !app_assoc. Qed.

Lemma info_text f2 file p ts : let text := rssa_info f2 file p ts in
  within (s2l "RSSA file " ++ rssa_name file ++ s2l " was") text /\
  (forall s, In s (surfaces p) -> within ([nl] ++ s2l "  Surface id: " ++ str_of_Z (su_id s) ++ [nl]) text) /\
  (rssa_type p ts = Plane -> within ([nl] ++ s2l "The surface type is a plane..." ++ [nl]) text) /\
  (rssa_type p ts = Cyl -> exists t, In t ts /\ within ([nl] ++ s2l "The surface type is a cylinder with a radius of " ++ f2 (radius t) ++ [nl]) text) /\
  within (s2l "recorded is " ++ str_of_Z (nrss p) ++ s2l ", of which " ++ str_of_N (N.of_nat (count is_neutron ts)) ++ s2l " were neutrons and " ++ str_of_N (N.of_nat (count is_photon ts)) ++ s2l " were photons.") text /\
  within (s2l "run " ++ str_of_Z (Z.abs (np1 p)) ++ s2l " histories") text /\
  within (s2l "surfaces was " ++ str_of_Z (niss p) ++ s2l ".") text.
Proof. intros text. unfold text, rssa_info. rewrite neutrons_count, photons_count.
  fold (surf_line). change (map (fun s => s2l "  Surface id: " ++ str_of_Z (su_id s) ++ [nl]) (surfaces p)) with (map surf_line (surfaces p)).
  set (ty := match rssa_type p ts with Multiple => _ | _ => _ end).
  set (rest := s2l "The total amount of tracks recorded is " ++ _).
  assert (HD : forall X, s2l "RSSA file " ++ rssa_name file ++ s2l " was recorded using the following surfaces:" ++ [nl] ++ concat (map surf_line (surfaces p)) ++ X =
    (s2l "RSSA file " ++ rssa_name file ++ s2l " was recorded using the following surfaces:") ++ ([nl] ++ concat (map surf_line (surfaces p))) ++ X) by (intros; now rewrite <- !app_assoc).
  split; [|split; [|split; [|split; [|split; [|split]]]]].
  - eapply win_eq with (p := []). cbn [app]. rewrite <- !app_assoc. change (s2l " was recorded using the following surfaces:") with (s2l " was" ++ s2l " recorded using the following surfaces:"). rewrite <- !app_assoc. reflexivity.
  - intros s I. rewrite HD. destruct (surf_before _ s I) as (a & b & E). rewrite E. apply win_after. exists a, (b ++ ty ++ rest). unfold surf_line. now rewrite <- !app_assoc.
  - intros T. rewrite HD. destruct (surf_end (surfaces p)) as (a & E). rewrite E. apply win_after. exists a, rest. unfold ty. rewrite T. now rewrite <- !app_assoc.
  - intros T. unfold ty. rewrite T. destruct (type_cyl_means p ts T) as (_ & N & _). destruct ts as [|t ts']; [congruence|]. exists t. split; [now left|].
    rewrite HD. destruct (surf_end (surfaces p)) as (a & E). rewrite E. apply win_after. exists a, rest. now rewrite <- !app_assoc.
  - do 6 apply win_after. unfold rest. change (s2l "The total amount of tracks recorded is ") with (s2l "The total amount of tracks " ++ s2l "recorded is "). rewrite <- app_assoc. apply win_after.
    eapply win_eq with (p := []). cbn [app]. rewrite <- !app_assoc. reflexivity.
  - do 6 apply win_after. unfold rest. do 8 apply win_after. change (s2l "The simulation that produced this RSSA run ") with (s2l "The simulation that produced this RSSA " ++ s2l "run "). rewrite <- app_assoc. apply win_after.
    eapply win_eq with (p := []). cbn [app]. rewrite <- !app_assoc. reflexivity.
  - do 6 apply win_after. unfold rest. do 12 apply win_after.
    change (s2l "The amount of independent histories that reached the RSSA surfaces was ") with (s2l "The amount of independent histories that reached the RSSA " ++ s2l "surfaces was "). rewrite <- app_assoc. apply win_after.
    eapply win_eq with (p := []). cbn [app]. rewrite <- !app_assoc. reflexivity. Qed.
Lemma base_none : forall s acc, ~ In "/"%char s -> base_from acc s = acc ++ s.
Proof. induction s as [|c s IH]; intros acc N; cbn [base_from]; [now rewrite app_nil_r|]. destruct (Ascii.eqb_spec c "/"%char) as [->|E]; [exfalso; apply N; now left|].
  rewrite IH by (intros I; apply N; now right). now rewrite <- app_assoc. Qed.
Lemma base_last : forall f acc b, ~ In "/"%char b -> base_from acc (f ++ "/"%char :: b) = b.
Proof. induction f as [|c f IH]; intros acc b N; cbn [base_from app].
  - rewrite Ascii.eqb_refl. now apply base_none.
  - destruct (Ascii.eqb c "/"%char); now apply IH. Qed.
Lemma name_of folder base : ~ In "/"%char base -> rssa_name (folder ++ "/"%char :: base) = before_dot base /\ rssa_name base = before_dot base.
Proof. intros N. unfold rssa_name. rewrite base_last, base_none by exact N. auto. Qed.
