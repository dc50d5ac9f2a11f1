(** Proofs for C30 (extraction). *)
From Coq Require Import Lia ZArith Permutation Sorted.
From Verif Require Import PyBase PyLemmas PyStr PyStrLemmas PyText D1SProofs2 WWTextProofs LibModel MatModel MatProofs MatProofs2 MatProofs4 InpModel InpSpec InpProofs InpProofs2.
Open Scope nat_scope.

Lemma zmem_in z l : zmem z l = true <-> In z l.
Proof. apply memb_in. intros. apply Z.eqb_eq. Qed.
Lemma in_refcells c n : In n (get_refcells c) <-> mentions c n.
Proof. unfold get_refcells, mentions. rewrite in_map_iff. split.
  - intros [[v k] [<- H]]. apply filter_In in H as [H E]. cbn [snd fst] in *. apply kind_eqb_eq in E. now subst.
  - intros H. exists (n, Kcel). split; [reflexivity|]. apply filter_In. auto. Qed.

Definition uni_cell (h : heap) (unis : list Z) (kl : str * loc) : res (list Z) :=
  do c <- hget h (snd kl);
  match get_u c with
  | Some u => if zmem u unis then match c_values c with (v, _) :: _ => Ok [v] | [] => Err IndexError end else Ok []
  | None => Ok []
  end.
Lemma uni_cell_ok h unis kl r : uni_cell h unis kl = Ok r -> forall b, In b r <-> exists u c k, nth_error h (snd kl) = Some c /\ get_u c = Some u /\ In u unis /\ head (c_values c) = Some (b, k).
Proof. unfold uni_cell. intros H b. destruct (hget h (snd kl)) as [c|] eqn:G; cbn [bind] in H; [|discriminate]. apply hget_ok in G.
  destruct (get_u c) as [u|] eqn:U.
  - destruct (zmem u unis) eqn:M.
    + destruct (c_values c) as [|[v k] vs] eqn:V; [discriminate|]. injection H as <-. apply zmem_in in M. split.
      * intros [<-|[]]. exists u, c, k. rewrite V. auto.
      * intros [u' [c' [k' [A [B [C D]]]]]]. rewrite G in A. injection A as <-. rewrite V in D. injection D as <- <-. left. reflexivity.
    + injection H as <-. split; [intros []|]. intros [u' [c' [k' [A [B [C D]]]]]]. rewrite G in A. injection A as <-. rewrite U in B. injection B as <-. apply zmem_in in C. congruence.
  - injection H as <-. split; [intros []|]. intros [u' [c' [k' [A [B [C D]]]]]]. rewrite G in A. injection A as <-. congruence. Qed.

Lemma collect_step_spec h cells f front new : collect_step h cells f front = Ok new ->
  (forall a, In a front -> exists c, cell_of h cells a c) /\
  forall b, In b new <-> ~ In b front /\ exists a, In a front /\ needs h cells f a b.
Proof. unfold collect_step. intros H.
  destruct (mapM (fun n => do l <- of_opt KeyError (dget str_eqb (str_of_Z n) cells); hget h l) front) as [cs|] eqn:M; cbn [bind] in H; [|discriminate].
  apply mapM_Forall2 in M.
  assert (F : Forall2 (fun a c => cell_of h cells a c) front cs).
  { eapply Forall2_impl; [|exact M]. intros a c Q. cbn beta in Q. unfold cell_of, card_at. destruct (dget str_eqb (str_of_Z a) cells) as [l|]; cbn [of_opt bind] in Q; [|discriminate]. exists l. split; [reflexivity|now apply hget_ok]. }
  clear M. split. { intros a Ha. clear - F Ha. induction F as [|x y l l' R _ IH]; [destruct Ha|]. destruct Ha as [<-|Ha]; [eauto|auto]. }
  assert (FC : forall a c, cell_of h cells a c -> In a front -> In c cs).
  { clear - F. intros a c Q Ha. induction F as [|x y l l' R _ IH]; [destruct Ha|]. destruct Ha as [<-|Ha]; [|right; auto].
    left. destruct Q as [l1 [Q1 Q2]]. destruct R as [l2 [R1 R2]]. congruence. }
  assert (REF : forall b, In b (concat (map get_refcells cs)) <-> exists a c, In a front /\ cell_of h cells a c /\ mentions c b).
  { intros b. rewrite in_concat. split.
    - intros [x [Hx Hb]]. apply in_map_iff in Hx as [c [<- Hc]]. destruct (Forall2_in_r _ _ _ _ F Hc) as [a [Ha R]]. exists a, c. repeat split; auto. now apply in_refcells.
    - intros [a [c [Ha [R B]]]]. exists (get_refcells c). split; [apply in_map; eapply FC; eauto|now apply in_refcells]. }
  assert (FLT : forall l b, In b (filter (fun n => negb (zmem n front)) l) <-> ~ In b front /\ In b l).
  { intros l b. rewrite filter_In, negb_true_iff. split; intros [A B].
    - split; [|exact A]. intros Q. apply zmem_in in Q. congruence.
    - split; [exact B|]. destruct (zmem b front) eqn:Z; [apply zmem_in in Z; contradiction|reflexivity]. }
  destruct f.
  - set (unis := concat (map (fun c => match get_f c with Some f0 => [f0] | None => [] end) cs)) in *.
    match type of H with context [mapM ?g cells] => change g with (uni_cell h unis) in H end.
    destruct (mapM (uni_cell h unis) cells) as [us|] eqn:U; cbn [bind] in H; [|discriminate].
    injection H as <-. intros b. rewrite FLT, in_app_iff, REF.
    assert (UN : forall u, In u unis <-> exists a c, In a front /\ cell_of h cells a c /\ get_f c = Some u).
    { intros u. unfold unis. rewrite in_concat. split.
      - intros [x [Hx Hb]]. apply in_map_iff in Hx as [c [<- Hc]]. destruct (get_f c) as [g|] eqn:G; [|destruct Hb]. destruct Hb as [<-|[]].
        destruct (Forall2_in_r _ _ _ _ F Hc) as [a [Ha R]]. exists a, c. auto.
      - intros [a [c [Ha [R B]]]]. exists [u]. split; [|left; reflexivity]. apply in_map_iff. exists c. split; [now rewrite B|eapply FC; eauto]. }
    assert (UC : In b (concat us) <-> exists key l c' u k, In (key, l) cells /\ nth_error h l = Some c' /\ get_u c' = Some u /\ In u unis /\ head (c_values c') = Some (b, k)).
    { apply mapM_Forall2 in U. rewrite in_concat. split.
      - intros [x [Hx Hb]]. destruct (Forall2_in_r _ _ _ _ U Hx) as [[key l] [Hkl E]]. pose proof (uni_cell_ok h unis _ _ E b) as E2. destruct (proj1 E2 Hb) as [u [c [k [A [B [C D]]]]]]. exists key, l, c, u, k. auto.
      - intros [key [l [c' [u [k [A [B [C [D E]]]]]]]]]. clear - U A B C D E. induction U as [|kl r cl rl R _ IH]; [destruct A|].
        destruct A as [->|A]; [|destruct (IH A) as [x [X1 X2]]; exists x; split; [right; exact X1|exact X2]].
        exists r. split; [left; reflexivity|]. apply (uni_cell_ok h unis _ _ R b). exists u, c', k. auto. }
    rewrite UC. clear - UN. split; intros [NI X]; (split; [exact NI|]).
    + destruct X as [[a [c [Ha [R B]]]]|[key [l [c' [u [k [A [B [C [D E]]]]]]]]]].
      * exists a. split; [exact Ha|]. exists c. auto.
      * apply UN in D as [a [c [Ha [R G]]]]. exists a. split; [exact Ha|]. exists c. split; [exact R|]. right. split; [reflexivity|]. exists u, key, l, c', k. auto.
    + destruct X as [a [Ha [c [R [B|[_ [u [key [l [c' [k [A [B [C [D E]]]]]]]]]]]]]]]; [left; exists a, c; auto|].
      right. exists key, l, c', u, k. repeat split; auto. apply UN. exists a, c. auto.
  - injection H as <-. intros b. rewrite FLT, REF. split; intros [NI X]; (split; [exact NI|]).
    + destruct X as [a [c [Ha [R B]]]]. exists a. split; [exact Ha|]. exists c. auto.
    + destruct X as [a [Ha [c [R [B|[Q _]]]]]]; [exists a, c; auto|discriminate]. Qed.

Lemma reach_mono R s s' n : (forall x, In x s -> reach R s' x) -> reach R s n -> reach R s' n.
Proof. intros H. induction 1 as [n Hn|a b _ IH Hab]; [auto|]. eapply reach_step; eauto. Qed.

Lemma collect_correct h cells f start : forall fuel front cset res,
  collect fuel h cells f front cset = Ok (Some res) ->
  (forall n, In n front -> In n cset) -> (forall n, In n start -> In n cset) ->
  (forall n, In n cset -> reach (needs h cells f) start n) ->
  (forall a b, In a cset -> ~ In a front -> needs h cells f a b -> In b cset) ->
  (forall n, In n cset -> ~ In n front -> exists c, cell_of h cells n c) ->
  (forall n, In n res <-> reach (needs h cells f) start n) /\ (forall n, In n res -> exists c, cell_of h cells n c).
Proof. induction fuel as [|fuel IH]; intros front cset res H S1 S2 S3 S4 S5; cbn [collect] in H; [discriminate|].
  destruct (collect_step h cells f front) as [new|] eqn:E; cbn [bind] in H; [|discriminate].
  destruct (collect_step_spec _ _ _ _ _ E) as [EX NW].
  destruct new as [|x new].
  - injection H as <-.
    assert (CL : forall a b, In a cset -> needs h cells f a b -> In b cset).
    { intros a b Ha Hab. destruct (in_dec Z.eq_dec a front) as [Hf|Hf]; [|eauto].
      destruct (in_dec Z.eq_dec b front) as [Hb|Hb]; [auto|]. exfalso. apply (proj2 (NW b)). split; [exact Hb|eauto]. }
    split.
    + intros n. split; [apply S3|]. induction 1; eauto.
    + intros n Hn. destruct (in_dec Z.eq_dec n front) as [Hf|Hf]; auto.
  - apply IH in H; auto.
    + intros n Hn. apply in_or_app. tauto.
    + intros n Hn. apply in_or_app. auto.
    + intros n Hn. apply in_app_or in Hn as [Hn|Hn]; [auto|]. apply NW in Hn as [_ [a [Ha Hab]]]. eapply reach_step; [|exact Hab]. apply S3, S1, Ha.
    + intros a b Ha Hf Hab. apply in_or_app. apply in_app_or in Ha as [Ha|Ha]; [|contradiction].
      destruct (in_dec Z.eq_dec a front) as [Hfa|Hfa]; [|left; eauto].
      destruct (in_dec Z.eq_dec b front) as [Hb|Hb]; [left; auto|]. right. apply NW. split; [exact Hb|eauto].
    + intros n Hn Hf. apply in_app_or in Hn as [Hn|Hn]; [|contradiction]. destruct (in_dec Z.eq_dec n front) as [Hfn|Hfn]; auto. Qed.

Lemma collect_step_total h cells f front : (forall a, In a front -> exists c, cell_of h cells a c) ->
  (forall l, In l (locs cells) -> exists c, nth_error h l = Some c /\ c_values c <> []) -> exists new, collect_step h cells f front = Ok new.
Proof. intros EX AL. unfold collect_step.
  assert (M : exists cs, mapM (fun n => do l <- of_opt KeyError (dget str_eqb (str_of_Z n) cells); hget h l) front = Ok cs).
  { induction front as [|a front IH]; [exists []; reflexivity|]. destruct IH as [cs IH]; [intros; apply EX; right; assumption|].
    destruct (EX a (or_introl eq_refl)) as [c [l [A B]]]. exists (c :: cs). cbn [mapM]. rewrite A. cbn [of_opt bind]. apply hget_ok in B. rewrite B. cbn [bind]. rewrite IH. reflexivity. }
  destruct M as [cs ->]. cbn [bind]. destruct f; [|eauto].
  set (unis := concat (map (fun c => match get_f c with Some f0 => [f0] | None => [] end) cs)).
  assert (U : forall ds : cdict, (forall l, In l (locs ds) -> In l (locs cells)) -> exists us, mapM (uni_cell h unis) ds = Ok us).
  { induction ds as [|[k l] ds IH]; intros S; [exists []; reflexivity|]. destruct IH as [us IH]; [intros; apply S; right; assumption|].
    destruct (AL l) as [c [A B]]; [apply S; left; reflexivity|]. cbn [mapM]. unfold uni_cell at 1. cbn [snd]. apply hget_ok in A. rewrite A. cbn [bind].
    destruct (get_u c) as [u|]; [destruct (zmem u unis); [destruct (c_values c) as [|[v k'] vs]; [congruence|]|]|]; cbn [bind]; rewrite IH; cbn [bind]; eauto. }
  destruct (U cells (fun l Q => Q)) as [us Q]. match goal with |- context [mapM ?g cells] => change g with (uni_cell h unis) end. rewrite Q. cbn [bind]. eauto. Qed.

Lemma collect_terminates h cells f (rank : Z -> nat) :
  (forall l, In l (locs cells) -> exists c, nth_error h l = Some c /\ c_values c <> []) ->
  (forall a b, needs h cells f a b -> exists c, cell_of h cells b c) ->
  (forall a b, needs h cells f a b -> a <> b -> rank b < rank a) ->
  forall fuel front cset, (forall a, In a front -> exists c, cell_of h cells a c) ->
  (forall a, In a front -> rank a < fuel) -> front <> [] ->
  exists res, collect fuel h cells f front cset = Ok (Some res).
Proof. intros AL CL RK. induction fuel as [|fuel IH]; intros front cset EX LT NE.
  - destruct front as [|a front]; [congruence|]. specialize (LT a (or_introl eq_refl)). lia.
  - cbn [collect]. destruct (collect_step_total h cells f front EX AL) as [new E]. rewrite E. cbn [bind].
    destruct (collect_step_spec _ _ _ _ _ E) as [_ NW]. destruct new as [|x new]; [eauto|]. apply IH.
    + intros a Ha. apply NW in Ha as [_ [b [_ Hb]]]. eauto.
    + intros a Ha. apply NW in Ha as [Hn [b [Hb Hab]]]. assert (b <> a) by (intros ->; contradiction). specialize (RK _ _ Hab H). specialize (LT _ Hb). lia.
    + congruence. Qed.

(** fuel only matters for the answer "still running" *)
Lemma collect_more h cells f : forall fuel front cset r, collect fuel h cells f front cset = Ok (Some r) -> collect (S fuel) h cells f front cset = Ok (Some r).
Proof. induction fuel as [|fuel IH]; intros front cset r H; [discriminate|]. cbn [collect] in H. cbn [collect].
  destruct (collect_step h cells f front) as [new|]; cbn [bind] in *; [|discriminate]. destruct new as [|x new]; [exact H|]. apply IH in H. exact H. Qed.
