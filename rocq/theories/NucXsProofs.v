(** Proofs about the cross sections of a nuclide. *)
From Coq Require Import Lia ZArith Qabs Lqa.
From Verif Require Import PyBase PyLemmas PyStr PyStrLemmas PyFmtLemmas D1SProofs2 MatProofs MatProofs2 OutProofs AceModel AceProofs NucXsModel NucXsSpec.
Open Scope nat_scope.

Definition cstep (fs : list fn) (x : Q) (s : Q * nat) (op : Q -> Q -> Q) : res (Q * nat) :=
  let '(ans, i) := s in do g <- of_opt IndexError (nth_error fs (S i)); do b <- g x; Ok (op ans b, S i).
Lemma comb_fold fs x gs ws : Forall2 (fun (f : fn) v => f x = Ok v) gs ws -> forall ops i a, length ops = length gs ->
  (forall j, nth_error fs (S (i + j)) = nth_error gs j) ->
  foldM (cstep fs x) (a, i) ops = Ok (fold_left (fun acc (p : (Q -> Q -> Q) * Q) => fst p acc (snd p)) (combine ops ws) a, i + length ops).
Proof.
  induction 1 as [|g w gs ws G _ IH]; intros ops i a L N; destruct ops as [|op ops]; try discriminate L.
  - cbn. f_equal. f_equal. lia.
  - cbn [foldM]. unfold cstep at 1. pose proof (N 0) as N0. rewrite Nat.add_0_r in N0. rewrite N0. cbn [nth_error of_opt bind]. rewrite G. cbn [bind].
    rewrite IH; [cbn [combine fold_left fst snd length]; do 2 f_equal; lia|cbn [length] in L; lia|]. intros j. specialize (N (S j)). replace (S i + j) with (i + S j) by lia. exact N.
Qed.
Lemma comb_value f fs ops x v ws : f x = Ok v -> Forall2 (fun (g : fn) w => g x = Ok w) fs ws -> length ops = length fs ->
  comb (f :: fs) ops x = Ok (fold_left (fun acc (p : (Q -> Q -> Q) * Q) => fst p acc (snd p)) (combine ops ws) v).
Proof.
  intros F G L. unfold comb. cbn [nth_error of_opt bind]. rewrite F. cbn [bind]. change (foldM _ (v, 0) ops) with (foldM (cstep (f :: fs) x) (v, 0) ops).
  rewrite (comb_fold (f :: fs) x fs ws G ops 0 v L); [reflexivity|]. intros j. reflexivity.
Qed.
Lemma adds ws : forall a, (fold_left (fun acc (p : (Q -> Q -> Q) * Q) => fst p acc (snd p)) (combine (repeat op_add (length ws)) ws) a == a + qsum ws)%Q.
Proof. induction ws as [|w ws IH]; intros a; [cbn; lra|]. cbn [length repeat combine fold_left fst snd]. rewrite IH, qsum_cons. unfold op_add. ring. Qed.
Lemma F2len {A B} (R : A -> B -> Prop) l l' : Forall2 R l l' -> length l = length l'.
Proof. induction 1; cbn; congruence. Qed.
Lemma comb_sum fs x vs : fs <> [] -> Forall2 (fun (g : fn) w => g x = Ok w) fs vs -> exists v, comb fs (repeat op_add (length fs - 1)) x = Ok v /\ (v == qsum vs)%Q.
Proof.
  intros N H. destruct H as [|f v fs vs F H]; [congruence|]. cbn [length]. replace (S (length fs) - 1) with (length fs) by lia.
  rewrite (comb_value f fs _ x v vs F H) by apply repeat_length. eexists. split; [reflexivity|]. rewrite (F2len _ _ _ H), adds, qsum_cons. reflexivity.
Qed.
Lemma combine_app {A B} (a a' : list A) (b b' : list B) : length a = length b -> combine (a ++ a') (b ++ b') = combine a b ++ combine a' b'.
Proof. revert b. induction a as [|x a IH]; intros [|y b] L; try discriminate L; [reflexivity|]. cbn [app combine]. rewrite IH by (cbn in L; lia). reflexivity. Qed.
(* the sum of all but the last, times the last *)
Lemma comb_xi fs g x vs w : fs <> [] -> Forall2 (fun (f : fn) v => f x = Ok v) fs vs -> g x = Ok w ->
  exists v, comb (fs ++ [g]) (repeat op_add (length (fs ++ [g]) - 2) ++ [op_mul]) x = Ok v /\ (v == qsum vs * w)%Q.
Proof.
  intros N H G. destruct H as [|f v fs vs F H]; [congruence|]. cbn [app length]. rewrite app_length. cbn [length]. replace (S (length fs + 1) - 2) with (length fs) by lia.
  rewrite (comb_value f (fs ++ [g]) _ x v (vs ++ [w]) F); [|apply Forall2_app; [exact H|auto]|rewrite !app_length, repeat_length; reflexivity].
  eexists. split; [reflexivity|]. rewrite combine_app by (rewrite repeat_length; exact (F2len _ _ _ H)). rewrite fold_left_app. cbn [combine fold_left fst snd]. unfold op_mul at 1.
  rewrite (F2len _ _ _ H), adds, qsum_cons. ring.
Qed.
Lemma comb2 f g op x a b : f x = Ok a -> g x = Ok b -> comb [f; g] [op] x = Ok (op a b).
Proof. intros F G. rewrite (comb_value f [g] [op] x a [b] F); [reflexivity|auto|reflexivity]. Qed.

(* yields *)
Lemma yields_some ps x : Forall (fun q => ~ total_neutron q) ps -> forall ys, Forall2 (fun p y => p_yield p x = Ok y) (filter p_neutron ps) ys -> forall g a, g x = Ok a ->
  exists h v, fold_left add_yield ps (Some g) = Some h /\ h x = Ok v /\ (v == a + qsum ys)%Q.
Proof.
  induction 1 as [|p ps T _ IH]; intros ys H g a G; [inversion H; subst; exists g, a; cbn; split; [reflexivity|]; split; [exact G|lra]|].
  cbn [filter fold_left] in *. unfold add_yield at 2. destruct (p_neutron p) eqn:P; cbn [andb] in *.
  - inversion H as [|p' y ps' ys' Y H' E1 E2]; subst p' ps' ys. assert (PT : p_total p = false) by (destruct (p_total p) eqn:E; [exfalso; apply T; split; assumption|reflexivity]). rewrite PT. cbn [negb].
    destruct (IH ys' H' (comb [p_yield p; g] [op_add]) (y + a)%Q) as (h & v & E & V & Q); [rewrite (comb2 _ _ _ _ _ _ Y G); reflexivity|].
    exists h, v. split; [exact E|]. split; [exact V|]. rewrite Q, qsum_cons. ring.
  - exact (IH ys H g a G).
Qed.
Lemma yields_none ps x : Forall (fun q => ~ total_neutron q) ps -> forall ys, Forall2 (fun p y => p_yield p x = Ok y) (filter p_neutron ps) ys ->
  match ys with [] => fold_left add_yield ps None = None
  | _ => exists h v, fold_left add_yield ps None = Some h /\ h x = Ok v /\ (v == qsum ys)%Q end.
Proof.
  induction 1 as [|p ps T F IH]; intros ys H; [inversion H; subst; reflexivity|]. cbn [filter fold_left] in *. unfold add_yield at 2 4. destruct (p_neutron p) eqn:P; cbn [andb] in *.
  - inversion H as [|p' y ps' ys' Y H' E1 E2]; subst p' ps' ys. assert (PT : p_total p = false) by (destruct (p_total p) eqn:E; [exfalso; apply T; split; assumption|reflexivity]). rewrite PT. cbn [negb].
    destruct (yields_some ps x F ys' H' (p_yield p) y Y) as (h & v & E & V & Q). exists h, v. split; [exact E|]. split; [exact V|]. rewrite Q, qsum_cons. reflexivity.
  - exact (IH ys H).
Qed.
Lemma find_first {A} (f : A -> bool) a p b : f p = true -> Forall (fun q => f q = false) a -> find f (a ++ p :: b) = Some p.
Proof. intros P. induction 1 as [|q a Q _ IH]; cbn; [now rewrite P|now rewrite Q]. Qed.
Lemma find_no {A} (f : A -> bool) a : Forall (fun q => f q = false) a -> find f a = None.
Proof. induction 1 as [|q a Q _ IH]; cbn; [reflexivity|now rewrite Q]. Qed.
Lemma not_total ps : Forall (fun q => ~ total_neutron q) ps -> Forall (fun q => (p_neutron q && p_total q)%bool = false) ps.
Proof. apply Forall_impl. intros q H. destruct (p_neutron q) eqn:A, (p_total q) eqn:B; cbn; auto. exfalso. apply H. split; assumption. Qed.

(* a reaction that contributes v has a function that gives v *)
Lemma contribution_fn n temp nu x mt v : Contribution n temp nu x mt v -> forall f, func_of n temp nu mt = Ok f -> exists w, f x = Ok w /\ (w == v)%Q.
Proof.
  intros [(r & es & g & s & R & D & G & C)|(N2 & R & E)] f; unfold func_of.
  - assert (XS : xs_at r temp = Ok g) by (unfold xs_at; rewrite D; reflexivity). destruct (Z.eqb_spec mt 2) as [->|M].
    + rewrite R. cbn [of_opt bind]. rewrite XS. intros X. injection X as <-. exists s. split; [exact G|]. destruct C as [[_ C]|(C & _)]; [symmetry; exact C|congruence].
    + rewrite R. destruct nu.
      * destruct C as [[[C|C] _]|(_ & _ & m & M' & C)]; try congruence. destruct M' as [(a & p & b & Eq & T & Fa & Y)|(Fp & ys & Y & Em)].
        -- rewrite Eq, (find_first _ a p b); [|destruct T as [-> ->]; reflexivity|apply not_total; exact Fa]. rewrite XS. cbn [bind]. intros X. injection X as <-.
           rewrite (comb2 _ _ _ _ _ _ G Y). eexists. split; [reflexivity|]. rewrite C. unfold op_mul. ring.
        -- rewrite (find_no _ _ (not_total _ Fp)). pose proof (yields_none _ x Fp ys Y) as Yn. destruct ys as [|y ys].
           ++ rewrite Yn, XS. intros X. injection X as <-. exists s. split; [exact G|]. rewrite C, Em. ring.
           ++ destruct Yn as (h & w & -> & H & Q). rewrite XS. cbn [bind]. intros X. injection X as <-. rewrite (comb2 _ _ _ _ _ _ H G). eexists. split; [reflexivity|]. rewrite C, Em, Q. reflexivity.
      * rewrite XS. intros X. injection X as <-. exists s. split; [exact G|]. destruct C as [[_ C]|(_ & C & _)]; [symmetry; exact C|congruence].
  - destruct (Z.eqb_spec mt 2) as [->|M]; [congruence|]. rewrite R. unfold UNITY_MT, XI_MT.
    destruct (mt =? -1)%Z; [|destruct (mt =? -2)%Z]; intros X; injection X as <-; eexists; (split; [reflexivity|symmetry; exact E]).
Qed.
Lemma contributions_fns n temp nu x mts fs : Forall2 (fun mt f => func_of n temp nu mt = Ok f) mts fs -> forall vs, Forall2 (Contribution n temp nu x) mts vs ->
  exists ws, Forall2 (fun (f : fn) w => f x = Ok w) fs ws /\ (qsum ws == qsum vs)%Q.
Proof.
  induction 1 as [|mt f mts fs F _ IH]; intros vs C; inversion C as [|mt' v mts' vs' Cv Cs]; subst; [exists []; split; [constructor|reflexivity]|].
  destruct (contribution_fn _ _ _ _ _ _ Cv f F) as (w & W & E). destruct (IH vs' Cs) as (ws & Ws & Es). exists (w :: ws). split; [constructor; assumption|]. rewrite !qsum_cons, E, Es. reflexivity.
Qed.
Lemma available_fn n temp nu mt : Available n temp mt -> exists f, func_of n temp nu mt = Ok f.
Proof.
  unfold Available, func_of. intros A. destruct (Z.eqb_spec mt 2) as [->|M].
  - destruct (n_rx n 2%Z) as [r|]; [|congruence]. destruct A as [p A]. cbn [of_opt bind]. unfold xs_at. rewrite A. eexists; reflexivity.
  - destruct (n_rx n mt) as [r|].
    + destruct A as [p A]. assert (XS : exists g, xs_at r temp = Ok g) by (unfold xs_at; rewrite A; eexists; reflexivity). destruct XS as [g XS].
      destruct nu; [destruct (find _ _); [|destruct (fold_left _ _ _)]|]; rewrite XS; eexists; reflexivity.
    + destruct (mt =? UNITY_MT)%Z; [|destruct (mt =? XI_MT)%Z]; eexists; reflexivity.
Qed.
