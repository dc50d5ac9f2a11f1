(** C44: what the loop over the boundary angles does to one surface; the source cards. *)
From Coq Require Import Lia ZArith QArith Qabs Qfield Lqa.
From Verif Require Import PyBase PyLemmas PyStr PyStrLemmas PyText D1SProofs2 LibModel MatModel MatProofs MatProofs2 InpModel InpProofs2 InpGeomProofs2 InpGeomProofs3 EliteModel EliteSpec EliteProofs2 EliteProofs3 EliteProofs4.
Open Scope nat_scope.

Section Trig.
  Variable sind cosd : Z -> Q.
  Variable cosq : Q -> Q.
  Variable norm : vec3 -> Q.
  Variable tol : Q.
  Variable ts : list (str * trans).
  Notation isb := (is_boundary sind cosd cosq norm tol ts).
  Notation atb := (at_boundary sind cosd cosq norm tol ts).
  Notation visit := (visit sind cosd cosq norm tol).

  Lemma translate_same a l s t : translate a l tol s = Ok t -> s_num t = s_num s /\ s_type t = s_type s /\ s_coefs t = s_coefs s /\ s_tr t = s_tr s.
  Proof.
    unfold translate. destruct (coef (s_coefs s) 1); cbn [bind]; [|discriminate]. destruct (of_opt IndexError _); cbn [bind]; [|discriminate]. destruct (parse_float _); cbn [bind]; [|discriminate].
    intros H. injection H as <-. auto.
  Qed.
  Lemma modify_same b a l s t : modify_boundary b a l tol s = Ok t -> s_num t = s_num s /\ s_type t = s_type s /\ s_coefs t = s_coefs s /\ s_tr t = s_tr s.
  Proof. unfold modify_boundary. destruct b; [destruct (s_text s); [discriminate|]; intros H; injection H as <-; auto|apply translate_same]. Qed.
  Lemma isb_same a s t : s_type t = s_type s -> s_coefs t = s_coefs s -> s_tr t = s_tr s -> isb a t = isb a s.
  Proof. intros E1 E2 E3. unfold is_boundary, plane_of. rewrite E1, E2, E3. reflexivity. Qed.
  Lemma isb_cases a s : isb a s = Ok true \/ isb a s <> Ok true. Proof. destruct (isb a s) as [[]|]; [left; reflexivity|right; discriminate..]. Qed.

  Notation run l0 las s := (foldM (fun s la => visit l0 ts la s) s las).
  Lemma run_same l0 las : forall s t, run l0 las s = Ok t -> (forall la, In la las -> ~ atb (snd la) s) -> t = s.
  Proof.
    induction las as [|la las IH]; intros s t H N; cbn [foldM] in H; [injection H as <-; reflexivity|].
    destruct (visit l0 ts la s) as [s1|] eqn:E; [|discriminate H]. cbn [bind] in H. unfold EliteModel.visit in E. destruct (isb (snd la) s) as [[]|] eqn:B; cbn [bind] in E; [|injection E as <-|discriminate E].
    - elim (N la (or_introl eq_refl)). apply boundary_true. exact B.
    - apply IH; [exact H|]. intros la' Hl. apply N. right. exact Hl.
  Qed.
  Lemma run_hit l0 las : forall s t k a, run l0 las s = Ok t -> NoDup las -> In (k, a) las -> atb a s -> (forall la, In la las -> atb (snd la) s -> la = (k, a)) ->
    modify_boundary (zmem (s_num s) l0) a k tol s = Ok t.
  Proof.
    induction las as [|la las IH]; intros s t k a H ND Hi Ha U; [destruct Hi|]. cbn [foldM] in H. inversion ND as [|? ? NI ND']; subst.
    destruct (visit l0 ts la s) as [s1|] eqn:E; [|discriminate H]. cbn [bind] in H. unfold EliteModel.visit in E. destruct Hi as [->|Hi].
    - cbn [fst snd] in E. rewrite (proj2 (boundary_true sind cosd cosq norm tol ts a s) Ha) in E. cbn [bind] in E.
      assert (t = s1); [|congruence]. apply (run_same l0 las); [exact H|]. destruct (modify_same _ _ _ _ _ E) as (_ & E1 & E2 & E3).
      intros la Hl C. assert (C' : atb (snd la) s). { apply boundary_true. rewrite <- (isb_same (snd la) s s1 E1 E2 E3). apply boundary_true. exact C. }
      specialize (U la (or_intror Hl) C'). subst la. contradiction.
    - destruct (isb (snd la) s) as [[]|] eqn:B; cbn [bind] in E; [|injection E as <-|discriminate E].
      + apply boundary_true in B. specialize (U la (or_introl eq_refl) B). subst la. contradiction.
      + apply IH; [exact H|exact ND'|exact Hi|exact Ha|]. intros la' Hl. apply U. right. exact Hl.
  Qed.
  (** a run is only successful when the first hit is *)
  Lemma run_needs l0 las : forall k a s, In (k, a) las -> atb a s -> forall t, run l0 las s = Ok t ->
    exists k' a' t', In (k', a') las /\ modify_boundary (zmem (s_num s) l0) a' k' tol s = Ok t'.
  Proof.
    induction las as [|la las IH]; intros k a s Hi Ha t H; [destruct Hi|]. cbn [foldM] in H.
    destruct (visit l0 ts la s) as [s1|] eqn:E; [|discriminate H]. cbn [bind] in H. unfold EliteModel.visit in E. destruct (isb (snd la) s) as [[]|] eqn:B; cbn [bind] in E; [|injection E as <-|discriminate E].
    - exists (fst la), (snd la), s1. split; [left; destruct la; reflexivity|exact E].
    - destruct Hi as [->|Hi]; [apply boundary_true in Ha; cbn [snd] in B; congruence|]. destruct (IH k a s Hi Ha t H) as (k' & a' & t' & H1 & H2). exists k', a', t'. split; [right; exact H1|exact H2].
  Qed.
End Trig.

Lemma boundary_list a0 a1 : enumerate 0 (boundary_angles [a0; a1]) = [(0, a0); (1, opposite a0); (2, a1); (3, opposite a1)].
Proof. reflexivity. Qed.
Lemma boundary_nodup a0 a1 : NoDup (enumerate 0 (boundary_angles [a0; a1])).
Proof. rewrite boundary_list. repeat constructor; cbn [In]; intros H; repeat (destruct H as [H|H]; [discriminate H|]); exact H. Qed.

(** ** the source *)
Lemma split_spaced (l : list str) : Forall (fun w => w <> [] /\ no_ws w) l -> split (concat (map (fun w => w ++ [sp]) l)) = l.
Proof.
  induction 1 as [|w l [N W] _ IH]; [reflexivity|]. cbn [map concat]. rewrite <- app_assoc. cbn [app]. rewrite split_app_ws by reflexivity. rewrite IH, (split_one w N W). reflexivity.
Qed.
Lemma mapM_lookup {A} (d : list (sector * A)) l : map fst d = sector_names -> Forall known l -> exists xs, mapM (lookup d) l = Ok xs /\ Forall2 (fun s x => In (s, x) d) l xs.
Proof.
  intros E. induction 1 as [|s l K _ (xs & E1 & F)]; [exists []; split; [reflexivity|constructor]|]. destruct (lookup_known d s E K) as (x & Hi & L). exists (x :: xs). cbn [mapM]. rewrite L. cbn [bind]. rewrite E1. split; [reflexivity|constructor; assumption].
Qed.
Lemma mapM_unknown {A} (d : list (sector * A)) l s : map fst d = sector_names -> In s l -> ~ known s -> mapM (lookup d) l = Err KeyError.
Proof.
  intros E. induction l as [|x l IH]; intros H N; [destruct H|]. cbn [mapM]. destruct (lookup d x) as [y|e] eqn:L; cbn [bind].
  - destruct H as [->|H]; [rewrite (lookup_unknown d s E N) in L; discriminate|]. rewrite (IH H N). reflexivity.
  - unfold lookup in L. destruct (dget sector_eqb x d); [discriminate L|]. cbn in L. congruence.
Qed.
Lemma sectors_cells_names rows : map fst (sectors_cells rows) = sector_names.
Proof. unfold sectors_cells. rewrite map_map. cbn [fst]. apply map_id. Qed.
