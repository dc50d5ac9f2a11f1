(** Proofs: versions in other files, tables with the wrong number of columns. *)
From Coq Require Import Lia.
From Verif Require Import PyBase PyLemmas PyStr PyText D1SModel D1SProofs2 DataModel MeshModel MeshSpec MeshProofs OutModel OutSpec OutProofs OutProofs2 OutProofs4 OutSpec2.
Open Scope nat_scope.

Lemma ver_line v l : D1SVer v l -> search ver_version l = Some v.
Proof.
  intros (a & b & -> & Hm & [Hn Hv] & Hb). rewrite search_skip.
  - apply search_here. unfold ver_version. replace (strip_prefix (s2l "d1suned  ver=") (s2l "d1suned  ver=" ++ v ++ b)) with (Some (v ++ b)) by (symmetry; apply strip_prefix_some; reflexivity). cbn [obind].
    rewrite (some1_app is_digit v b Hn Hv Hb). reflexivity.
  - intros a1 c a2 ->. unfold ver_version. destruct (strip_prefix (s2l "d1suned  ver=") (c :: a2 ++ s2l "d1suned  ver=" ++ v ++ b)) as [q|] eqn:E; [|reflexivity]. exfalso. apply strip_prefix_some in E.
    change (s2l "d1suned  ver=") with (["d"; "1"; "s"; "u"; "n"; "e"; "d"; " "; " "; "v"; "e"; "r"; "="]%char) in *.
    do 12 (destruct a2 as [|? a2]; [discriminate E|]). cbn [app] in E. injection E as -> -> -> -> -> -> -> -> -> -> -> -> -> _. apply Hm. exists a1, a2. reflexivity.
Qed.
Lemma no_ver l : ~ Mentions (s2l "d1suned  ver=") l -> search ver_version l = None.
Proof.
  intros H. destruct (search ver_version l) as [v|] eqn:S; [|reflexivity]. exfalso. apply search_found in S as (a & q & -> & S). unfold ver_version in S. destruct (strip_prefix (s2l "d1suned  ver=") q) as [t|] eqn:P; [|discriminate S].
  apply strip_prefix_some in P. subst q. apply H. exists a, t. reflexivity.
Qed.
Lemma no_mcnp_search l : ~ Mentions (s2l "MCNP_") l -> search mcnp_version l = None.
Proof.
  intros H. destruct (search mcnp_version l) as [v|] eqn:S; [|reflexivity]. exfalso. apply search_found in S as (a & q & -> & S). unfold mcnp_version in S. destruct (strip_prefix (s2l "MCNP_") q) as [t|] eqn:P; [|discriminate S].
  apply strip_prefix_some in P. subst q. apply H. exists a, t. reflexivity.
Qed.
Lemma silent_skip a : forall r, Forall silent a -> file_version (a ++ r) = file_version r.
Proof. induction a as [|l a IH]; intros r H; [reflexivity|]. inversion H as [|x y [H1 H2] H3]; subst. cbn [app file_version]. rewrite (no_ver _ H1), (no_mcnp_search _ H2). apply IH. exact H3. Qed.
Lemma others_skip fs r : Forall (fun f => Forall silent (firstn 4 f)) fs -> others_version (fs ++ r) = others_version r.
Proof. induction 1 as [|f fs H _ IH]; [reflexivity|]. cbn [app others_version]. rewrite <- (app_nil_r (firstn 4 f)), (silent_skip _ [] H). exact IH. Qed.
Lemma no_version_code lines others : no_version lines -> get_code_version lines others = others_version others.
Proof.
  intros [Hd Hm]. unfold get_code_version. pose proof (head_skip (firstn 34 lines) [] Hd) as E. rewrite app_nil_r in E. rewrite E. cbn [d1s_head]. destruct lines as [|l r]; [reflexivity|].
  rewrite (no_mcnp_search l (Hm l r eq_refl)). reflexivity.
Qed.
Lemma found_in fs f gs a l b v : Forall (fun f => Forall silent (firstn 4 f)) fs -> f = a ++ l :: b -> length a < 4 -> Forall silent a -> file_version [l] = Some v ->
  others_version (fs ++ f :: gs) = Ok v.
Proof.
  intros F -> L S V. rewrite (others_skip _ _ F). cbn [others_version]. rewrite firstn_app, firstn_all2 by lia. rewrite (silent_skip _ _ S). destruct (4 - length a) as [|n] eqn:E; [lia|]. cbn [firstn].
  cbn [file_version] in V |- *. destruct (search ver_version l); [cbv iota; congruence|]. destruct (search mcnp_version l); [cbv iota; congruence|discriminate V].
Qed.
