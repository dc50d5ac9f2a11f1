(** C131: a material over its life. *)
From Coq Require Import Lia ZArith Lqa.
From Verif Require Import PyBase PyLemmas PyStr PyStrLemmas PyText LibModel LibSpec LibProofs LibProofs2 LibProofs3 IsoData LibProps MatModel MatSpec MatProofs MatProofs2 MatProofs3 MatProofs4 MatProps MatProps2 MatLifeModel MatLifeSpec MatLifeProofs.
Open Scope nat_scope.

(** Whatever a script does with a material - translations of mass fractions, switches of fractions, queries of densities, scalings -
    the share of every element in its mass is exactly the one it started with. *)
Theorem C131_mass_shares_are_kept : forall nav E m os m', good_env E -> wf_material m -> of_elements m -> pure m -> careful nav E m os ->
  mlife nav E m os = Ok m' -> forall n, (mass_share E m' n == mass_share E m n)%Q.
Proof. intros nav E m os m' G W O P C H. now apply (life_keeps nav E os G m m'). Qed.
Print Assumptions C131_mass_shares_are_kept.
(** The elements of the material are those it started with, and its fractions stay of one kind. *)
Theorem C131_elements_are_kept : forall nav E m os m', good_env E -> wf_material m -> of_elements m -> pure m -> careful nav E m os ->
  mlife nav E m os = Ok m' -> (forall n, has_element m' n <-> has_element m n) /\ pure m' /\ wf_material m' /\ of_elements m'.
Proof. intros nav E m os m' G W O P C H. destruct (life_keeps nav E os G m m' W O P C H) as (A & B & D & R & _). auto. Qed.
Print Assumptions C131_elements_are_kept.
(** The shares of the elements add up: those of a list of different elements that has them all are 1 together. *)
Theorem C131_shares_add_up : forall E m ns, of_elements m -> NoDup ns -> (forall n, has_element m n -> In n ns) ->
  ~ (qsum (map (grams E m) (all_zaids m)) == 0)%Q -> (qsum (map (mass_share E m) ns) == 1)%Q.
Proof. exact shares_add_up. Qed.
Print Assumptions C131_shares_add_up.
(** What a life ends in does not depend on when the densities are asked, as far as the masses go: two lives of one material end with the same shares. *)
Theorem C131_two_lives_agree : forall nav E m os os' m1 m2, good_env E -> wf_material m -> of_elements m -> pure m -> careful nav E m os -> careful nav E m os' ->
  mlife nav E m os = Ok m1 -> mlife nav E m os' = Ok m2 -> forall n, (mass_share E m1 n == mass_share E m2 n)%Q.
Proof. intros nav E m os os' m1 m2 G W O P C C' H H' n. rewrite (C131_mass_shares_are_kept nav E m os m1 G W O P C H). symmetry. now apply (C131_mass_shares_are_kept nav E m os' m2). Qed.
Print Assumptions C131_two_lives_agree.
(** Translating atom fractions changes the shares: carbon 12 becomes natural carbon, atom by atom. *)
Definition methane : material := mkmat (s2l "m1") [mk_submat [zd 4 "1" "001" "31c"; zd 1 "6" "012" "21c"]].
Theorem C131_atom_fractions_refuted : exists m', wf_material methane /\ of_elements methane /\ atom_material methane /\
  (forall z, In z (all_zaids methane) -> translatable denv (ToLib (s2l "31c")) z) /\
  mlife 1 denv methane [MTranslate (ToLib (s2l "31c"))] = Ok m' /\ ~ (mass_share denv m' 6 == mass_share denv methane 6)%Q.
Proof.
  eexists. split; [|split; [|split; [|split; [|split; [vm_compute; reflexivity|]]]]].
  - repeat constructor; vm_compute; intuition discriminate.
  - intros z [<-|[<-|[]]]; eexists; vm_compute; reflexivity.
  - split; [intros z [<-|[<-|[]]]; vm_compute; discriminate|vm_compute; reflexivity].
  - intros z [<-|[<-|[]]]; right; exists (s2l "31c"); eexists; (split; [reflexivity|]); (split; [vm_compute; reflexivity|discriminate]).
  - intros Q. vm_compute in Q. discriminate Q.
Qed.
Print Assumptions C131_atom_fractions_refuted.
(** a life: hydrogen and natural lithium by mass, translated, switched, scaled, its density asked *)
Definition ex_mat : material := mkmat (s2l "m1") [mk_submat [zd (-1#10) "1" "001" "21c"; zd (-9#10) "3" "000" "21c"]].
Definition ex_os : list mop := [MTranslate (ToLib (s2l "31c")); MSwitch Atom; MScale 3; MDensity 1].
Lemma ex_masses m : map (fun z => match zmass denv z with Ok q => negb (Qle_bool q 0) | _ => false end) (all_zaids m) = repeat true (length (all_zaids m)) -> has_masses denv m.
Proof. intros H z I. assert (B : match zmass denv z with Ok q => negb (Qle_bool q 0) | _ => false end = true).
  { assert (J : In (match zmass denv z with Ok q => negb (Qle_bool q 0) | _ => false end) (map (fun z => match zmass denv z with Ok q => negb (Qle_bool q 0) | _ => false end) (all_zaids m))) by exact (in_map (fun z => match zmass denv z with Ok q => negb (Qle_bool q 0) | _ => false end) _ _ I).
    rewrite H in J. now apply repeat_spec in J. }
  destruct (zmass denv z) as [q|]; [|discriminate B]. exists q. split; [reflexivity|]. apply Bool.negb_true_iff in B. destruct (Qlt_le_dec 0 q) as [L|L]; [exact L|]. apply Qle_bool_iff in L. congruence. Qed.
Example C131_witness : good_env denv /\ wf_material ex_mat /\ of_elements ex_mat /\ pure ex_mat /\ careful 1 denv ex_mat ex_os /\
  exists m', mlife 1 denv ex_mat ex_os = Ok m' /\ length (all_zaids m') = 3 /\ (mass_share denv m' 3 == 9#10)%Q.
Proof.
  split; [exact (proj1 C22_witness)|]. split; [repeat constructor; vm_compute; intuition discriminate|]. split; [intros z [<-|[<-|[]]]; eexists; vm_compute; reflexivity|].
  assert (MM : mass_material ex_mat) by (split; [intros z [<-|[<-|[]]]; vm_compute; discriminate|vm_compute; reflexivity]).
  split; [now right|]. split; [|eexists; split; [vm_compute; reflexivity|]; split; vm_compute; reflexivity].
  cbn [careful ex_os]. split.
  { split; [exact I|]. split; [exact MM|]. intros z [<-|[<-|[]]]; right; exists (s2l "31c"); eexists; (split; [reflexivity|]); (split; [vm_compute; reflexivity|discriminate]). }
  intros m1 H1. assert (M1 : has_masses denv m1) by (vm_compute in H1; injection H1 as <-; apply ex_masses; vm_compute; reflexivity). split; [exact M1|].
  intros m2 H2. split; [reflexivity|]. intros m3 H3. split; [|intros m4 _; exact I]. vm_compute in H1. injection H1 as <-. vm_compute in H2. injection H2 as <-. vm_compute in H3. injection H3 as <-. apply ex_masses. vm_compute. reflexivity.
Qed.
