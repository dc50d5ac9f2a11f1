(** C37, continued: the comment of a reaction. *)
From Coq Require Import Lia ZArith.
From Verif Require Import PyBase PyStr PyStrLemmas PyText D1SProofs2 MatProofs LibModel LibSpec LibProofs LibProofs2 MatProofs3 IsoData PathsModel.
Open Scope nat_scope.

(** parent and daughter are named by symbol and mass number, and a metastable daughter (number
    followed by 900) gets a final "m" *)
Theorem C37_comment_names_the_reaction : forall D lib zp ep ap sp zd ed ad sd, symbol (a_iso D) zp ep -> symbol (a_iso D) zd ed ->
  zaid_text zp ap sp -> zaid_text zd ad sd -> (ad < 900)%N ->
  path_comment D (sp ++ dot :: lib) sd = Ok (formula ep ap ++ s2l " -> " ++ formula ed ad) /\
  path_comment D (sp ++ dot :: lib) (sd ++ s2l "900") = Ok (formula ep ap ++ s2l " -> " ++ formula ed ad ++ s2l "m").
Proof.
  intros D lib zp ep ap sp zd ed ad sd Sp Sd Tp Td A.
  destruct (get_zaidname_ok _ _ _ _ _ (symbol_W1 _ _ _ Sp) Tp) as [np Np]. destruct (get_zaidname_ok _ _ _ _ _ (symbol_W1 _ _ _ Sd) Td) as [nd Nd].
  assert (P : get_zaidname (a_iso D) (sp ++ dot :: lib) = Ok (np, formula ep ap)).
  { rewrite <- Np. unfold get_zaidname. assert (X : ~ In dot sp). { apply zaid_text_fmt in Tp as [_ ->]. intros I. assert (G : digits (str_of_N zp ++ fmt03 ap)) by (apply Forall_app; split; [apply str_of_N_digits|apply fmt03_digits]). unfold digits in G. rewrite Forall_forall in G. specialize (G _ I). discriminate G. }
    rewrite before_dot_dot, MatProofs3.before_dot_no by exact X. reflexivity. }
  unfold path_comment. rewrite P. cbn [bind]. split.
  - assert (L : str_eqb (last3 sd) (s2l "900") = false). { destruct (str_eqb (last3 sd) (s2l "900")) eqn:E; [|reflexivity]. apply str_eqb_eq in E. destruct (zaid_text_parts _ _ _ Td) as [_ L]. rewrite L in E. exfalso. assert (Y : num_of (fmt03 ad) = num_of (s2l "900")) by now rewrite E.
      apply zaid_text_fmt in Td as [Ha _]. pose proof (parse_int_fmt03 ad) as Q. rewrite E in Q. cbn in Q. injection Q as Q. lia. }
    rewrite L, Nd. reflexivity.
  - destruct (but3_app sd (s2l "900") eq_refl) as [-> ->]. rewrite str_eqb_refl, Nd. cbn [bind]. reflexivity.
Qed.
Print Assumptions C37_comment_names_the_reaction.
(** cobalt-59 to cobalt-60m with the shipped table *)
Example C37_comment_case : zaid_text 27 59 (s2l "27059") /\ zaid_text 27 60 (s2l "27060") /\
  path_comment (mkact shipped []) (s2l "27059.99c") (s2l "27060900") = Ok (s2l "Co-59 -> Co-60m").
Proof. split; [exists 0%N, 5%N, 9%N; repeat split; reflexivity|]. split; [exists 0%N, 6%N, 0%N; repeat split; reflexivity|]. vm_compute. reflexivity. Qed.
