(** Proofs for C125. *)
From Coq Require Import Lia.
From Verif Require Import PyBase PyStr PyText D1SProofs2 LibModel CliModel CliProofs2 VtkModel.
Open Scope nat_scope.

Lemma stem_nodot n : ~ In dot n -> stem_of_name n = n.
Proof. intros H. unfold stem_of_name. rewrite rfind_none by exact H. reflexivity. Qed.
Lemma suffix_nodot n : ~ In dot n -> suffix_of_name n = [].
Proof. intros H. unfold suffix_of_name. rewrite stem_nodot by exact H. apply skipn_all. Qed.
Lemma suffix_ext a e : a <> [] -> e <> [] -> ~ In dot e -> suffix_of_name (a ++ dot :: e) = dot :: e.
Proof. intros A E D. unfold suffix_of_name. rewrite stem_ext by assumption. rewrite skipn_app, skipn_all, Nat.sub_diag. reflexivity. Qed.
Lemma grid_nodot n : n <> [] -> ~ In dot n -> grid_file n = Ok (n ++ vts).
Proof. intros N H. unfold grid_file. rewrite suffix_nodot by exact H. cbn [str_eqb vts]. unfold with_suffix. rewrite stem_nodot by exact H. destruct n; [congruence|reflexivity]. Qed.
Lemma grid_ext a e : a <> [] -> e <> [] -> ~ In dot e -> grid_file (a ++ dot :: e) = Ok (a ++ vts).
Proof.
  intros A E D. unfold grid_file. rewrite suffix_ext by assumption. destruct (str_eqb (dot :: e) vts) eqn:X.
  - apply str_eqb_eq in X. rewrite X. reflexivity.
  - unfold with_suffix. rewrite stem_ext by assumption. destruct a; [congruence|reflexivity].
Qed.
Lemma stem_prefix n : exists r, n = stem_of_name n ++ r.
Proof. unfold stem_of_name. destruct (rfind_dot n 0 None) as [i|]; [|exists []; symmetry; apply app_nil_r]. destruct (_ && _); [exists (skipn i n); symmetry; apply firstn_skipn|exists []; symmetry; apply app_nil_r]. Qed.
Lemma grid_ends n r : grid_file n = Ok r -> exists s, r = s ++ vts.
Proof.
  unfold grid_file. destruct (str_eqb (suffix_of_name n) vts) eqn:X.
  - intros E. injection E as <-. apply str_eqb_eq in X. exists (stem_of_name n). rewrite <- X. unfold suffix_of_name. destruct (stem_prefix n) as [t T]. rewrite T at 1. f_equal. rewrite T at 2. rewrite skipn_app, skipn_all, Nat.sub_diag. reflexivity.
  - unfold with_suffix. destruct n as [|c n]; [discriminate|]. intros E. injection E as <-. eexists. reflexivity.
Qed.
