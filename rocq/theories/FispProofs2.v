(** Proofs about the table of the pathways and their texts. *)
From Coq Require Import Lia ZArith Permutation Sorted.
From Verif Require Import PyBase PyLemmas PyStr PyText D1SModel D1SProofs2 DataModel MeshModel MeshSpec LibModel LibSpec LibProofs2 OutModel OutSpec OutProofs FispModel FispSpec FispProofs.
Open Scope nat_scope.

Lemma number_ok t n k : NumberText t n k -> get_zaidnum t (get_str n) = Ok k.
Proof.
  intros (z & HS & [Hn HW] & [Hd1 Hd2] & Hlt & HZ). apply zaid_text_fmt in HZ as [_ ->]. unfold get_zaidnum, get_str. rewrite first_letters_app; [|split; assumption|].
  2:{ destruct (n_iso n) as [|c d]; [congruence|]. cbn [app]. apply digit_letter. inversion Hd2; assumption. }
  cbn [of_opt bind]. apply symbol_W2 in HS as (r & -> & <-). cbn [of_opt bind].
  rewrite (first_number (n_iso n)); [reflexivity|]. exists (n_el n), (if n_meta n then s2l "m" else []). split; [reflexivity|]. split; [eapply Forall_impl; [|exact HW]; exact letter_digit|]. split; [split; assumption|].
  destruct (n_meta n); intros c x E; [injection E as <- _; reflexivity|discriminate E].
Qed.
Definition key_le (a b : str * prow) : Prop := str_leb (fst a) (fst b) = true.
Lemma insert_row_perm x l : Permutation (insert_row x l) (x :: l).
Proof. induction l as [|y l IH]; cbn [insert_row]; [reflexivity|]. destruct (str_leb (fst x) (fst y)); [reflexivity|]. rewrite IH. apply perm_swap. Qed.
Lemma sort_rows l : Permutation (fold_right insert_row [] l) l /\ StronglySorted key_le (fold_right insert_row [] l).
Proof.
  induction l as [|x l [P S]]; cbn [fold_right]; [split; constructor|]. split; [rewrite insert_row_perm, P; reflexivity|]. clear P. revert S. generalize (fold_right insert_row [] l). clear. intros m S.
  induction S as [|y m S IH F]; cbn [insert_row]; [repeat constructor|]. destruct (str_leb (fst x) (fst y)) eqn:E.
  - constructor; [constructor; assumption|]. constructor; [exact E|]. eapply Forall_impl; [|exact F]. intros z Hz. unfold key_le in *. eapply str_leb_trans; eauto.
  - constructor; [exact IH|]. apply str_leb_total in E. rewrite Forall_forall in *. intros z Hz. apply (Permutation_in _ (insert_row_perm x m)) in Hz. destruct Hz as [<-|Hz]; [exact E|apply F; exact Hz].
Qed.
Theorem table_ok t ps ks : ps <> [] -> Forall2 (fun p k => NumberText t (p_daughter p) k) ps ks ->
  exists rows keyed, to_dataframe t ps = Ok (map snd keyed) /\ Forall2 RowFor ps rows /\ Permutation keyed (combine ks rows) /\ StronglySorted (fun a b => str_leb (fst a) (fst b) = true) keyed.
Proof.
  intros Hne HF. exists (map row_of ps), (fold_right insert_row [] (combine ks (map row_of ps))). destruct (sort_rows (combine ks (map row_of ps))) as [P S]. split; [|split; [|split; assumption]].
  - unfold to_dataframe. assert (E : mapM (fun p => do k <- get_zaidnum t (get_str (p_daughter p)); Ok (k, row_of p)) ps = Ok (combine ks (map row_of ps))).
    { clear - HF. induction HF as [|p k ps ks H HF IH]; [reflexivity|]. cbn [mapM]. rewrite (number_ok _ _ _ H). cbn [bind]. rewrite IH. reflexivity. }
    rewrite E. cbn [bind]. destruct ps as [|p ps]; [congruence|]. inversion HF; subst. reflexivity.
  - clear. induction ps as [|p ps IH]; constructor; [|exact IH]. repeat split. unfold row_of. cbn [pr_inter]. destruct (p_inter p); reflexivity.
Qed.
Theorem table_unknown t ps p : In p ps -> Forall (fun c => LibModel.is_letter c = true) (n_el (p_daughter p)) -> n_el (p_daughter p) <> [] -> all_digits (n_iso (p_daughter p)) -> (forall r, In r t -> r_E r <> n_el (p_daughter p)) -> exists e, to_dataframe t ps = Err e.
Proof.
  intros HI HW Hn [Hd1 Hd2] HT. unfold to_dataframe. assert (E : exists e, mapM (fun p => do k <- get_zaidnum t (get_str (p_daughter p)); Ok (k, row_of p)) ps = Err e); [|destruct E as (e & ->); eexists; reflexivity].
  induction ps as [|x ps IH]; [destruct HI|]. cbn [mapM]. destruct HI as [->|HI].
  - unfold get_zaidnum at 1. unfold get_str. rewrite first_letters_app; [|split; assumption|]. 2:{ destruct (n_iso (p_daughter p)) as [|c d]; [congruence|]. cbn [app]. apply digit_letter. inversion Hd2; assumption. }
    cbn [of_opt bind]. assert (N : row_by_E t (n_el (p_daughter p)) = None).
    { unfold row_by_E. destruct (find _ t) as [r|] eqn:F; [|reflexivity]. apply find_some in F as [F1 F2]. apply str_eqb_eq in F2. exfalso. exact (HT r F1 F2). }
    rewrite N. cbn [of_opt bind]. eexists. reflexivity.
  - destruct (IH HI) as (e & ->). destruct (get_zaidnum t (get_str (p_daughter x))); cbn [bind]; eexists; reflexivity.
Qed.
(* the text of a pathway: each step with its own reaction *)
Theorem show_ok par dau q mids r rs : length rs = length mids ->
  show_path (mkPw par dau q (rs ++ [r]) (Some mids)) = Ok (get_str par ++ s2l " " ++ concat (map (fun x => s2l "-" ++ snd x ++ s2l "-> " ++ get_str (fst x) ++ s2l " ") (combine mids rs)) ++ s2l "-" ++ r ++ s2l "->  " ++ get_str dau).
Proof.
  intros HL. unfold show_path. cbn [p_inter p_reactions p_parent p_daughter]. rewrite rev_app_distr. cbn [rev app]. do 4 f_equal. f_equal. clear - HL.
  revert rs HL. induction mids as [|m mids IH]; intros rs HL; [reflexivity|]. destruct rs as [|x rs]; [discriminate HL|]. injection HL as HL. cbn [app combine map]. rewrite (IH rs HL). reflexivity.
Qed.
