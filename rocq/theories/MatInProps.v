(** Theorems about the reading of all the materials of an input (C96). *)
From Verif Require Import PyBase PyStr PyText LibModel MatModel MatSpec MatTextModel MatTextSpec MatTextProofs MatInModel MatInSpec MatInProofs.
Open Scope nat_scope.

(** the kinds of cards *)
Theorem C96_kinds_of_cards : forall c, (is_mat c = true <-> MatStart (first_line_of c)) /\ (is_mx c = true <-> MxStart (first_line_of c)) /\ (is_comment c = true <-> CommentLine (first_line_of c)).
Proof. intros c. split; [apply mat_start|]. split; [apply mx_start|apply comment_start]. Qed.
Print Assumptions C96_kinds_of_cards.
(** one material per material card, in order, read with the comment card before it *)
Theorem C96_materials_in_order : forall cards ms, from_input cards = Ok ms -> Forall2 (fun t m => mat_from_text t = Ok m) (sources [[]] cards) (map fst ms).
Proof. exact input_materials. Qed.
Print Assumptions C96_materials_in_order.
(** the mx cards of a material that are followed by some other card, or by nothing, are given to that material *)
Theorem C96_mx_cards : forall pre bs mats, Forall (fun c => OtherCard c /\ is_comment c = false) pre -> Forall Block bs -> apart bs ->
  Forall2 (fun b m => mat_from_text (b_text b) = Ok m) bs mats -> from_input (pre ++ concat (map b_cards bs)) = Ok (combine mats (map b_runs bs)).
Proof. exact input_read. Qed.
Print Assumptions C96_mx_cards.
Definition lnn (s : string) : str := s2l s ++ [nl].
Definition m1 : card := [lnn "m1 1001.31c 0.5"].
Definition m2 : card := [lnn "m2 8016.31c 0.5"].
Definition mx1 : card := [lnn "mx1:h model"].
Definition com : card := [lnn "c water"].
Definition owners (r : res (list mat_mx)) : option (list (str * list (list card))) := match r with Ok ms => Some (map (fun x => (rm_name (fst x), snd x)) ms) | Err _ => None end.
(** when the next material card follows them directly they go to the wrong material *)
Theorem C96_mx_of_the_next_material_refuted :
  owners (from_input [m1; mx1; m2]) = Some [(s2l "m1", []); (s2l "m2", [[mx1]])] /\
  owners (from_input [m1; mx1; com; m2]) = Some [(s2l "m1", [[mx1]]); (s2l "m2", [])].
Proof. split; vm_compute; reflexivity. Qed.
Print Assumptions C96_mx_of_the_next_material_refuted.
(** a list with mx cards can not be written *)
Theorem C96_writing_mx_cards_refuted : forall ms, (exists m, In m ms /\ snd m <> []) -> read_list_to_text ms = Err AttributeError.
Proof.
  intros ms (m & Hm & Hx). unfold read_list_to_text. assert (E : mapM read_to_text ms = Err AttributeError); [|rewrite E; reflexivity].
  induction ms as [|a ms IH]; [destruct Hm|]. cbn [mapM]. destruct Hm as [->|Hm].
  - unfold read_to_text at 1. destruct (snd m); [contradiction|reflexivity].
  - unfold read_to_text at 1. destruct (snd a); [|reflexivity]. cbn [bind]. rewrite (IH Hm). reflexivity.
Qed.
Print Assumptions C96_writing_mx_cards_refuted.
(** without mx cards it is the text of C95 *)
Theorem C96_writing : forall ms, Forall (fun m => snd m = []) ms -> read_list_to_text ms = Ok (list_to_text (map (fun m => rewritten (fst m)) ms)).
Proof.
  intros ms H. unfold read_list_to_text. assert (E : mapM read_to_text ms = Ok (map (fun m => mat_to_text (rewritten (fst m))) ms)).
  { induction H as [|m ms E _ IH]; [reflexivity|]. cbn [mapM map]. unfold read_to_text at 1. rewrite E. cbn [bind]. rewrite IH. reflexivity. }
  rewrite E. cbn [bind]. unfold list_to_text. rewrite !map_map. reflexivity.
Qed.
Print Assumptions C96_writing.
(** an mx card before any material is refused *)
Theorem C96_mx_card_first : forall pre mx c r, Forall (fun c => OtherCard c /\ is_comment c = false) pre -> Forall MxCard mx -> mx <> [] -> OtherCard c ->
  from_input (pre ++ mx ++ c :: r) = Err IndexError /\ from_input (pre ++ mx) = Err IndexError.
Proof.
  intros pre mx c r HP HX HN [HO1 HO2]. unfold from_input. rewrite !foldM_app'. destruct (fold_others [] pre [[]] HP eq_refl) as (pv & E & P). rewrite E. cbn [bind]. rewrite foldM_app'.
  destruct (fold_mx [] mx pv [] false HX HN) as (pv' & E' & _). rewrite E'. cbn [bind foldM]. split; [|reflexivity]. unfold fstep at 1. rewrite HO1, HO2. reflexivity.
Qed.
Print Assumptions C96_mx_card_first.
Example C96_case : exists bs, Forall Block bs /\ apart bs /\ length bs = 2 /\ concat (map b_cards bs) = [com; m1; [lnn "mt1 lwtr.31t"]; mx1; com; m2] /\
  owners (from_input [com; m1; [lnn "mt1 lwtr.31t"]; mx1; com; m2]) = Some [(s2l "m1", [[mx1]]); (s2l "m2", [])].
Proof.
  exists [mkB (Some com) m1 [[lnn "mt1 lwtr.31t"]] [mx1] []; mkB (Some com) m2 [] [] []]. split; [repeat constructor; try discriminate|]. split; [cbn; split; [right; discriminate|]; auto|]. split; [reflexivity|]. split; [reflexivity|]. vm_compute. reflexivity.
Qed.
