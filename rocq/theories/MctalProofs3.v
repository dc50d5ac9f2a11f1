(** Proofs about reading a mctal file: a tally and a whole file. *)
From Coq Require Import Lia ZArith.
From Verif Require Import PyBase PyLemmas PyStr PyStrLemmas PyText D1SProofs2 MatProofs MatProofs2 DataModel MeshModel MeshSpec MeshProofs MctalModel MctalSpec MctalProofs MctalProofs2.
Open Scope nat_scope.

Lemma rstrip_line c : (c = [] \/ exists c' x, c = c' ++ [x] /\ is_ws x = false) -> rstrip (c ++ [nl]) = c.
Proof.
  intros [->|(c' & x & -> & H)]; [reflexivity|]. unfold rstrip. rewrite !rev_app_distr. cbn [rev app lstrip].
  change (is_ws nl) with true. cbn iota. rewrite H. cbn [rev]. rewrite rev_involutive. reflexivity.
Qed.
Lemma comments_ok cs ls h rest : CommentLines cs ls -> five_blanks h = false ->
  comments (hd [] (ls ++ h :: rest)) (tl (ls ++ h :: rest)) = (cs, h, rest).
Proof.
  intros H Hh. revert cs H. induction ls as [|l ls IH]; intros cs H; inversion H as [|? c ? cs' [E Hc] HF]; subst.
  - destruct rest; cbn [app hd tl comments]; rewrite Hh; reflexivity.
  - cbn [app hd tl]. specialize (IH cs' HF). destruct (ls ++ h :: rest) as [|l2 f2] eqn:El; [destruct ls; discriminate El|]. cbn [hd tl] in IH. cbn [comments].
    change (five_blanks (repeat sp 5 ++ c ++ [nl])) with true. cbn iota. rewrite IH.
    change (skipn 5 (repeat sp 5 ++ c ++ [nl])) with (c ++ [nl]). rewrite (rstrip_line c Hc). reflexivity.
Qed.
Lemma particles_ok ps ls rest l1 f1 : ParticleLine ps ls -> rest = l1 :: f1 ->
  match l1 with c :: d :: _ => c <> sp \/ d = sp | [c] => c <> sp | [] => False end ->
  particles (hd [] (ls ++ rest)) (tl (ls ++ rest)) = Ok (ps, l1, f1).
Proof.
  intros H -> Hl. destruct ps as [|p ps]; cbn [ParticleLine] in H.
  - subst ls. cbn [app hd tl]. unfold particles. destruct l1 as [|c [|d r]]; [contradiction| |].
    + destruct (Ascii.eqb_spec c sp); [contradiction|]. reflexivity.
    + destruct (Ascii.eqb_spec c sp) as [->|]; [|reflexivity]. destruct Hl as [X| ->]; [contradiction|]. reflexivity.
  - destruct H as (l & c & r & -> & -> & Hc & HF). cbn [app hd tl]. unfold particles. rewrite Ascii.eqb_refl.
    destruct (Ascii.eqb_spec c sp); [contradiction|]. cbn [negb bind].
    assert (E : mapM (fun w => if is_digits w then parse_int w else Err OtherError) (split (sp :: c :: r)) = Ok (p :: ps)).
    { clear -HF. induction HF as [|w z ws zs [Hz Hd] HF IH]; [reflexivity|]. cbn [mapM].
      replace (is_digits w) with true by (symmetry; unfold is_digits; apply forallb_forall; rewrite Forall_forall in Hd; exact Hd).
      rewrite Hz. cbn [bind]. rewrite IH. reflexivity. }
    rewrite E. reflexivity.
Qed.

Lemma cor_axis na nb nc ws : forall k qs i s, c_axis s = k -> (k < 3) ->
  Forall2 numeral ws qs -> qs <> [] ->
  let n := match k with 0 => na | 1 => nb | _ => nc end in
  let cur := match k with 0 => c_a s | 1 => c_b s | _ => c_c s end in
  c_i s = Z.of_nat i -> Z.of_nat (i + length qs) = (n + 1)%Z -> length cur = i ->
  foldM (cor_word na nb nc) s ws = Ok (mkCors (if k =? 0 then c_a s ++ qs else c_a s) (if k =? 1 then c_b s ++ qs else c_b s) (if k =? 2 then c_c s ++ qs else c_c s) 0 (S k)).
Proof.
  induction ws as [|w ws IH]; intros k qs i s Hk Hk3 HF Hne n cur Hi Hl Hc; inversion HF as [|? q ? qs' Hw HF' E1 E2]; subst; [contradiction|].
  cbn [foldM]. cbn [length] in Hl. destruct s as [xa xb xc ii ax]. cbn [c_a c_b c_c c_i c_axis] in *.
  unfold cor_word at 1. cbn [c_a c_b c_c c_i c_axis].
  destruct ax as [|[|[|ax]]]; [| | |lia]; cbn [Nat.eqb] in *; subst n cur; rewrite Hw; cbn [bind]; unfold insert;
  (match goal with |- context [(?a <=? ?b)%Z] => replace (a <=? b)%Z with true by (symmetry; apply Z.leb_le; lia) end); cbn [bind];
  (destruct qs' as [|q' qs'];
   [ inversion HF'; subst; match goal with |- context [(?a =? ?b)%Z] => replace (a =? b)%Z with true by (symmetry; apply Z.eqb_eq; cbn [length] in Hl; lia) end; reflexivity
   | match goal with |- context [(?a =? ?b)%Z] => replace (a =? b)%Z with false by (symmetry; apply Z.eqb_neq; cbn [length] in Hl; lia) end;
     match goal with |- foldM _ ?s' _ = _ => specialize (IH (c_axis s') (q' :: qs') (S (length (match c_axis s' with 0 => xa | 1 => xb | _ => xc end))) s') end;
     cbn [c_axis c_a c_b c_c c_i Nat.eqb] in IH; rewrite IH; [rewrite <- app_assoc; reflexivity|reflexivity|lia|exact HF'|discriminate| cbn [length] in *; lia|cbn [length] in *; lia|rewrite app_length; cbn [length]; lia] ]).
Qed.
Lemma cor_lines na nb nc A B C ls : (0 <= na)%Z -> (0 <= nb)%Z -> (0 <= nc)%Z ->
  Z.of_nat (length A) = (na + 1)%Z -> Z.of_nat (length B) = (nb + 1)%Z -> Z.of_nat (length C) = (nc + 1)%Z ->
  Numbers (A ++ B ++ C) ls ->
  Forall (fun l => exists r, l = sp :: r) ls /\ foldM (cor_line na nb nc) (mkCors [] [] [] 0 0) ls = Ok (mkCors A B C 0 3).
Proof.
  intros Na Nb Nc Ha Hb Hc [Hf Hw]. split; [exact Hf|]. unfold cor_line.
  rewrite (foldM_map split (fun s ws => foldM (cor_word na nb nc) s ws)), foldM_concat.
  apply Forall2_app_inv_r in Hw as (wa & w2 & HA & Hw & ->). apply Forall2_app_inv_r in Hw as (wb & wc & HB & HC & ->).
  assert (G : forall l a r, foldM (cor_word na nb nc) a (l ++ r) = do b <- foldM (cor_word na nb nc) a l; foldM (cor_word na nb nc) b r).
  { induction l as [|x l IH]; intros a r; [reflexivity|]. cbn [app foldM]. destruct (cor_word na nb nc a x) as [b|]; cbn [bind]; [apply IH|reflexivity]. }
  rewrite G, (cor_axis na nb nc wa 0 A 0); [|reflexivity|lia|exact HA|intros ->; cbn in Ha; lia|reflexivity|cbn [Nat.add]; exact Ha|reflexivity].
  cbn [bind Nat.eqb app c_a c_b c_c]. rewrite G, (cor_axis na nb nc wb 1 B 0); [|reflexivity|lia|exact HB|intros ->; cbn in Hb; lia|reflexivity|cbn [Nat.add]; exact Hb|reflexivity].
  cbn [bind Nat.eqb app c_a c_b c_c]. rewrite (cor_axis na nb nc wc 2 C 0); [|reflexivity|lia|exact HC|intros ->; cbn in Hc; lia|reflexivity|cbn [Nat.add]; exact Hc|reflexivity].
  reflexivity.
Qed.

(** what the lines from d to vals give, whatever was read before *)
Definition cut3 (radiograph : bool) (l : list Q) : list Q := if radiograph then removelast (removelast (removelast l)) else l.
Definition mid_parse (radiograph : bool) (l5 : str) (f5 : file) : res (Z * axis * axis * axis * axis * axis * axis * str * file) :=
  do nDir <- int_at 1 (split l5);
  do '(l6, f6) <- skip_to "u" f5;
  do '(nUsr, uTC, _) <- axis_line "u" false l6;
  let (l7, f7) := readline f6 in
  do '(usr, l8, f8) <- section "s" (insert_line nUsr OtherError) [] l7 f7;
  do '(nSeg, sTC, _) <- axis_line "s" false l8;
  let (l9, f9) := readline f8 in
  do '(seg, l10, f10) <- section "m" (insert_line (if radiograph then nSeg + 1 else nSeg) OtherError) [] l9 f9;
  do '(nMul, mTC, _) <- axis_line "m" false l10;
  do '(l11, f11) <- skip_to "c" f10;
  do '(nCos, cTC, cFl) <- axis_line "c" true l11;
  let (l12, f12) := readline f11 in
  do '(cos, l13, f13) <- section "e" (insert_line (if radiograph then nCos + 1 else nCos) (if radiograph then ValueError else OtherError)) [] l12 f12;
  do '(nErg, eTC, eFl) <- axis_line "e" true l13;
  let (l14, f14) := readline f13 in
  do '(erg, l15, f15) <- section "t" (insert_line nErg OtherError) [] l14 f14;
  do '(nTim, tTC, tFl) <- axis_line "t" true l15;
  let (l16, f16) := readline f15 in
  do '(tim, l17, f17) <- time_bins nTim [] l16 f16;
  Ok (nDir, mkAxis nUsr uTC 0 usr, mkAxis nSeg sTC 0 (cut3 radiograph seg), mkAxis nMul mTC 0 [], mkAxis nCos cTC cFl (cut3 radiograph cos), mkAxis nErg eTC eFl erg, mkAxis nTim tTC tFl tim, l17, f17).
Definition rest_parse (junk : fl * fl) (num ty det : Z) (mesh : bool) parts comm nCells mi na nb nc cells cs
   (x : Z * axis * axis * axis * axis * axis * axis * str * file) : res (tally * option (list str) * file) :=
  let '(nDir, u, s, m, c, e, t, l17, f17) := x in
  let dims := [one1 nCells; one1 nDir; one1 (a_n u); one1 (a_n s); one1 (a_n m); one1 (a_n c); one1 (a_n e); one1 (a_n t); nc; nb; na] in
  if existsb (fun z => z <? 0)%Z dims then Err ValueError
  else
  let idx := cart (map Z.to_nat dims) in
  do '(vs, l18, f18) <- read_vals (length idx) l17 [] f17;
  let vals := combine idx (map (fun o => match o with Some v => v | None => junk end) vs) in
  do '(jtf, dat, l19, f19) <- (if mesh then let (l, g) := skip_mesh l18 f18 in Ok ([], [], l, g) else read_tfc f18);
  Ok (mkTally num ty det (3 <=? det)%Z mesh parts comm nCells (mi, na, nb, nc) cells
        (removelast (c_a cs)) (removelast (c_b cs)) (removelast (c_c cs)) nDir u s m c e t vals jtf dat,
      match l19 with [] => None | _ => Some (split l19) end, f19).
Lemma parse_split junk num ty det ws f : int_at 1 ws = Ok num -> int_at 2 ws = Ok ty -> int_at 3 ws = Ok det ->
  forall parts l2 f2 comm l3 f3 nCells mi na nb nc cells cs l5 f5 x,
  particles (hd [] f) (tl f) = Ok (parts, l2, f2) -> comments l2 f2 = (comm, l3, f3) ->
  (if (det <=? -1)%Z then do a <- int_at 2 (split l3); do b <- int_at 3 (split l3); do c <- int_at 4 (split l3); do d <- int_at 5 (split l3); Ok (1%Z, (a, b, c, d))
     else do n <- int_at 1 (split l3); Ok (n, (0, 1, 1, 1)%Z)) = Ok (nCells, (mi, na, nb, nc)) ->
  (let cells0 := if (Z.abs num mod 10 =? 5)%Z then map (fun k => inject_Z (Z.of_nat k)) (seq 1 (Z.to_nat nCells)) else [] in
   if (det <=? -1)%Z then do '(s, l, g) <- section "d" (cor_line na nb nc) (mkCors [] [] [] 0 0) (hd [] f3) (tl f3); Ok ((cells0, s), l, g)
     else do '(xs, l, g) <- section "d" (cell_line nCells) cells0 (hd [] f3) (tl f3); Ok ((xs, mkCors [] [] [] 0 0), l, g)) = Ok ((cells, cs), l5, f5) ->
  mid_parse (3 <=? det)%Z l5 f5 = Ok x ->
  parse_tally junk ws f = rest_parse junk num ty det (det <=? -1)%Z parts comm nCells mi na nb nc cells cs x.
Proof.
  intros E1 E2 E3 parts l2 f2 comm l3 f3 nCells mi na nb nc cells cs l5 f5 x Ep Ec En Es Em.
  unfold parse_tally. rewrite E1, E2, E3. cbn [bind].
  change (readline f) with (hd [] f, tl f). cbn iota beta. rewrite Ep. cbn [bind]. rewrite Ec. cbn iota beta. rewrite En. cbn [bind].
  change (readline f3) with (hd [] f3, tl f3). cbn iota beta. cbn zeta in Es. rewrite Es. cbn [bind].
  revert Em. unfold mid_parse.
  repeat match goal with
  | |- (do _ <- ?m; _) = Ok _ -> _ => let D := fresh "D" in destruct m as [?|?] eqn:D; cbn [bind]; [|intros X; discriminate X]
  | |- (let (_, _) := ?p in _) = Ok _ -> _ => let a := fresh "a" in let b := fresh "b" in destruct p as [a b]; cbn [bind]
  end.
  intros X. injection X as <-. cbn [rest_parse a_n]. reflexivity.
Qed.
