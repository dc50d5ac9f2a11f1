(** C41 and C53: meshtal files *)
From Coq Require Import Lia ZArith.
From Verif Require Import PyBase PyStr PyText DataModel MeshModel MeshSpec MeshProofs MeshProofs2.
Open Scope nat_scope.

(** A mesh printed in any of the layouts column, ij, ik, jk is read into the same array, whatever the
    header lines of the layout and the rest of the file say. *)
Theorem C41_every_layout_is_read_into_the_same_array old cyl times L nt ne nz ny nx V f rest :
  (times = false -> nt = 1) -> announces cyl times L f -> PrintedIn L times nt ne nz ny nx V f ->
  exists a, get_mesh_data old cyl times nt ne nz ny nx (f ++ rest) = Ok a /\ Holds nt ne nz ny nx V a.
Proof. apply mesh_data_ok. Qed.
Print Assumptions C41_every_layout_is_read_into_the_same_array.

Theorem C41_layouts_agree old cyl times L L' nt ne nz ny nx V f f' a a' :
  (times = false -> nt = 1) -> announces cyl times L f -> PrintedIn L times nt ne nz ny nx V f ->
  announces cyl times L' f' -> PrintedIn L' times nt ne nz ny nx V f' ->
  get_mesh_data old cyl times nt ne nz ny nx f = Ok a -> get_mesh_data old cyl times nt ne nz ny nx f' = Ok a' ->
  forall t e k j i, t < nt -> e < ne -> k < nz -> j < ny -> i < nx -> a t e k j i = a' t e k j i.
Proof.
  intros Ht H1 H2 H3 H4 E E' t e k j i ? ? ? ? ?.
  destruct (mesh_data_ok old cyl times L nt ne nz ny nx V f [] Ht H1 H2) as (b & Eb & Hb).
  destruct (mesh_data_ok old cyl times L' nt ne nz ny nx V f' [] Ht H3 H4) as (b' & Eb' & Hb').
  rewrite app_nil_r in Eb, Eb'. rewrite E in Eb. rewrite E' in Eb'. injection Eb as ->. injection Eb' as ->.
  rewrite Hb, Hb' by assumption. reflexivity.
Qed.
Print Assumptions C41_layouts_agree.

(** The column layout with volumes (out=cf: value, error, volume, value times volume) is taken for the
    plain column layout: every such file is read into an array of volumes and products. *)
Theorem C41_column_layout_with_volumes_refuted old cyl times nt ne nz ny nx V W f rest : announces cyl times LCol f ->
  ColData nt ne nz ny nx (fun t e k j i => Last4 (V t e k j i) (fst (W t e k j i)) (snd (W t e k j i))) f ->
  exists a, get_mesh_data old cyl times nt ne nz ny nx (f ++ rest) = Ok a /\ Holds nt ne nz ny nx W a.
Proof. apply cf_ok. Qed.
Print Assumptions C41_column_layout_with_volumes_refuted.

(** ** concrete files: a 2 x 1 x 1 mesh in column and jk layouts *)
Definition ln (s : string) : str := s2l s ++ [nl].
Definition num (s : string) : Q := match parse_float (s2l s) with Ok q => q | _ => 0%Q end.
Definition exV : nat -> nat -> nat -> nat -> nat -> Q * Q := fun t e k j i =>
  if i =? 0 then (num "1.50000E+00", num "1.00000E-01") else (num "2.50000E+00", num "2.00000E-01").
Definition ex_col : file := [ln "      X   Y   Z   Result   Rel Error"; ln "  0.5 0.5 0.5 1.50000E+00 1.00000E-01"; ln " 1.5 0.5 0.5 2.50000E+00 2.00000E-01"].
Definition ex_jk (v e : string) (b : string) : list str :=
  [ln b; ln "  Tally Results:  Z (across) by Y (down)"; ln "       0.5"; ln ""; ln ("  0.5 " ++ v); ln "";
   ln "   Relative Errors"; ln "        0.5"; ln ("  0.5 " ++ e); ln ""; ln ""].
Definition ex_block : file := [ln " "; ln "Energy Bin: all"] ++ (ex_jk "1.50000E+00" "1.00000E-01" "X bin: 0 - 1") ++ (ex_jk "2.50000E+00" "2.00000E-01" "X bin: 1 - 2") ++ [ln ""].
Ltac each0 l := exists l; split; [reflexivity|split; [reflexivity|]];
  let i := fresh in let p := fresh in let H := fresh in intros i p H;
  repeat (destruct i as [|i]; [cbn [nth_error] in H; injection H as <-|cbn [nth_error] in H]);
  try (destruct i; discriminate H).

Example C41_witness_column : announces false false LCol ex_col /\ PrintedIn LCol false 1 1 1 1 2 exV ex_col.
Proof.
  split.
  - exists (ln "      X   Y   Z   Result   Rel Error"). split; [reflexivity|]. apply has_iff. reflexivity.
  - exists [ln "      X   Y   Z   Result   Rel Error"], (tl ex_col). split; [reflexivity|split; [reflexivity|]].
    each0 [tl ex_col]. each0 [tl ex_col]. each0 [[nth 1 ex_col []]; [nth 2 ex_col []]].
    + each0 [[nth 1 ex_col []]]. each0 [[nth 1 ex_col []]].
      exists (nth 1 ex_col []), [s2l "0.5"; s2l "0.5"; s2l "0.5"], (s2l "1.50000E+00"), (s2l "1.00000E-01"). repeat split; vm_compute; reflexivity.
    + each0 [[nth 2 ex_col []]]. each0 [[nth 2 ex_col []]].
      exists (nth 2 ex_col []), [s2l "1.5"; s2l "0.5"; s2l "0.5"], (s2l "2.50000E+00"), (s2l "2.00000E-01"). repeat split; vm_compute; reflexivity.
Qed.

Example C41_witness_jk : announces false false LJK ex_block /\ PrintedIn LJK false 1 1 1 1 2 exV ex_block.
Proof.
  split.
  - exists (ln " "), (ln "X bin: 0 - 1"). split; [reflexivity|].
    split; [intros H; apply has_iff in H; discriminate H|]. split; [intros H; apply has_iff in H; discriminate H|].
    split; [reflexivity|]. split; [apply has_iff; reflexivity|].
    intros [| | |] H1 H2; try contradiction; intros H; apply has_iff in H; discriminate H.
  - each0 [ex_block]. exists (firstn 2 ex_block), (skipn 2 ex_block). split; [reflexivity|split; [reflexivity|]].
    exists (firstn 22 (skipn 2 ex_block)), [ln ""]. split; [reflexivity|split; [|reflexivity]].
    each0 [ex_jk "1.50000E+00" "1.00000E-01" "X bin: 0 - 1"; ex_jk "2.50000E+00" "2.00000E-01" "X bin: 1 - 2"].
    + exists (firstn 10 (ex_jk "1.50000E+00" "1.00000E-01" "X bin: 0 - 1")), [ln ""]. split; [reflexivity|split; [|reflexivity]].
      do 2 (eexists (_ :: _ :: nil), _; split; [reflexivity|split; [reflexivity|]]).
      eexists (_ :: nil), _; split; [reflexivity|split].
      { each0 [[ln ("  0.5 " ++ "1.50000E+00")]]. exists (ln ("  0.5 " ++ "1.50000E+00")), (s2l "0.5"), [s2l "1.50000E+00"].
        repeat split; try (vm_compute; reflexivity). intros [|[|c]] w H; cbn [nth_error] in H; try discriminate H. injection H as <-. vm_compute. reflexivity. }
      eexists (_ :: nil), _; split; [reflexivity|split; [reflexivity|]].
      eexists (_ :: _ :: nil), _; split; [reflexivity|split; [reflexivity|]].
      eexists (_ :: nil), _; split; [reflexivity|split; [|reflexivity]].
      each0 [[ln ("  0.5 " ++ "1.00000E-01")]]. exists (ln ("  0.5 " ++ "1.00000E-01")), (s2l "0.5"), [s2l "1.00000E-01"].
      repeat split; try (vm_compute; reflexivity). intros [|[|c]] w H; cbn [nth_error] in H; try discriminate H. injection H as <-. vm_compute. reflexivity.
    + exists (firstn 10 (ex_jk "2.50000E+00" "2.00000E-01" "X bin: 1 - 2")), [ln ""]. split; [reflexivity|split; [|reflexivity]].
      do 2 (eexists (_ :: _ :: nil), _; split; [reflexivity|split; [reflexivity|]]).
      eexists (_ :: nil), _; split; [reflexivity|split].
      { each0 [[ln ("  0.5 " ++ "2.50000E+00")]]. exists (ln ("  0.5 " ++ "2.50000E+00")), (s2l "0.5"), [s2l "2.50000E+00"].
        repeat split; try (vm_compute; reflexivity). intros [|[|c]] w H; cbn [nth_error] in H; try discriminate H. injection H as <-. vm_compute. reflexivity. }
      eexists (_ :: nil), _; split; [reflexivity|split; [reflexivity|]].
      eexists (_ :: _ :: nil), _; split; [reflexivity|split; [reflexivity|]].
      eexists (_ :: nil), _; split; [reflexivity|split; [|reflexivity]].
      each0 [[ln ("  0.5 " ++ "2.00000E-01")]]. exists (ln ("  0.5 " ++ "2.00000E-01")), (s2l "0.5"), [s2l "2.00000E-01"].
      repeat split; try (vm_compute; reflexivity). intros [|[|c]] w H; cbn [nth_error] in H; try discriminate H. injection H as <-. vm_compute. reflexivity.
Qed.

(** the same voxel with its volume 8 and the product 12: the array holds (8, 12), not (1.5, 0.1) *)
Example C41_witness_volumes :
  match get_mesh_data (fun _ _ _ _ _ _ => Err OtherError) true false 1 1 1 1 1 [ln " R Z Th Result Rel Error Volume Rslt * Vol"; ln " 1.0 1.0 0.5 1.50000E+00 1.00000E-01 8.00000E+00 1.20000E+01"] with
  | Ok a => match a 0 0 0 0 0 with Some (v, e) => Qeq_bool v 8 && Qeq_bool e 12 | None => false end
  | Err _ => false
  end = true.
Proof. vm_compute. reflexivity. Qed.

(** Every mesh tally of a file is read from its own part of the text: its boundaries, its bins, its
    particle and comments, and its values; no other tally is in the result. *)
Theorem C53_every_tally_is_read_from_its_own_text {T} (trsf : str -> res (option T)) old ss f : FileText trsf ss f ->
  exists d r, scan_meshfile f = Ok d /\ read_mesh trsf old Every d = Some (Ok r)
    /\ (forall s, In s ss -> exists m, dget Z.eqb (t_num s) r = Some m /\ MeshOf s m)
    /\ (forall n, In n (dkeys r) <-> In n (map t_num ss)).
Proof.
  intros HF. destruct (scan_file trsf ss f HF) as (d & Ed & _). destruct (read_every trsf old ss f d HF Ed) as (r & H).
  exists d, r. auto.
Qed.
Print Assumptions C53_every_tally_is_read_from_its_own_text.

(** Asking for some tallies gives those and no other, read as when all are read. *)
Theorem C53_only_the_asked_tallies_are_read {T} (trsf : str -> res (option T)) old ss f zs : FileText trsf ss f ->
  (forall z, In z zs -> In z (map t_num ss)) -> zs <> [] ->
  exists d r, scan_meshfile f = Ok d /\ read_mesh trsf old (Many zs) d = Some (Ok r)
    /\ (forall s, In s ss -> In (t_num s) zs -> exists m, dget Z.eqb (t_num s) r = Some m /\ MeshOf s m)
    /\ (forall n, In n (dkeys r) <-> In n zs).
Proof.
  intros HF Hz Hne. destruct (scan_file trsf ss f HF) as (d & Ed & _). destruct (read_some trsf old ss f d zs HF Ed Hz Hne) as (r & H).
  exists d, r. auto.
Qed.
Print Assumptions C53_only_the_asked_tallies_are_read.

(** asking for tally 0 or for an empty list reads them all, and asking for one number is asking for the
    list of it *)
Theorem C53_zero_reads_them_all {T} (trsf : str -> res (option T)) old d z : z <> 0%Z ->
  read_mesh trsf old (One 0) d = read_mesh trsf old Every d /\ read_mesh trsf old (Many []) d = read_mesh trsf old Every d /\
  read_mesh trsf old (One z) d = read_mesh trsf old (Many [z]) d.
Proof. intros N. repeat split. unfold read_mesh. destruct (Z.eqb_spec z 0); [contradiction|reflexivity]. Qed.
Print Assumptions C53_zero_reads_them_all.
(** A number that is not in the file is refused (number 0 asks for every tally). *)
Theorem C53_absent_tally_is_refused {T} (trsf : str -> res (option T)) old ss f z : FileText trsf ss f -> ~ In z (map t_num ss) -> z <> 0%Z ->
  exists d, scan_meshfile f = Ok d /\ read_mesh trsf old (One z) d = Some (Err KeyError).
Proof.
  intros HF Hz Hne. destruct (scan_file trsf ss f HF) as (d & Ed & _). exists d. split; [exact Ed|]. exact (read_absent trsf old ss f d z HF Ed Hz Hne).
Qed.
Print Assumptions C53_absent_tally_is_refused.

(** ** a file with two tallies: the column mesh above as tally 4, and tally 14 with two energy bins and
    their total *)
Definition ex4 : tally_text unit := mkTT 4 [ln "   my comment"] (ln " neutron  mesh tally.") [ln " This mesh tally is modified."]
  (mkBounds false None [num "0.00"; num "1.00"; num "2.00"] [num "0.00"; num "1.00"] [num "0.00"; num "1.00"]
     (mkBin [num "0.00E+00"; num "1.00E+36"] Erg true) (mkBin [0%Q; inject_Z (10 ^ 20)] Tme false))
  [ln "  X direction:  0.00 1.00 2.00"; ln " Y direction:  0.00 1.00"; ln " Z direction: 0.00 1.00"; ln " Energy bin boundaries: 0.00E+00 1.00E+36"]
  LCol (ex_col ++ [ln ""]) exV.
Definition exW : nat -> nat -> nat -> nat -> nat -> Q * Q := fun t e k j i => nth e [(num "1.0", num "0.1"); (num "2.0", num "0.2"); (num "3.0", num "0.3")] (0, 0)%Q.
Definition ex14 : tally_text unit := mkTT 14 [] (ln "decay photon  mesh tally.") []
  (mkBounds false None [num "0.00"; num "1.00"] [num "0.00"; num "1.00"] [num "0.00"; num "1.00"]
     (mkBin [num "0.0"; num "1.0"; num "2.0"] Erg true) (mkBin [0%Q; inject_Z (10 ^ 20)] Tme false))
  [ln "  X direction:  0.00 1.00"; ln " Y direction:  0.00 1.00"; ln " Z direction: 0.00 1.00"; ln " Energy bin boundaries: 0.0 1.0 2.0"]
  LCol [ln " Energy X Y Z Result Rel Error"; ln " 1.0 .5 .5 .5 1.0 0.1"; ln " 2.0 .5 .5 .5 2.0 0.2"; ln " Total .5 .5 .5 3.0 0.3"; ln ""] exW.
Definition tally_lines (n : string) (s : tally_text unit) : list str :=
  [ln (" Mesh Tally Number" ++ n)] ++ t_comments s ++ [t_part s] ++ t_more s ++ [ln ""; ln " Tally bin boundaries:"] ++ t_btext s ++ [ln " "] ++ t_dtext s.
Ltac not_blank := let H := fresh in intros H; apply blank_iff in H; discriminate H.
Ltac not_in := let H := fresh in intros H; apply has_iff in H; discriminate H.
Ltac all_lines t := repeat (first [apply Forall_nil | apply Forall_cons; [t|]]).
Ltac nums := repeat (first [apply Forall2_nil | apply Forall2_cons; [vm_compute; reflexivity|]]).
Ltac bin_line lab txt := exists (s2l lab), (s2l txt ++ [nl]); split; [reflexivity|]; split; [cbn; intuition discriminate|]; split; [reflexivity|]; nums.

Example C53_witness : FileText (fun _ => Ok None) [ex4; ex14] ([ln "mcnp   version 6"; ln " title"; ln ""] ++ tally_lines "         4" ex4 ++ tally_lines "        14" ex14).
Proof.
  exists [ln "mcnp   version 6"; ln " title"; ln ""], [tally_lines "         4" ex4; tally_lines "        14" ex14].
  split; [reflexivity|]. split; [all_lines ltac:(intros H; apply mesh_line_iff in H; discriminate H)|].
  split; [|repeat constructor; cbn; intuition discriminate].
  apply Forall2_cons; [|apply Forall2_cons; [|apply Forall2_nil]].
  - exists 9, (ln ""), (ln " Tally bin boundaries:"), (ln " ").
    split; [reflexivity|]. split; [cbn; lia|].
    split; [all_lines ltac:(split; [not_blank|not_in])|].
    split; [not_blank|]. split; [apply has_iff; reflexivity|]. split; [all_lines not_blank|].
    split; [apply blank_iff; reflexivity|]. split; [not_blank|]. split; [all_lines not_blank|]. split; [apply blank_iff; reflexivity|].
    split.
    + exists [], (nth 0 (t_btext ex4) []), (nth 1 (t_btext ex4) []), (nth 2 (t_btext ex4) []), [], [], (nth 3 (t_btext ex4) []),
        (s2l "  X direction" ++ [":"%char]), (s2l " Y direction" ++ [":"%char]), (s2l " Z direction" ++ [":"%char]), Erg, [num "0.00E+00"; num "1.00E+36"].
      split; [reflexivity|]. split; [split; [reflexivity|split; [not_in|reflexivity]]|].
      split; [bin_line "  X direction"%string "  0.00 1.00 2.00"%string|].
      split; [bin_line " Y direction"%string "  0.00 1.00"%string|].
      split; [bin_line " Z direction"%string " 0.00 1.00"%string|].
      split; [left; split; [reflexivity|not_in]|].
      split; [exists (s2l " Energy bin boundaries" ++ [":"%char]); split; [bin_line " Energy bin boundaries"%string " 0.00E+00 1.00E+36"%string|apply has_iff; reflexivity]|].
      split; [reflexivity|]. left. split; reflexivity.
    + split; [discriminate|]. split; [discriminate|]. split; [discriminate|].
      split; [all_lines ltac:(intros H; apply mesh_line_iff in H; discriminate H)|].
      exists ex_col, [ln ""]. split; [reflexivity|]. exact C41_witness_column.
  - exists 8, (ln ""), (ln " Tally bin boundaries:"), (ln " ").
    split; [reflexivity|]. split; [cbn; lia|].
    split; [apply Forall_nil|].
    split; [not_blank|]. split; [apply has_iff; reflexivity|]. split; [apply Forall_nil|].
    split; [apply blank_iff; reflexivity|]. split; [not_blank|]. split; [all_lines not_blank|]. split; [apply blank_iff; reflexivity|].
    split.
    + exists [], (nth 0 (t_btext ex14) []), (nth 1 (t_btext ex14) []), (nth 2 (t_btext ex14) []), [], [], (nth 3 (t_btext ex14) []),
        (s2l "  X direction" ++ [":"%char]), (s2l " Y direction" ++ [":"%char]), (s2l " Z direction" ++ [":"%char]), Erg, [num "0.0"; num "1.0"; num "2.0"].
      split; [reflexivity|]. split; [split; [reflexivity|split; [not_in|reflexivity]]|].
      split; [bin_line "  X direction"%string "  0.00 1.00"%string|].
      split; [bin_line " Y direction"%string "  0.00 1.00"%string|].
      split; [bin_line " Z direction"%string " 0.00 1.00"%string|].
      split; [left; split; [reflexivity|not_in]|].
      split; [exists (s2l " Energy bin boundaries" ++ [":"%char]); split; [bin_line " Energy bin boundaries"%string " 0.0 1.0 2.0"%string|apply has_iff; reflexivity]|].
      split; [reflexivity|]. left. split; reflexivity.
    + split; [discriminate|]. split; [discriminate|]. split; [discriminate|].
      split; [all_lines ltac:(intros H; apply mesh_line_iff in H; discriminate H)|].
      exists (firstn 4 (t_dtext ex14)), [ln ""]. split; [reflexivity|]. split.
      * exists (nth 0 (t_dtext ex14) []). split; [reflexivity|apply has_iff; reflexivity].
      * exists (firstn 1 (t_dtext ex14)), (firstn 3 (skipn 1 (t_dtext ex14))). split; [reflexivity|split; [reflexivity|]].
        each0 [[nth 1 (t_dtext ex14) []]; [nth 2 (t_dtext ex14) []]; [nth 3 (t_dtext ex14) []]].
        -- do 4 (each0 [[nth 1 (t_dtext ex14) []]]). exists (nth 1 (t_dtext ex14) []), [s2l "1.0"; s2l ".5"; s2l ".5"; s2l ".5"], (s2l "1.0"), (s2l "0.1").
           repeat split; vm_compute; reflexivity.
        -- do 4 (each0 [[nth 2 (t_dtext ex14) []]]). exists (nth 2 (t_dtext ex14) []), [s2l "2.0"; s2l ".5"; s2l ".5"; s2l ".5"], (s2l "2.0"), (s2l "0.2").
           repeat split; vm_compute; reflexivity.
        -- do 4 (each0 [[nth 3 (t_dtext ex14) []]]). exists (nth 3 (t_dtext ex14) []), [s2l "Total"; s2l ".5"; s2l ".5"; s2l ".5"], (s2l "3.0"), (s2l "0.3").
           repeat split; vm_compute; reflexivity.
Qed.
