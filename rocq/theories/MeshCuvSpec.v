(** What a CUV file and a CDGS source say, independently of how they are read *)
From Coq Require Import Qreduction.
From Verif Require Import PyBase PyStr MeshModel MeshSpec.
Open Scope nat_scope.

(** a cell of a voxel: number, fraction of the voxel it fills, value and error for each energy bin *)
Record vcell := mkVC { vc_num : Z; vc_frac : Q; vc_val : nat -> Q; vc_err : nat -> Q }.
Record voxel := mkVox { vx_vol : Q; vx_cells : list vcell }.

(* the cells that count: those of the filter, all without one *)
Definition chosen (filt : option (list Z)) (v : voxel) : list vcell :=
  match filt with
  | None => vx_cells v
  | Some l => filter (fun c => existsb (Z.eqb (vc_num c)) l) (vx_cells v)
  end.
Definition wsum (g : vcell -> Q) (cs : list vcell) : Q := fold_right (fun c s => (vc_frac c * g c + s)%Q) 0%Q cs.
Definition one (c : vcell) : Q := 1%Q.
(* the part of the voxel the chosen cells fill *)
Definition filled (filt : option (list Z)) (v : voxel) : Q := wsum one (chosen filt v).
(** total in the voxel (ctot) or average over the chosen cells (celf) *)
Definition value_of (total : bool) (filt : option (list Z)) (v : voxel) (e : nat) : Q :=
  if Qeq_bool (filled filt v) 0 then 0%Q
  else if total then (wsum (fun c => vc_val c e) (chosen filt v) * vx_vol v)%Q
       else (wsum (fun c => vc_val c e) (chosen filt v) / filled filt v)%Q.
(* the relative error of the weighted sum when the cells are fully correlated *)
Definition error_of (filt : option (list Z)) (v : voxel) (e : nat) : Q :=
  (wsum (fun c => vc_val c e * vc_err c e)%Q (chosen filt v) / wsum (fun c => vc_val c e) (chosen filt v))%Q.

(* without a filter the fractions of the voxel sum to 1; with one, a lone cell fills the voxel *)
Definition Regular (filt : option (list Z)) (v : voxel) : Prop :=
  match filt with
  | None => filled None v == 1
  | Some _ => match vx_cells v with [c] => vc_frac c == 1 | _ => True end
  end%Q.

Definition Ints (w : str) (z : Z) : Prop := exists q, numeral w q /\ (q == inject_Z z)%Q.
Definition Nums (ne : nat) (v : nat -> Q) (l : str) : Prop :=
  length (split l) = ne /\ forall c w, nth_error (split l) c = Some w -> numeral w (v c).
(* "cell fraction", with a total and its error when [tot] *)
Definition CellHead (tot : bool) (c : vcell) (l : str) : Prop :=
  exists w0 w1 ws, split l = w0 :: w1 :: ws /\ Ints w0 (vc_num c) /\ numeral w1 (vc_frac c)
    /\ (if tot then exists a b qa qb, ws = [a; b] /\ numeral a qa /\ numeral b qb else ws = []).
Definition CellVals (ne : nat) (c : vcell) (ls : list str) : Prop :=
  exists lv le, ls = [lv; le] /\ Nums ne (vc_val c) lv /\ Nums ne (vc_err c) le.
(* "index x y z volume ncell" *)
Definition VoxelHead (v : voxel) (l : str) : Prop :=
  exists w0 w1 w2 w3 wv wn ws, split l = w0 :: w1 :: w2 :: w3 :: wv :: wn :: ws
    /\ numeral wv (vx_vol v) /\ Ints wn (Z.of_nat (length (vx_cells v))).
Definition VoxelText (tot : bool) (ne : nat) (v : voxel) : Txt := fun ls =>
  exists h heads vals, ls = h :: heads ++ concat vals /\ VoxelHead v h
    /\ Forall2 (CellHead tot) (vx_cells v) heads /\ Forall2 (CellVals ne) (vx_cells v) vals.
(** a CUV mesh: one line and the voxels, i slowest and k fastest *)
Definition CuvText (tot : bool) (ne nz ny nx : nat) (vox : nat -> nat -> nat -> voxel) : Txt :=
  Any 1 >> Each nx (fun i => Each ny (fun j => Each nz (fun k => VoxelText tot ne (vox k j i)))).

(** ** CDGS sources *)
(* n numbers on as many lines as wanted, the last line not being empty *)
Definition Wrapped (n : nat) (v : nat -> Q) : Txt := fun ls =>
  exists ws, concat (map split ls) = ws /\ length ws = n /\ (ls = [] \/ split (last ls []) <> [])
    /\ forall c w, nth_error ws c = Some w -> numeral w (v c).
(* with one energy bin there is no total; with n > 1 the total is entry n of the cell: printed after the fraction,
   or the sum of the entries *)
Definition TotalText (n : nat) (c : vcell) (ws : list str) : Prop :=
  if n =? 1 then True
  else match ws with
       | [] => vc_val c n = fold_right Qplus 0%Q (map (vc_val c) (seq 0 n)) /\ vc_err c n = 0%Q
       | [a] => numeral a (vc_val c n) /\ vc_err c n = 0%Q
       | a :: b :: _ => numeral a (vc_val c n) /\ numeral b (vc_err c n)
       end.
Definition SrcCell (n : nat) (c : vcell) : Txt := fun ls =>
  exists h w0 w1 ws lv le, ls = h :: lv ++ le /\ split h = w0 :: w1 :: ws /\ Ints w0 (vc_num c) /\ numeral w1 (vc_frac c)
    /\ TotalText n c ws /\ Wrapped n (vc_val c) lv /\ Wrapped n (vc_err c) le.
(* "index ... volume ncell" and the cells; voxels are numbered from 1 *)
Definition SrcVoxel (n : nat) (iv : nat * voxel) : Txt := fun ls =>
  exists h pre w0 wv wn cts, ls = h :: concat cts /\ split h = w0 :: pre ++ [wv; wn]
    /\ Ints w0 (Z.of_nat (S (fst iv))) /\ numeral wv (vx_vol (snd iv)) /\ Ints wn (Z.of_nat (length (vx_cells (snd iv))))
    /\ Forall2 (SrcCell n) (vx_cells (snd iv)) cts.
(* only the voxels with a source are listed, in increasing order *)
Fixpoint Listed (lo hi : nat) (src : list (nat * voxel)) : Prop :=
  match src with [] => True | (i, _) :: src' => lo <= i < hi /\ Listed (S i) hi src' end.
Definition SrcText (n : nat) (src : list (nat * voxel)) : Txt := fun ls =>
  exists vts e ws tail, ls = concat vts ++ e :: tail /\ split e = s2l "end_source_data" :: ws /\ Forall2 (SrcVoxel n) src vts.
Definition find_voxel (n : nat) (src : list (nat * voxel)) : option voxel :=
  match find (fun iv => fst iv =? n) src with Some (_, v) => Some v | None => None end.
(** intensity of a voxel: the cells weighted by the fraction they fill; none when the voxel is not listed *)
Definition intensity (n : nat) (src : list (nat * voxel)) (e : nat) : Q :=
  match find_voxel n src with Some v => wsum (fun c => vc_val c e) (vx_cells v) | None => 0%Q end.
Definition src_error (n : nat) (src : list (nat * voxel)) (e : nat) : Q :=
  match find_voxel n src with Some v => error_of None v e | None => 0%Q end.
(* the energy axis: the n bins and, when there is more than one, their total *)
Definition axis (n : nat) : nat := if n =? 1 then 1 else S n.
(* some of the voxel is filled; a cell alone in its voxel fills it *)
Definition Fills (v : voxel) : Prop := (~ wsum one (vx_cells v) == 0)%Q.
Definition LoneFull (v : voxel) : Prop := match vx_cells v with [c] => (vc_frac c == 1)%Q | _ => True end.
